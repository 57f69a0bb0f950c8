(** Positions of array items in headings: the 2 of "bids/2/value". *)
From Coq Require Import ZArith.
From Verif.Base Require Import PyStr PyNum PyVal PyDict Outcome.
From Verif.Model Require Import Warn Lib Convert Input.
From Verif.Spec Require Import Filled.

(** the parts of a heading that are not positions *)
Definition names (parts : list str) : list str := filter (fun s => negb (isint s)) parts.

(** In the heading with the parts [parts], what follows the part that ends the
    names [a]: the position [Some n], or [None] when no number follows. *)
Inductive stands (parts a : list str) : option Z -> Prop :=
| stands_here before item after : parts = before ++ item :: after -> isint item = false -> names (before ++ [item]) = a ->
    stands parts a (parse_int (hd [] after)).

(** every filled cell of the row gives the array [a] the position [at_ a] *)
Definition one_position (E : env) (at_ : list str -> option Z) (r : frow) : Prop :=
  forall c a n, In c (fr_cells r) -> stands (path_items E (fc_key c)) a n -> at_ a = n.

(** Two rows with the same values under headings that differ in the positions only.
    Where the schema does not say that there is an array, a position may be
    another number, but it cannot be left out.  (Headings with an empty part, as
    in "a//b", are not considered.) *)
Definition same_but_positions (O : opts) (r r' : frow) : Prop :=
  fr_root r = fr_root r' /\
  Forall2 (fun c c' => fc_value c = fc_value c' /\ ~ In [] (path_items (o_conv O) (fc_key c)) /\
                       names (path_items (o_conv O) (fc_key c)) = names (path_items (o_conv O) (fc_key c'))) (fr_cells r) (fr_cells r') /\
  exists at_ at', one_position (o_conv O) at_ r /\ one_position (o_conv O) at' r' /\
    forall a, o_types O (join [slash] a) = u "array" \/ (at_ a = None <-> at' a = None).

(** warnings without the headings and the sheets they name *)
Definition unheaded (w : warning) : list warning :=
  match w with
  | WDuplicateHeading _ _ _ => []
  | WNumberColumn _ => []
  | WDuplicate ri r n i k _ a b => [WDuplicate ri r n i k [] a b]
  | WIgnored _ y => [WIgnored SNone y]
  | WColumnArray _ t => [WColumnArray SNone t]
  | WColumnObject _ t => [WColumnObject SNone t]
  | _ => [w]
  end.

(** ** Leaving positions out *)
(** the heading without its positions *)
Definition bare (E : env) (h : scalar) : scalar := SStr (join [slash] (names (path_items E h))).
Definition bare_sheet (E : env) (s : sheet_in) : sheet_in :=
  {| si_name := si_name s; si_headings := option_map (map (bare E)) (si_headings s);
     si_lines := map (map (fun kv : scalar * scalar => (bare E (fst kv), snd kv))) (si_lines s) |}.
(** the heading starts with a name and has no empty part *)
Definition plain_heading (E : env) (h : scalar) : Prop :=
  ~ In [] (path_items E h) /\ names (path_items E h) <> [].
(** The positions in the headings of the filled cells of a row can be left out: the
    row has one position per array, and all of these are arrays in the schema. *)
Definition droppable (O : opts) (r : frow) : Prop :=
  (forall c, In c (fr_cells r) -> plain_heading (o_conv O) (fc_key c)) /\
  (exists at_, one_position (o_conv O) at_ r) /\
  (forall c a n, In c (fr_cells r) -> stands (path_items (o_conv O) (fc_key c)) a (Some n) -> o_types O (join [slash] a) = u "array").
(** the root id's column is that of the root id before and after *)
Definition keeps_root (O : opts) (s : sheet_in) : Prop :=
  o_root_id O = [] \/
  (bare (o_conv O) (SStr (o_root_id O)) = SStr (o_root_id O) /\
   forall line kv, In line (si_lines s) -> In kv line -> bare (o_conv O) (fst kv) = SStr (o_root_id O) -> fst kv = SStr (o_root_id O)).
