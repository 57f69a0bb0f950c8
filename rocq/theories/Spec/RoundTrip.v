(** Flattening and then unflattening: the documents for which the result is the
    document, the tables in between, and what "the same" means. *)
From Coq Require Import Permutation.
From Verif.Base Require Import PyStr PyNum PyVal PyDict Outcome.
From Verif.Model Require Import Convert Input Flatten.
From Verif.Spec Require Import Flat Sites Paths Headings.

(** ** Documents *)
(** a key that can stand in a heading: not empty, not a number, without "/", not
    ending in a bracket *)
Definition heading_key (k : str) : Prop := field_name k /\ ~ In 47%N k /\ rstrip is_bracket k = k.
(** non-empty texts and whole numbers: what ids can be *)
Definition plain_value (s : scalar) : Prop := (exists t, s = SStr t /\ t <> []) \/ exists z, s = SInt z.
(** the value of the id field *)
Definition id_field (idn : str) (y : jv) : option jv := match y with JO d => sget idn d | _ => None end.
Definition has_value (o : option jv) : Prop := exists s, o = Some (JS s) /\ plain_value s.
(** what fills one cell: a value, an array of values, an array of such arrays *)
Definition leaf (y : jv) : Prop :=
  match y with
  | JS s => basic s = true
  | JA l => l <> [] /\ ((forall x, In x l -> jbasic x = true) \/ (forall x, In x l -> exists l', x = JA l' /\ forall z, In z l' -> jbasic z = true))
  | JO _ => False
  end.
(** no empty objects or arrays, no key twice, the id field holds a plain value,
    arrays are leaves or hold objects with different ids *)
Inductive tidy (idn : str) : jv -> Prop :=
| tidy_leaf y : leaf y -> tidy idn y
| tidy_object d : d <> [] -> NoDup (map fst d) -> (forall k v, In (k, v) d -> heading_key k /\ tidy idn v) ->
    (forall v, sget idn d = Some v -> has_value (Some v)) -> tidy idn (JO d)
| tidy_array l : l <> [] -> (forall y, In y l -> tidy idn y /\ has_value (id_field idn y)) -> NoDup (map (id_field idn) l) -> tidy idn (JA l).

Section Docs.
  Variable O : popts.
  Notation idn := (po_id_name O).
  Notation rid := (po_root_id O).
  (** root id and id of a record *)
  Definition root_key (d : jobj) : option jv := match rid with [] => None | _ => sget rid d end.
  Definition record_key (d : jobj) : option jv * option jv := (root_key d, sget idn d).
  (** every record has an id (and a root id, if these are used; the field of the
      root id is not used inside the record); no two have the same *)
  Definition record_ok (d : jobj) : Prop :=
    tidy idn (JO d) /\ has_value (sget idn d) /\ (rid <> [] -> has_value (sget rid d)) /\ root_id_once O (JO d).
  Definition documents (docs : list jobj) : Prop :=
    heading_key idn /\ (rid <> [] -> heading_key rid) /\ Forall record_ok docs /\ NoDup (map record_key docs).
  (** flattening without titles, XML, roll-up, filter and preserved fields *)
  Definition whole : Prop := simple O /\ po_rollup O = [] /\ po_filter O = None /\ po_preserve O = [].
  (** every id is a value that fills a cell; the field of the root id is used at the
      top of the record only *)
  Definition ids_are_values (v : jv) : Prop :=
    forall Q d, at_path v Q = Some (JO d) -> (forall x, sget idn d = Some x -> leaf_cell O x <> None) /\
      (rid <> [] -> forall x, sget rid d = Some x -> Q = [] /\ leaf_cell O x <> None).
  (** records with the same root id are next to each other *)
  Definition roots_together (docs : list jobj) : Prop :=
    forall a d b e c, docs = a ++ d :: b ++ e :: c -> root_key d = root_key e -> Forall (fun x => root_key x = root_key d) b.
End Docs.

(** ** Tables: a line has the cells of the row under the headings, as [write] writes
    them, and [b] where the row has none *)
Definition table_line (write : scalar -> scalar) (b : scalar) (header : list str) (row : frow) : list (scalar * scalar) :=
  map (fun h => (SStr h, match sget h row with Some (JS s) => write s | _ => b end)) header.
Definition reads_headings (t : table) (x : sheet_in) : Prop :=
  si_headings x = None \/ si_headings x = Some (map SStr (tb_header t)).
(** the sheet [x] shows the table [t], its rows in order / in any order *)
Definition table_shown (write : scalar -> scalar) (b : scalar) (t : table) (x : sheet_in) : Prop :=
  reads_headings t x /\ si_lines x = map (table_line write b (tb_header t)) (tb_rows t).
Definition table_shuffled (write : scalar -> scalar) (b : scalar) (t : table) (x : sheet_in) : Prop :=
  reads_headings t x /\ Permutation (map (table_line write b (tb_header t)) (tb_rows t)) (si_lines x).
(** values are written as they are *)
Definition as_is (s : scalar) : scalar := s.
(** no sheet is read after one with items of arrays inside its own items *)
Definition outer_first (O : popts) (docs : list jobj) (names : list str) : Prop :=
  forall d x y r, In d docs -> In x (items_in (JO d)) -> In y (items_in (JO d)) -> it_path y = it_path x ++ r -> 
    forall a b c, names <> a ++ item_sheet O (JO d, y) :: b ++ item_sheet O (JO d, x) :: c.

(** ** The same *)
(** texts and truth values are equal, numbers equal as numbers *)
Definition number (s : scalar) : bool := match s with SInt _ | SDec _ | SFlt _ => true | _ => false end.
Definition same_value (a b : scalar) : Prop :=
  match a, b with
  | SStr x, SStr y => x = y
  | SBool x, SBool y => x = y
  | _, _ => number a = true /\ number b = true /\ py_eqb a b = true
  end.
Definition same_item (x : jv) (b : scalar) : Prop := match x with JS a => same_value a b | _ => False end.
Definition same_leaf (y : jv) (v : cellval) : Prop :=
  match y, v with
  | JS a, CV b => same_value a b
  | JA l, CList m => Forall2 same_item l m
  | JA l, CList2 m => Forall2 (fun x r => match x with JA l' => Forall2 same_item l' r | _ => False end) l m
  | _, _ => False
  end.
(** same keys, same values, arrays of objects [arranged] alike (keys of objects in
    any order) *)
Inductive same (arranged : list jv -> list jv -> Prop) : jv -> vnode -> Prop :=
| same_value_leaf y v : same_leaf y v -> same arranged y (VLeaf v)
| same_object o d : NoDup (map fst d) -> (forall k, In k (map fst o) <-> In k (map fst d)) ->
    (forall k x n, sget k o = Some x -> sget k d = Some n -> same arranged x n) -> same arranged (JO o) (VDict d)
| same_array l l' m : arranged l l' -> Forall2 (fun x d => same arranged x (VDict d)) l' m -> same arranged (JA l) (VList m).
Definition same_records (arranged : list jv -> list jv -> Prop) (docs : list jobj) (out : list vdict) : Prop :=
  same arranged (JA (map JO docs)) (VList out).

(** ** Every value survives: its cell, as written, is converted back to it *)
(** the path of a heading of a place: every array position is 0 *)
Definition heading_path (Q : jpath) : hpath :=
  flat_map (fun st => HKey (fst st) :: match snd st with Some _ => [HPos 0] | None => [] end) Q.
(** the cell with value [c] of the leaf [y] at key [k] *)
Definition cell_survives (P : opts) (write : scalar -> scalar) (p : hpath) (y : jv) (c : scalar) : Prop :=
  fits (o_types P) p /\ blank (write c) = false /\
  exists v, convert_type (o_conv P) (o_types P (path_text p)) (CV (write c)) = Ok v [] /\ cv_blank v = false /\ same_leaf y v /\
    (last p (HPos 0) = HKey (o_id_name P) -> v = CV c).
Definition survive (O : popts) (P : opts) (write : scalar -> scalar) (docs : list jobj) : Prop :=
  o_xml P = false /\ o_id_name P = po_id_name O /\ o_root_id P = po_root_id O /\
  (forall d Q k y c, In d docs -> at_path (JO d) (Q ++ [(k, None)]) = Some y -> leaf y -> leaf_cell O y = Some (JS c) ->
     cell_survives P write (heading_path (Q ++ [(k, None)])) y c) /\
  (* different root ids are written differently *)
  (forall d e s t, In d docs -> In e docs -> root_key O d = Some (JS s) -> root_key O e = Some (JS t) ->
     plain_value (write s) /\ (write s = write t -> s = t)).

(** the keys of arrays of objects with further such arrays inside are not truncated
    in the names of sheets *)
Definition short_names (O : popts) (docs : list jobj) : Prop :=
  forall d x y r, In d docs -> In x (items_in (JO d)) -> In y (items_in (JO d)) -> it_path y = it_path x ++ r -> r <> [] ->
    (length (it_key x) <= po_trunc O)%nat.
