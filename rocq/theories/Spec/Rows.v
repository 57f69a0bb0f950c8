(** The rows of a run: what each line of each sheet says on its own, before any
    merging, in reading order. *)
From Verif.Base Require Import PyStr PyVal PyDict Outcome.
From Verif.Model Require Import Warn Convert Input.
From Verif.Spec Require Import Ids.
Local Open Scope res_scope.

(** sheet it is in, value of its root id column, the object its cells spell *)
Record row := { r_sheet : str; r_root : scalar; r_obj : tdict }.

Definition line_row (O : opts) (sheet : str) (hs : option (list scalar)) (j : N) (line : list (scalar * scalar)) : list row :=
  if forallb (fun kv => blank (snd kv)) line then []
  else match (cells <- line_cells O sheet hs j 0%N line ;;
              unflatten_row (o_conv O) (o_types O) (o_xml O) (o_id_name O) cells) with
       | Ok d _ => [{| r_sheet := sheet; r_root := line_root O line; r_obj := d |}]
       | Raise _ _ => []
       end.
Fixpoint lines_rows (O : opts) (sheet : str) (hs : option (list scalar)) (j : N) (lines : list (list (scalar * scalar))) : list row :=
  match lines with
  | [] => []
  | l :: lines' => line_row O sheet hs j l ++ lines_rows O sheet hs (j + 1)%N lines'
  end.
Definition sheet_rows (O : opts) (s : sheet_in) : list row :=
  match si_headings s with
  | Some [] => []
  | hs => lines_rows O (si_name s) hs 0%N (si_lines s)
  end.
Definition rows_of (O : opts) (sheets : list sheet_in) : list row := flat_map (sheet_rows O) sheets.
Definition fragments (O : opts) (sheets : list sheet_in) : list tdict := map r_obj (rows_of O sheets).

(** ** Grouping: the specification of the output list *)

(** first occurrences, up to Python equality *)
Fixpoint nub (l : list scalar) : list scalar :=
  match l with
  | [] => []
  | x :: l' => x :: filter (fun y => negb (py_eqb x y)) (nub l')
  end.

Definition row_id (O : opts) (x : row) : option scalar := id_of (o_xml O) (o_id_name O) (r_obj x).

Definition has_root (r : scalar) (x : row) : bool := py_eqb r (r_root x).
Definition has_id (O : opts) (i : scalar) (x : row) : bool :=
  match row_id O x with Some k => py_eqb i k | None => false end.
Definition no_id (O : opts) (x : row) : bool := match row_id O x with None => true | Some _ => false end.
Definition ids (O : opts) (rs : list row) : list scalar :=
  nub (flat_map (fun x => match row_id O x with Some k => [k] | None => [] end) rs).
Definition roots (rs : list row) : list scalar := nub (map r_root rs).

(** [merged rs d]: [d] is the first row of [rs] with the others merged in, in order *)
Inductive merged : list row -> tdict -> Prop :=
| merged_one x : merged [x] (r_obj x)
| merged_more rs x d d' dbg w : merged rs d -> merge dbg d (r_obj x) = Ok d' w -> merged (rs ++ [x]) d'.

(** [grouped O rs out]: the objects [out] are: for every root id in order of
    first mention, for every id in order of first mention among the rows of that
    root, the merge of the rows with that root and id; then the rows of that
    root without id, as they are. *)
Definition group (O : opts) (rs : list row) (out : list tdict) : Prop :=
  exists keyed, out = keyed ++ map r_obj (filter (no_id O) rs) /\
    Forall2 (fun i d => merged (filter (has_id O i) rs) d) (ids O rs) keyed.
Definition grouped (O : opts) (rs : list row) (out : list tdict) : Prop :=
  exists groups, out = concat groups /\
    Forall2 (fun r g => group O (filter (has_root r) rs) g) (roots rs) groups.

(** root id and id of the row are not NaN (NaN is not equal to itself, so rows
    with a NaN id are never merged) *)
Definition row_plain (O : opts) (x : row) : Prop :=
  not_nan (r_root x) = true /\ (forall k, row_id O x = Some k -> not_nan k = true).
