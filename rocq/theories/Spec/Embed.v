(** "Nothing that is there disappears or changes": the embedding order on
    output values.  [emb a b]: every leaf value of [a] is in [b] at the same place;
    objects of [b] may have more fields; arrays of [b] may have more items in
    between, the items of [a] keep their relative order. *)
From Verif.Base Require Import PyStr PyVal PyDict.
From Verif.Model Require Import Input.

Inductive lemb {A} (R : A -> A -> Prop) : list A -> list A -> Prop :=
| lemb_nil m : lemb R [] m
| lemb_skip y l m : lemb R l m -> lemb R l (y :: m)
| lemb_cons x y l m : R x y -> lemb R l m -> lemb R (x :: l) (y :: m).

Inductive emb : vnode -> vnode -> Prop :=
| emb_leaf v : emb (VLeaf v) (VLeaf v)
| emb_dict d e : (forall k n, sget k d = Some n -> exists m, sget k e = Some m /\ emb n m) -> emb (VDict d) (VDict e)
| emb_list l m : lemb (fun d e => emb (VDict d) (VDict e)) l m -> emb (VList l) (VList m).

(** embedding of whole outputs (lists of objects) *)
Definition out_emb (a b : list vdict) : Prop := emb (VList a) (VList b).

(** [continues a b]: the tables [b] are the tables [a] with more rows at the end
    (more lines in the last sheet, and more sheets) *)
Definition more_lines (s : sheet_in) (l : list (list (scalar * scalar))) : sheet_in :=
  {| si_name := si_name s; si_headings := si_headings s; si_lines := si_lines s ++ l |}.
Inductive continues : list sheet_in -> list sheet_in -> Prop :=
| cont_sheets a b : continues a (a ++ b)
| cont_lines a s l b : continues (a ++ [s]) (a ++ more_lines s l :: b).
