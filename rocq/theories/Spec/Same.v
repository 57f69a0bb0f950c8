(** Output values that differ only in the order of the fields of objects. *)
From Verif.Base Require Import PyStr PyVal PyDict.
From Verif.Model Require Import Input.

Inductive veq : vnode -> vnode -> Prop :=
| veq_leaf v : veq (VLeaf v) (VLeaf v)
| veq_dict d e : (forall k, sget k d = None <-> sget k e = None) ->
    (forall k n m, sget k d = Some n -> sget k e = Some m -> veq n m) -> veq (VDict d) (VDict e)
| veq_list l m : Forall2 (fun d e => veq (VDict d) (VDict e)) l m -> veq (VList l) (VList m).
