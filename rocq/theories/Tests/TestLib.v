(** Helpers for the executable tests. *)
From Verif.Base Require Import PyStr PyNum PyVal PyDict Outcome.
From Verif.Model Require Import Warn Lib Convert Input.

(** 2.3 and 2020-01-01 are the only float / datetime printed in the tests *)
Definition test_env : env :=
  {| float_str := fun _ => u "2.3"; dt_str := fun _ => u "2020-01-01 00:00:00";
     dt_date_iso := fun _ => u "2020-01-01"; dt_local_iso := fun _ => u "2020-01-01T00:00:00+00:00";
     geo_available := false; wkt_loads := fun _ => WktBad |}.
Definition test_cenv : conv_env := {| ce_env := test_env; ce_repr := fun _ => []; ce_wkt := false |}.
Definition test_opts (root_id : str) : opts :=
  {| o_conv := test_cenv; o_types := fun _ => []; o_root_id := root_id; o_id_name := u "id";
     o_xml := false; o_vertical := false |}.

(** Python equality of the output: key order of objects does not matter.  The
    fuel bounds the depth. *)
Fixpoint v_eqb (fuel : nat) (a b : vnode) : bool :=
  match fuel with
  | O => false
  | S f =>
    let deq (d e : vdict) :=
      Nat.eqb (length d) (length e) &&
      forallb (fun kv : str * vnode => match sget (fst kv) e with Some w => v_eqb f (snd kv) w | None => false end) d in
    match a, b with
    | VLeaf x, VLeaf y => cv_eqb x y
    | VDict d, VDict e => deq d e
    | VList l, VList m => list_eqb deq l m
    | _, _ => false
    end
  end.
Definition out_eqb (a b : list vdict) : bool := v_eqb 20 (VList a) (VList b).

Definition check_unflatten (root : str) (sheets : list sheet_in) (exp : list vdict) (nwarn : option nat) : bool :=
  match unflatten (test_opts root) sheets with
  | Ok r w => out_eqb r exp && match nwarn with Some n => Nat.eqb n (length w) | None => true end
  | Raise _ _ => false
  end.
