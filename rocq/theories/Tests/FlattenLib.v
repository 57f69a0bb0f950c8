(** Helpers for the executable tests of flattening. *)
From Verif.Base Require Import PyStr PyNum PyVal PyDict Outcome.
From Verif.Model Require Import Flatten.
From Verif.Tests Require Import TestLib.

Definition ftest_opts (root : str) : popts :=
  {| po_str := test_env; po_titles := false; po_schema := None; po_root_id := root; po_id_name := u "id"; po_xml := false;
     po_filter := None; po_preserve := []; po_rollup := []; po_trunc := 3; po_wkt := false; po_shape := None;
     po_set_order := fun l => l |}.
Fixpoint jv_eqb (fuel : nat) (a b : jv) : bool :=
  match fuel with
  | O => false
  | S f =>
    match a, b with
    | JS x, JS y => py_eqb x y
    | JA l, JA m => list_eqb (jv_eqb f) l m
    | JO d, JO e => Nat.eqb (length d) (length e) &&
        forallb (fun kv : str * jv => match sget (fst kv) e with Some w => jv_eqb f (snd kv) w | None => false end) d
    | _, _ => false
    end
  end.
Definition rows_eqb (a b : list frow) : bool := list_eqb (fun x y => jv_eqb 20 (JO x) (JO y)) a b.
Definition opt_ok {A} (o : option A) (f : A -> bool) : bool := match o with None => true | Some x => f x end.
Definition check_flatten (root : str) (recs : list jv) (mh : option (list str)) (ml : option (list frow))
  (sh : option (list (str * list str))) (sl : list (str * list frow)) : bool :=
  match flatten (ftest_opts root) false [] recs with
  | Raise _ _ => false
  | Ok s _ =>
    opt_ok mh (fun h => list_eqb str_eqb h (header (p_main s))) &&
    opt_ok ml (fun l => rows_eqb l (lines_of (p_store s) (p_main s))) &&
    opt_ok sh (fun h => Nat.eqb (length h) (length (p_subs s)) &&
      forallb (fun nh : str * list str => match sget (fst nh) (p_subs s) with Some x => list_eqb str_eqb (snd nh) (header x) | None => false end) h) &&
    forallb (fun nl : str * list frow => match sget (fst nl) (p_subs s) with Some x => rows_eqb (snd nl) (lines_of (p_store s) x) | None => false end) sl
  end.
