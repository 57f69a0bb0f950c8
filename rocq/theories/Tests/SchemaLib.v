(** Helpers for the executable tests of the schema parser. *)
From Verif.Base Require Import PyStr PyNum PyVal PyDict Outcome.
From Verif.Model Require Import Flatten Titles Schema.

Definition sopts_of (rollup titles : bool) (root : str) : sopts :=
  {| so_rollup := rollup; so_root_id := root; so_titles := titles; so_trunc := 3; so_nodep := false; so_wkt := false; so_lower := lower |}.
Definition same_set (a b : list str) : bool := forallb (fun x => str_mem x b) a && forallb (fun x => str_mem x a) b.
Definition check_schema (O : sopts) (v : sv) (main subs : option (list str)) (cols : list (str * list str)) (warnings : option nat) : bool :=
  match parse_schema O v with
  | Raise _ _ => false
  | Ok s w =>
    match main with None => true | Some l => same_set l (header (sp_main s)) end &&
    match subs with None => true | Some l => same_set l (map fst (sp_subs s)) end &&
    forallb (fun nc => match sget (fst nc) (sp_subs s) with Some x => list_eqb str_eqb (snd nc) (header x) | None => false end) cols &&
    match warnings with None => true | Some n => Nat.eqb n (length w) end
  end.
