(** Tables that unflatten without a schema can always read. *)
From Coq Require Import List.
Import ListNotations.
From Verif.Base Require Import PyStr PyNum PyVal.
From Verif.Model Require Import Convert Input.

(** in the path spelled by heading [h] no part equal to [id_name] is followed by
    another (non-empty) part: the id is a value, not an object or array *)
Fixpoint id_is_leaf (id_name : str) (items : list str) : Prop :=
  match items with
  | a :: ((b :: _) as rest) => (a = id_name -> b = []) /\ id_is_leaf id_name rest
  | _ => True
  end.
(** not a float infinity or NaN *)
Definition no_inf (s : scalar) : Prop := match s with SFlt (FInf _) | SFlt FNan => False | _ => True end.
(** a sheet whose lines have no more cells than there are headings, whose
    headings treat the id as a value, and without infinite floats *)
Definition readable (O : opts) (s : sheet_in) : Prop :=
  forall line, In line (si_lines s) ->
    (forall hs, si_headings s = Some hs -> length line <= length hs) /\
    forall h v, In (h, v) line -> no_inf v /\ id_is_leaf (o_id_name O) (path_items (o_conv O) h).
