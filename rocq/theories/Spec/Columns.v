(** Names of spreadsheet columns. *)
From Verif.Base Require Import PyStr PyNum.
Local Open Scope N_scope.

(** letters A-Z as digits 1-26 of a number in base 26: A = 1, Z = 26, AA = 27 *)
Definition letters (n : N) (s : str) : Prop :=
  (forall c, In c s -> 65 <= c <= 90) /\ fold_left (fun a c => 26 * a + (c - 64)) s 0 = n.
(** the name of column number [n] (from 1); sheets read vertically have rows for
    columns, named by decimal numbers *)
Definition column_name (vertical : bool) (n : N) (s : str) : Prop := if vertical then s = N_str n else letters n s.
