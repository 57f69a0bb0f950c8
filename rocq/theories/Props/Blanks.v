(** C03, C44: only the filled cells of the rows matter, not the blank ones and
    not the sheet a row is on.  Filled cells and rows, and the ways warnings are
    compared, are defined in Spec/Filled.v. *)
From Coq Require Import String.
From Verif.Base Require Import PyStr PyNum PyVal PyDict Outcome.
From Verif.Model Require Import Warn Lib Convert Input.
From Verif.Spec Require Import Filled.
From Verif.Tests Require Import TestLib.
From Verif.Proofs Require Import EraseRun.

(** ** C03 *)
(** two lists of tables whose rows have the same filled cells (and the same value
    in the root id column) give the same JSON or the same exception, and the same
    warnings apart from those about repeated headings *)
Theorem C03_filled : forall O A B, Forall fits A -> Forall fits B ->
  flat_map (filled_rows O) A = flat_map (filled_rows O) B ->
  seen_as but_headings (unflatten O A) = seen_as but_headings (unflatten O B).
Proof. exact filled_decides. Qed.
Print Assumptions C03_filled.

Definition row3 (a b : scalar) (t : string) : list (scalar * scalar) :=
  [(SStr (u "id"), a); (SStr (u "gap"), b); (SStr (u t), SStr (u "v"))].
Definition blank_a : list sheet_in :=
  [{| si_name := u "s"; si_headings := Some [SStr (u "id"); SStr (u "gap"); SStr (u "x")];
      si_lines := [row3 (SInt 1) SNone "x"; row3 (SStr []) (SStr []) "x"; [(SStr (u "id"), SNone); (SStr (u "gap"), SStr [])]] |}].
Definition blank_b : list sheet_in :=
  [{| si_name := u "s"; si_headings := Some [SStr (u "id"); SStr (u "x")];
      si_lines := [[(SStr (u "id"), SNone); (SStr (u "x"), SNone)]; [(SStr (u "id"), SInt 1); (SStr (u "x"), SStr (u "v"))];
                   [(SStr (u "id"), SNone); (SStr (u "x"), SStr (u "v"))]] |}].
Example C03_meets : Forall fits blank_a /\ Forall fits blank_b /\ blank_a <> blank_b /\
  flat_map (filled_rows (test_opts [])) blank_a = flat_map (filled_rows (test_opts [])) blank_b /\
  length (flat_map (filled_rows (test_opts [])) blank_a) = 2%nat.
Proof.
  split; [|split; [|split; [discriminate|split; reflexivity]]]; (constructor; [|constructor]); intros l [<-|[<-|[<-|[]]]]; simpl; repeat constructor.
Qed.

(** the root id column is an exception: a blank root id ("") and a missing root id
    column are different groups, so adding a blank root id column changes the JSON *)
Definition root_blank (with_col : bool) : list sheet_in :=
  [{| si_name := u "a"; si_headings := None; si_lines := [[(SStr (u "ocid"), SStr []); (SStr (u "id"), SInt 1); (SStr (u "x"), SStr (u "v"))]] |};
   {| si_name := u "b"; si_headings := None;
      si_lines := [(if with_col then [(SStr (u "ocid"), SStr [])] else []) ++ [(SStr (u "id"), SInt 1); (SStr (u "y"), SStr (u "w"))]] |}].
Theorem C03_root_column_refuted : exists r r' w w',
  unflatten (test_opts (u "ocid")) (root_blank false) = Ok r w /\ length r = 2%nat /\
  unflatten (test_opts (u "ocid")) (root_blank true) = Ok r' w' /\ length r' = 1%nat.
Proof. do 4 eexists. split; [vm_compute; reflexivity|]. split; [reflexivity|]. split; [vm_compute; reflexivity|reflexivity]. Qed.
Print Assumptions C03_root_column_refuted.

(** ** C44 *)
(** the distribution of the rows over sheets is irrelevant: same JSON or same
    exception, same warnings apart from the sheet names in them and those about
    repeated headings *)
Theorem C44_split : forall O A B, Forall fits A -> Forall fits B ->
  map no_sheet (flat_map (filled_rows O) A) = map no_sheet (flat_map (filled_rows O) B) ->
  seen_as anonymous (unflatten O A) = seen_as anonymous (unflatten O B).
Proof. exact sheets_do_not_matter. Qed.
Print Assumptions C44_split.
Definition split_row (i : Z) (t : string) : list (scalar * scalar) := [(SStr (u "id"), SInt i); (SStr (u "x"), SStr (u t))].
Definition one_sheet : list sheet_in :=
  [{| si_name := u "all"; si_headings := None; si_lines := [split_row 1 "a"; split_row 2 "b"; split_row 1 "c"] |}].
Definition two_sheets : list sheet_in :=
  [{| si_name := u "p"; si_headings := None; si_lines := [split_row 1 "a"] |};
   {| si_name := u "empty"; si_headings := Some []; si_lines := [] |};
   {| si_name := u "q"; si_headings := None; si_lines := [split_row 2 "b"; split_row 1 "c"] |}].
Example C44_meets : Forall fits one_sheet /\ Forall fits two_sheets /\
  map no_sheet (flat_map (filled_rows (test_opts [])) one_sheet) = map no_sheet (flat_map (filled_rows (test_opts [])) two_sheets) /\
  exists r w, unflatten (test_opts []) one_sheet = Ok r w /\ length r = 2%nat /\ length w = 1%nat.
Proof.
  split; [constructor; [exact I|constructor]|]. split; [repeat constructor; intros l []|]. split; [reflexivity|].
  do 2 eexists. split; [vm_compute; reflexivity|]. split; reflexivity.
Qed.
