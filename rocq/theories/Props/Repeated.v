(** C57: headings that occur more than once in a sheet.  Which column counts and
    what is reported is defined in Spec/Repeated.v. *)
From Coq Require Import Lia.
From Verif.Base Require Import PyStr PyNum PyVal PyDict Outcome.
From Verif.Model Require Import Warn Lib Convert Input Readers.
From Verif.Spec Require Import Columns Grids Repeated.
From Verif.Tests Require Import TestLib.
From Verif.Proofs Require Import RepeatedFacts RepeatedRead.

(** the reports about repeated headings are exactly those of the sheets, in
    order: one for each heading in more than one column, with all its columns
    but the last *)
Theorem C57_reported : forall O sheets r w, unflatten O sheets = Ok r w -> all_reported sheets (heading_reports w).
Proof. exact reports_exact. Qed.
Print Assumptions C57_reported.

(** the value of a line under a heading is that of the last of its columns *)
Theorem C57_last_column : forall f rd c g name L, rd_vertical rd = false -> laid_out rd c L -> is_read f (ly_conf L) name ->
  (ly_heading L < ly_first L)%nat -> (ly_first L <= length g)%nat -> hash_ok f (ly_conf L) (row_at g (ly_heading L)) ->
  (forall row, In row (skipn (ly_first L) g) -> reaches f (row_at g (ly_heading L)) row) ->
  exists ls rows, lines_in f rd c g = Ok ls [] /\ kept (no_value f (ly_conf L) (headings_of f rd c name g)) (skipn (ly_first L) g) rows /\
    Forall2 (row_read f (ly_conf L) (headings_of f rd c name g)) rows ls.
Proof. exact last_column_read. Qed.
Print Assumptions C57_last_column.

(** the values in the other columns make no difference *)
Theorem C57_ignored : forall f rd c g g' name L, rd_vertical rd = false -> laid_out rd c L -> is_read f (ly_conf L) name ->
  (ly_heading L < ly_first L)%nat -> (ly_first L <= length g)%nat -> hash_ok f (ly_conf L) (row_at g (ly_heading L)) ->
  (forall row, In row (skipn (ly_first L) g) -> reaches f (row_at g (ly_heading L)) row) ->
  firstn (ly_first L) g' = firstn (ly_first L) g -> Forall2 (same_but_shadowed (row_at g (ly_heading L))) (skipn (ly_first L) g) (skipn (ly_first L) g') ->
  headings_of f rd c name g' = headings_of f rd c name g /\ lines_in f rd c g' = lines_in f rd c g.
Proof. exact shadowed_ignored. Qed.
Print Assumptions C57_ignored.

(** ** A sheet with the heading "a" in columns B, C and E *)
Definition rep_reader : reader := {| rd_base := empty_conf; rd_use := true; rd_vertical := false; rd_include := []; rd_exclude := [] |}.
Definition rep_heads : list scalar := [SStr (u "id"); SStr (u "a"); SStr (u "a"); SStr (u "b"); SStr (u "a")].
Definition rep_row (x y : str) : list scalar := [SStr (u "1"); SStr x; SStr y; SStr (u "w"); SStr (u "used")].
Definition rep_grid (x y : str) : grid := [rep_heads; rep_row x y].
Definition rep_layout : layout := {| ly_conf := empty_conf; ly_heading := 0; ly_first := 1 |}.
Lemma rep_laid_out : laid_out rep_reader empty_conf rep_layout.
Proof. split; [apply base_conf; reflexivity|]. exists 0%nat, 0%nat, 1%nat. repeat split; try reflexivity. left. split; reflexivity. Qed.
Lemma rep_reaches f x y : reaches f rep_heads (rep_row x y).
Proof.
  intros _ i j _ (h & h' & _ & [Hj _] & _). cbn [rep_row length]. assert (H : nth_error rep_heads j <> None) by (unfold heading_at in Hj; rewrite Hj; discriminate). apply nth_error_Some in H. exact H.
Qed.
Lemma rep_same x y x' y' : same_but_shadowed rep_heads (rep_row x y) (rep_row x' y').
Proof.
  split; [reflexivity|]. intros j Hj. destruct j as [|[|[|[|[|j]]]]]; try reflexivity; exfalso; apply Hj; exists 4%nat, (SStr (u "a")), (SStr (u "a")); repeat split; lia.
Qed.
Example C57_meets : forall f,
  laid_out rep_reader empty_conf rep_layout /\ is_read f (ly_conf rep_layout) (u "s") /\ hash_ok f (ly_conf rep_layout) rep_heads /\
  (forall row, In row (skipn 1 (rep_grid (u "p") (u "q"))) -> reaches f rep_heads row) /\
  Forall2 (same_but_shadowed rep_heads) (skipn 1 (rep_grid (u "p") (u "q"))) (skipn 1 (rep_grid (u "other") [])) /\
  lines_in f rep_reader empty_conf (rep_grid (u "p") (u "q")) = Ok [[(SStr (u "id"), SStr (u "1")); (SStr (u "a"), SStr (u "used")); (SStr (u "b"), SStr (u "w"))]] [].
Proof.
  intros f. split; [exact rep_laid_out|]. split; [split; [reflexivity|right; left; reflexivity]|]. split; [intros _ H; discriminate H|]. split; [intros row [<-|[]]; apply rep_reaches|].
  split; [constructor; [apply rep_same|constructor]|]. destruct f; vm_compute; reflexivity.
Qed.
Example C57_reported_meets : exists ls, lines_in Xlsx rep_reader empty_conf (rep_grid (u "p") (u "q")) = Ok ls [] /\
  exists r, unflatten (test_opts []) [{| si_name := u "s"; si_headings := Some rep_heads; si_lines := ls |}] = Ok r [WDuplicateHeading (SStr (u "a")) [u "B"; u "C"] (u "s")].
Proof. eexists. split; [vm_compute; reflexivity|]. eexists. vm_compute. reflexivity. Qed.

(** an ODS row ends with its last filled cell: the value of a column that is
    reported as ignored is used when the last column is empty *)
Theorem C57_ods_short_refuted : exists g ls r, g = [[SStr (u "id"); SStr (u "a"); SStr (u "a")]; [SStr (u "1"); SStr (u "ignored")]] /\
  lines_in Ods rep_reader empty_conf g = Ok ls [] /\
  unflatten (test_opts []) [{| si_name := u "s"; si_headings := Some (row_at g 0); si_lines := ls |}]
    = Ok r [WDuplicateHeading (SStr (u "a")) [u "B"] (u "s")] /\
  r = [[(u "id", VLeaf (CV (SStr (u "1")))); (u "a", VLeaf (CV (SStr (u "ignored"))))]].
Proof. do 3 eexists. split; [reflexivity|]. split; [vm_compute; reflexivity|]. split; vm_compute; reflexivity. Qed.
Print Assumptions C57_ods_short_refuted.
