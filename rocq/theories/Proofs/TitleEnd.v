(** flatten with titles to CSV files, then unflatten with titles. *)
From Coq Require Import Permutation.
From Verif.Base Require Import PyStr PyNum PyVal PyDict Outcome.
From Verif.Model Require Import Warn Lib Convert Input Json SourceMap Flatten Readers Csv Output Titles TitleLines Schema Commands.
From Verif.Spec Require Import Sites Paths Grids CsvText Written Commands RoundTrip Typed Trip Titled SchemaTitled TitledTrip TitledFiles.
From Verif.Proofs Require Import CommandFacts FlattenTotal RtDoc RtMain RtTrip CsvFiles CsvListing Trip TripJson TripRun TripEnd TitleFiles.

Section TEnd.
  Variables (Wd : world) (F : flopts) (S : sv) (st : sps) (ws : list swarning) (v : jv) (docs : list jobj) (t : term).
  Notation O := (flatten_opts Wd F (Some st)).
  Notation SO := (flatten_schema_opts Wd F).
  Notation W := (writer_opts F t).
  Notation E := (wd_wenv Wd).
  Hypothesis HF : to_csv F.
  Hypothesis HS : schema_file Wd (f_local_off F) (f_schema F) S.
  Hypothesis Hst : parse_schema SO S = Ok st ws.
  Hypothesis Hv : wd_json Wd (f_input F) = inr v.
  Hypothesis Hl : records_at F v (map JO docs).
  Hypothesis Ht : sget (f_term F) terminators = Some t.
  Hypothesis HX : titled_run SO S O.
  Hypothesis HR : readable_titles SO S.
  Hypothesis HA : all_titled SO S docs.
  Hypothesis HD : documents O docs.
  Hypothesis HC : titled_ready O W E docs.

  Lemma runs : exists s w, flatten O (f_drop F) [] (map JO docs) = Ok s w.
  Proof.
    pose proof HX as (_ & (_ & X & Wk) & _ & R & _). apply flatten_oks; [exact X|exact Wk|exact R|].
    apply Forall_map. apply Forall_forall. intros o Ho. apply (tidy_regular O). exact (proj1 (doc_ok O docs HD o Ho)).
  Qed.
  Lemma read_schema : schema_read Wd (f_local_off F) (f_schema F) SO (Some st).
  Proof. destruct HS as [A B]. right. split; [exact A|]. eauto 8. Qed.

  Lemma titles_read Wd' U st' : reads_titles Wd F S Wd' U st' -> schema_read Wd' (u_local_off U) (u_schema U) (unflatten_schema_opts Wd' U) (Some st') /\ reads_schema SO S (unflatten_opts Wd' U (Some st')) (sp_table st').
  Proof.
    intros ((A & B) & (w & C) & D & G). split; [right; split; [exact A|]; eauto 8|]. exists (unflatten_schema_opts Wd' U), st', w. split; [exact C|]. split; [reflexivity|]. split; [exact D|]. split; [exact G|]. split; reflexivity.
  Qed.

  Theorem titled_end (ordered : bool) : (ordered = true -> titled_main_first O W docs /\ inner_names_later O docs /\ roots_together O docs) ->
    exists w, flatten_file Wd F = Ok tt w /\ forall Wd' U st',
    from_format_with true Readers.Csv U -> u_input U = output_dir F -> directory_has Wd' (u_input U) (texts_written w) -> reads_titles Wd F S Wd' U st' ->
    survive O (unflatten_opts Wd' U (Some st')) (csv_cell E) docs -> Forall (fun d => numbers_finite (JO d)) docs ->
    exists w' j, unflatten_file Wd' U = Ok tt w' /\ json_written w' (u_output U) (listed U j) /\ same_json (if ordered then eq else @Permutation jv) (JA (map JO docs)) j.
  Proof.
    intros Hor. destruct runs as (s & wf & Hs).
    destruct (titled_shown SO S O (f_drop F) [] docs W E s wf HX HR HA HD HC Hs rd0 (reads_rd0 F t s)) as (fs & b & sheets & T & T' & Hfs & Hb & Hr & Hn & K1 & K2 & K3 & K4 & K5).
    destruct (flatten_runs Wd F (Some st) v (map JO docs) t HF read_schema Hv Hl Ht s wf fs Hs Hfs) as (w & Hw & Ew). exists w. split; [exact Hw|]. rewrite Ew.
    intros Wd' U st' HU Hi Hdir Hrt Hsv Hfin. destruct (titles_read Wd' U st' Hrt) as [R1 R2].
    assert (G : exists out w', unflatten_titled (so_lower SO) (unflatten_opts Wd' U (Some st')) (Some (sp_table st')) sheets = Ok out w' /\ same_records (if ordered then eq else @Permutation jv) docs out).
    { destruct ordered.
      - destruct (Hor eq_refl) as (M1 & M2 & M3). exact (files_ordered SO S O (f_drop F) [] docs W E s wf HX HR HA HD HC Hs _ _ R2 Hsv T T' sheets M1 M2 M3 K1 K2 K4 K5).
      - exact (files_any SO S O (f_drop F) [] docs E s wf HX HR HA HD Hs _ _ R2 Hsv T sheets K3 K5). }
    destruct G as (out & w' & Hu & Hsame).
    apply (back_runs_with F docs t true _ fs b sheets out w' Wd' U (Some st')); try assumption.
    - destruct ordered; [intros l l' -> x Hx; exact Hx|intros l l' P x Hx; eapply Permutation_in; [apply Permutation_sym; exact P|exact Hx]].
    - unfold sheets_give. destruct Hrt as (_ & _ & _ & Elw). rewrite Elw. exact Hu.
  Qed.
End TEnd.
