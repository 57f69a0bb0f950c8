(** flatten, then unflatten. *)
From Coq Require Import Permutation.
From Verif.Base Require Import PyStr PyNum PyVal PyDict Outcome.
From Verif.Model Require Import Warn Lib Convert Input Json SourceMap Flatten Readers Csv Output Titles TitleLines Schema Commands.
From Verif.Spec Require Import Sites Paths Grids CsvText Written Commands RoundTrip Typed Trip.
From Verif.Proofs Require Import CommandFacts RtTrip CsvFiles CsvListing Trip TripJson TripRun.

Section End_.
  Variables (Wd : world) (F : flopts) (schema : option sps) (v : jv) (docs : list jobj) (t : term).
  Notation O := (flatten_opts Wd F schema).
  Notation W := (writer_opts F t).
  Notation E := (wd_wenv Wd).
  Hypothesis HF : to_csv F.
  Hypothesis HS : schema_read Wd (f_local_off F) (f_schema F) (flatten_schema_opts Wd F) schema.
  Hypothesis Hv : wd_json Wd (f_input F) = inr v.
  Hypothesis Hl : records_at F v (map JO docs).
  Hypothesis Ht : sget (f_term F) terminators = Some t.
  Hypothesis HW : whole O.
  Hypothesis HD : documents O docs.
  Hypothesis HC : csv_ready O W E docs.
  Lemma reads_rd0 s : reads W s rd0.
  Proof. repeat split. intros n _ []. Qed.
  Lemma sheet_names s wf : flatten O (f_drop F) [] (map JO docs) = Ok s wf -> forall fs b sheets, write_csv_files W E (main_table s) (sub_tables s) [] = Ok fs [] -> csv_book (w_output W) fs = Ok b [] ->
    read_book Readers.Csv rd0 b = Ok sheets [] -> NoDup (map si_name sheets).
  Proof.
    intros Hs fs b sheets H1 H2 H3. pose proof (all_names O (f_drop F) [] W E docs HW HD HC s wf Hs) as N.
    destruct (csv_tables_read W E (main_table s) (sub_tables s) rd0 N (tables_fine O (f_drop F) [] W E docs HW HD HC s wf Hs)) as (fs' & b' & sheets' & T & K1 & K2 & K3 & K4 & _ & K6); [intros x _ []|reflexivity|reflexivity|].
    rewrite H1 in K1. injection K1 as <-. rewrite H2 in K2. injection K2 as <-. rewrite H3 in K3. injection K3 as <-.
    assert (En : map si_name sheets = map (fun x => w_prefix W ++ tb_name x) T) by (clear -K6; induction K6 as [|x y T l (Hn & _) _ IH]; [reflexivity|]; cbn [map]; f_equal; [exact Hn|exact IH]).
    rewrite En, <- (map_map tb_name (fun n => w_prefix W ++ n)). apply FinFun.Injective_map_NoDup; [intros a c; apply app_inv_head|].
    eapply Permutation_NoDup; [apply Permutation_map; exact K4|exact N].
  Qed.
  Lemma back_runs_with ti (arranged : list jv -> list jv -> Prop) fs b sheets out wu Wd' U schema' : (forall l l', arranged l l' -> incl l' l) ->
    csv_book (w_output W) fs = Ok b [] -> read_book Readers.Csv rd0 b = Ok sheets [] -> NoDup (map si_name sheets) -> sheets_give ti Wd' U schema' sheets = Ok out wu -> same_records arranged docs out ->
    from_format_with ti Readers.Csv U -> u_input U = output_dir F -> directory_has Wd' (u_input U) fs ->
    schema_read Wd' (u_local_off U) (u_schema U) (unflatten_schema_opts Wd' U) schema' ->
    Forall (fun d => numbers_finite (JO d)) docs ->
    exists w j, unflatten_file Wd' U = Ok tt w /\ json_written w (u_output U) (listed U j) /\ same_json arranged (JA (map JO docs)) j.
  Proof.
    intros Harr Hb Hr Hn Hu Hs HU Hi (fs' & Hp & Hdir) HS' Hf. destruct (records_dumped Wd' arranged Harr docs out Hf Hs) as (j & Hj & Hsj).
    destruct (listing_any (w_output W) fs fs' b rd0 sheets Hp Hb eq_refl eq_refl Hr Hn) as (b' & Hb' & Hr').
    assert (Hbook : wd_book Wd' Readers.Csv (u_input U) = inr b') by (rewrite Hdir, Hi; change (output_dir F) with (w_output W); rewrite Hb'; reflexivity).
    destruct (unflatten_runs_with ti Wd' U schema' b' sheets out j Readers.Csv wu HU HS' Hbook Hr' Hu Hj) as (w & Hw & Hjw). exists w, j. auto.
  Qed.
  Lemma back_runs (arranged : list jv -> list jv -> Prop) fs b sheets out Wd' U schema' : (forall l l', arranged l l' -> incl l' l) ->
    csv_book (w_output W) fs = Ok b [] -> read_book Readers.Csv rd0 b = Ok sheets [] -> NoDup (map si_name sheets) -> unflatten (unflatten_opts Wd' U schema') sheets = Ok out [] -> same_records arranged docs out ->
    from_csv U -> u_input U = output_dir F -> directory_has Wd' (u_input U) fs ->
    schema_read Wd' (u_local_off U) (u_schema U) (unflatten_schema_opts Wd' U) schema' ->
    Forall (fun d => numbers_finite (JO d)) docs ->
    exists w j, unflatten_file Wd' U = Ok tt w /\ json_written w (u_output U) (listed U j) /\ same_json arranged (JA (map JO docs)) j.
  Proof. exact (back_runs_with false arranged fs b sheets out [] Wd' U schema'). Qed.
  Theorem end_any : exists w, flatten_file Wd F = Ok tt w /\ forall Wd' U schema',
    from_csv U -> u_input U = output_dir F -> directory_has Wd' (u_input U) (texts_written w) ->
    schema_read Wd' (u_local_off U) (u_schema U) (unflatten_schema_opts Wd' U) schema' ->
    survive O (unflatten_opts Wd' U schema') (csv_cell E) docs -> Forall (fun d => numbers_finite (JO d)) docs ->
    exists w' j, unflatten_file Wd' U = Ok tt w' /\ json_written w' (u_output U) (listed U j) /\ same_json (@Permutation jv) (JA (map JO docs)) j.
  Proof.
    destruct (trip_flattens O (f_drop F) [] docs HW HD) as (s & wf & Hs).
    destruct (csv_read O (f_drop F) [] W E docs HW HD HC s wf Hs rd0 (reads_rd0 s)) as (fs & b & sheets & T & T' & Hfs & Hb & Hr & _).
    destruct (flatten_runs Wd F schema v (map JO docs) t HF HS Hv Hl Ht s wf fs Hs Hfs) as (w & Hw & Ew). exists w. split; [exact Hw|]. rewrite Ew.
    intros Wd' U schema' HU Hi Hdir HS' Hsv Hf.
    destruct (csv_any O (f_drop F) [] W E docs HW HD HC s wf Hs _ rd0 Hsv (reads_rd0 s)) as (fs' & b' & sheets' & out & Hfs' & Hb' & Hr' & Hu & Hsame).
    rewrite Hfs in Hfs'. injection Hfs' as <-. 
    apply (back_runs _ fs b' sheets' out Wd' U schema'); try assumption; [|exact (sheet_names s wf Hs fs b' sheets' Hfs Hb' Hr')]. intros l l' P x Hx. eapply Permutation_in; [apply Permutation_sym; exact P|exact Hx].
  Qed.
  Theorem end_ordered : main_first O W docs -> roots_together O docs -> short_names O docs -> exists w, flatten_file Wd F = Ok tt w /\ forall Wd' U schema',
    from_csv U -> u_input U = output_dir F -> directory_has Wd' (u_input U) (texts_written w) ->
    schema_read Wd' (u_local_off U) (u_schema U) (unflatten_schema_opts Wd' U) schema' ->
    survive O (unflatten_opts Wd' U schema') (csv_cell E) docs -> Forall (fun d => numbers_finite (JO d)) docs ->
    exists w' j, unflatten_file Wd' U = Ok tt w' /\ json_written w' (u_output U) (listed U j) /\ same_json eq (JA (map JO docs)) j.
  Proof.
    intros H1 H2 H3. destruct (trip_flattens O (f_drop F) [] docs HW HD) as (s & wf & Hs).
    destruct (csv_read O (f_drop F) [] W E docs HW HD HC s wf Hs rd0 (reads_rd0 s)) as (fs & b & sheets & T & T' & Hfs & Hb & Hr & _).
    destruct (flatten_runs Wd F schema v (map JO docs) t HF HS Hv Hl Ht s wf fs Hs Hfs) as (w & Hw & Ew). exists w. split; [exact Hw|]. rewrite Ew.
    intros Wd' U schema' HU Hi Hdir HS' Hsv Hf.
    destruct (csv_ordered O (f_drop F) [] W E docs HW HD HC s wf Hs _ rd0 Hsv (reads_rd0 s) H1 H2 H3) as (fs' & b' & sheets' & out & Hfs' & Hb' & Hr' & Hu & Hsame).
    rewrite Hfs in Hfs'. injection Hfs' as <-. 
    apply (back_runs _ fs b' sheets' out Wd' U schema'); try assumption; [|exact (sheet_names s wf Hs fs b' sheets' Hfs Hb' Hr')]. intros l l' -> x Hx. exact Hx.
  Qed.
End End_.
