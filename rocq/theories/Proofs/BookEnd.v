(** flatten to a workbook or an ODS document, then unflatten. *)
From Coq Require Import Permutation.
From Verif.Base Require Import PyStr PyNum PyVal PyDict Outcome.
From Verif.Model Require Import Warn Lib Convert Input Json Flatten Readers Csv Ods Output Schema Commands.
From Verif.Spec Require Import Sites Paths Written OdsCells Commands RoundTrip Typed Trip BookTrip Alike Near.
From Verif.Proofs Require Import CommandFacts RtTrip TripJson TripRun BookRead BookRun NearFacts.
Local Open Scope res_scope.

Lemma book_name_or f F : book_name f F = named_or (u "flattened" ++ suffix f) (f_output F).
Proof. unfold book_name, named_or. destruct (f_output F) as [[|c n]|]; reflexivity. Qed.
Lemma only_here w0 (l : list owarning) file c : silent w0 -> only_written (w0 ++ map (fun x => Warned (AOutput x)) l ++ [Wrote (Some file) c]) file c.
Proof.
  intros H file' c'. split.
  - intros Q. apply in_app_or in Q as [Q|Q]; [destruct (H _ _ Q)|]. apply in_app_or in Q as [Q|[Q|[]]]; [apply in_map_iff in Q as (x & Q & _); discriminate Q|]. injection Q as -> ->. auto.
  - intros (-> & ->). apply in_or_app. right. apply in_or_app. right. left. reflexivity.
Qed.

Section End_.
  Variables (Wd : world) (F : flopts) (schema : option sps) (v : jv) (docs : list jobj) (t : term) (back : scalar -> scalar).
  Notation O := (flatten_opts Wd F schema).
  Notation W := (writer_opts F t).
  Notation E := (wd_wenv Wd).
  Hypothesis HS : schema_read Wd (f_local_off F) (f_schema F) (flatten_schema_opts Wd F) schema.
  Hypothesis Hv : wd_json Wd (f_input F) = inr v.
  Hypothesis Hl : records_at F v (map JO docs).
  Hypothesis Ht : sget (f_term F) terminators = Some t.
  Hypothesis HW : whole O.
  Hypothesis HD : documents O docs.

  Definition comes_back (f : fmt) (b : book) : Prop :=
    forall near Wd' U schema', from_format f U -> wd_book Wd' f (u_input U) = inr b ->
      schema_read Wd' (u_local_off U) (u_schema U) (unflatten_schema_opts Wd' U) schema' ->
      come (near_leaf near) O (unflatten_opts Wd' U schema') back docs -> Forall (fun d => numbers_finite (JO d)) (map (nearby_doc near) docs) ->
      (exists w' j, unflatten_file Wd' U = Ok tt w' /\ json_written w' (u_output U) (listed U j) /\ same_json (@Permutation jv) (JA (map JO (map (nearby_doc near) docs))) j) /\
      (roots_together O docs -> short_names O docs ->
       exists w' j, unflatten_file Wd' U = Ok tt w' /\ json_written w' (u_output U) (listed U j) /\ same_json eq (JA (map JO (map (nearby_doc near) docs))) j).
  Lemma comes f b s wf : flatten O (f_drop F) [] (map JO docs) = Ok s wf -> f <> Readers.Csv -> NoDup (map fst b) -> (forall h, heading_used O docs h -> h <> [] /\ h <> u "#") ->
    Forall2 (grid_for back) (in_order W (main_table s) (sub_tables s)) (map snd b) -> comes_back f b.
  Proof.
    intros Hs Hf Nb Hh G near Wd' U schema' HU Hb HS' HV Hn.
    assert (K : forall (arranged : list jv -> list jv -> Prop) sheets out wu, (forall l l', arranged l l' -> incl l' l) -> read_book f rd0 b = Ok sheets [] -> unflatten (unflatten_opts Wd' U schema') sheets = Ok out wu -> same_records arranged (map (nearby_doc near) docs) out ->
      exists w' j, unflatten_file Wd' U = Ok tt w' /\ json_written w' (u_output U) (listed U j) /\ same_json arranged (JA (map JO (map (nearby_doc near) docs))) j).
    { intros arranged sheets out wu Harr Hr Hu Hsame. destruct (records_dumped Wd' arranged Harr _ out Hn Hsame) as (j & Hj & Hsj).
      destruct (unflatten_runs Wd' U schema' b sheets out j f wu HU HS' Hb Hr Hu Hj) as (w' & Hw & Hjw). exists w', j. auto. }
    split.
    - destruct (book_any O (f_drop F) [] W docs back HW HD s wf Hs near _ f b HV Hf Nb Hh G) as (sheets & out & wu & A & B & C). apply (K _ sheets out wu); try assumption. intros l l' Q x Hx. eapply Permutation_in; [apply Permutation_sym; exact Q|exact Hx].
    - intros H1 H2. destruct (book_ordered O (f_drop F) [] W docs back HW HD s wf Hs near _ f b HV Hf Nb Hh G H1 H2) as (sheets & out & wu & A & B & C). apply (K _ sheets out wu); try assumption. intros l l' -> x Hx. exact Hx.
  Qed.

  Theorem xlsx_end read : to_format Xlsx F -> xlsx_ready O W E docs read back ->
    exists w sheets, flatten_file Wd F = Ok tt w /\ only_written w (book_name Xlsx F) (CXlsx sheets) /\
      forall b, NoDup (map fst b) -> map snd b = map (fun sh => map (map read) (snd sh)) sheets -> comes_back Xlsx b.
  Proof.
    intros HF HX. destruct (trip_flattens O (f_drop F) [] docs HW HD) as (s & wf & Hs).
    destruct (flatten_outputs Wd F schema v (map JO docs) t Xlsx HF HS Hv Hl Ht s wf Hs) as (w0 & _ & S0 & Ef).
    destruct (xlsx_written_for O (f_drop F) [] (writer_opts F t) E docs back HW HD s wf Hs read HX) as (sheets & wl & Ew & G).
    rewrite Ef. cbn [bind]. unfold spreadsheet_output. cbv zeta. rewrite <- book_name_or.
    assert (Ew' : write_xlsx {| w_main := f_main F; w_output := book_name Xlsx F; w_prefix := f_prefix F; w_term := t |} E (main_table s) (sub_tables s) = Ok sheets wl) by exact Ew.
    rewrite Ew'. cbn [lift bind write]. do 2 eexists. split; [reflexivity|]. split; [apply (only_here w0 wl); exact S0|].
    intros b Nb Eb. refine (comes Xlsx b s wf Hs ltac:(discriminate) Nb _ _).
    - intros h Hh. destruct HX as (_ & _ & H & _). destruct (H h Hh) as (A & B & _). auto.
    - change (Forall2 (grid_for back) (in_order W (main_table s) (sub_tables s)) (@map (str * list (list scalar)) (list (list scalar)) snd b)). rewrite Eb. clear -G. revert G. generalize (in_order W (main_table s) (sub_tables s)). intros T G. induction G as [|x sh T sheets H G IH]; [constructor|]. cbn [map]. constructor; assumption.
  Qed.
  Theorem ods_end RE : to_format Ods F -> ods_ready O W E docs RE back ->
    exists w sheets b, flatten_file Wd F = Ok tt w /\ only_written w (book_name Ods F) (COds sheets) /\ read_ods RE false sheets [] = Ok b [] /\ comes_back Ods b.
  Proof.
    intros HF HX. destruct (trip_flattens O (f_drop F) [] docs HW HD) as (s & wf & Hs).
    destruct (flatten_outputs Wd F schema v (map JO docs) t Ods HF HS Hv Hl Ht s wf Hs) as (w0 & _ & S0 & Ef).
    destruct (ods_written_for O (f_drop F) [] (writer_opts F t) E docs back HW HD s wf Hs RE HX) as (sheets & wl & b & Ew & Er & Nb & G).
    rewrite Ef. cbn [bind]. unfold spreadsheet_output. cbv zeta. rewrite <- book_name_or.
    assert (Ew' : write_ods {| w_main := f_main F; w_output := book_name Ods F; w_prefix := f_prefix F; w_term := t |} E (main_table s) (sub_tables s) = Ok sheets wl) by exact Ew.
    rewrite Ew'. cbn [lift bind write]. do 3 eexists. split; [reflexivity|]. split; [apply (only_here w0 wl); exact S0|]. split; [exact Er|].
    refine (comes Ods b s wf Hs ltac:(discriminate) Nb _ G).
    intros h Hh. destruct HX as (_ & _ & H & _). destruct (H h Hh) as (A & B & _). auto.
  Qed.
End End_.

Theorem xlsx_near Wd F schema v docs t read back : to_format Xlsx F -> schema_read Wd (f_local_off F) (f_schema F) (flatten_schema_opts Wd F) schema ->
  wd_json Wd (f_input F) = inr v -> records_at F v (map JO docs) -> sget (f_term F) terminators = Some t ->
  whole (flatten_opts Wd F schema) -> documents (flatten_opts Wd F schema) docs -> xlsx_ready (flatten_opts Wd F schema) (writer_opts F t) (wd_wenv Wd) docs read back ->
  exists w sheets, flatten_file Wd F = Ok tt w /\ only_written w (book_name Xlsx F) (CXlsx sheets) /\ forall near Wd' U schema',
    from_format Xlsx U -> xlsx_file read Wd' (u_input U) sheets ->
    schema_read Wd' (u_local_off U) (u_schema U) (unflatten_schema_opts Wd' U) schema' ->
    come (near_leaf near) (flatten_opts Wd F schema) (unflatten_opts Wd' U schema') back docs -> Forall (fun d => numbers_finite (JO d)) (map (nearby_doc near) docs) ->
    (exists w' j, unflatten_file Wd' U = Ok tt w' /\ json_written w' (u_output U) (listed U j) /\ same_json (@Permutation jv) (JA (map JO (map (nearby_doc near) docs))) j) /\
    (roots_together (flatten_opts Wd F schema) docs -> short_names (flatten_opts Wd F schema) docs ->
     exists w' j, unflatten_file Wd' U = Ok tt w' /\ json_written w' (u_output U) (listed U j) /\ same_json eq (JA (map JO (map (nearby_doc near) docs))) j).
Proof.
  intros HF HS Hv Hl Ht HW HD HX. destruct (xlsx_end Wd F schema v docs t back HS Hv Hl Ht HW HD read HF HX) as (w & sheets & A & B & C). exists w, sheets. split; [exact A|]. split; [exact B|].
  intros near Wd' U schema' HU (b & Hb & Nb & Eb). exact (C b Nb Eb near Wd' U schema' HU Hb).
Qed.
Theorem ods_near Wd F schema v docs t RE back : to_format Ods F -> schema_read Wd (f_local_off F) (f_schema F) (flatten_schema_opts Wd F) schema ->
  wd_json Wd (f_input F) = inr v -> records_at F v (map JO docs) -> sget (f_term F) terminators = Some t ->
  whole (flatten_opts Wd F schema) -> documents (flatten_opts Wd F schema) docs -> ods_ready (flatten_opts Wd F schema) (writer_opts F t) (wd_wenv Wd) docs RE back ->
  exists w sheets, flatten_file Wd F = Ok tt w /\ only_written w (book_name Ods F) (COds sheets) /\ forall near Wd' U schema',
    from_format Ods U -> ods_file RE Wd' (u_input U) sheets ->
    schema_read Wd' (u_local_off U) (u_schema U) (unflatten_schema_opts Wd' U) schema' ->
    come (near_leaf near) (flatten_opts Wd F schema) (unflatten_opts Wd' U schema') back docs -> Forall (fun d => numbers_finite (JO d)) (map (nearby_doc near) docs) ->
    (exists w' j, unflatten_file Wd' U = Ok tt w' /\ json_written w' (u_output U) (listed U j) /\ same_json (@Permutation jv) (JA (map JO (map (nearby_doc near) docs))) j) /\
    (roots_together (flatten_opts Wd F schema) docs -> short_names (flatten_opts Wd F schema) docs ->
     exists w' j, unflatten_file Wd' U = Ok tt w' /\ json_written w' (u_output U) (listed U j) /\ same_json eq (JA (map JO (map (nearby_doc near) docs))) j).
Proof.
  intros HF HS Hv Hl Ht HW HD HX. destruct (ods_end Wd F schema v docs t back HS Hv Hl Ht HW HD RE HF HX) as (w & sheets & b & A & B & R & C). exists w, sheets. split; [exact A|]. split; [exact B|].
  intros near Wd' U schema' HU Hb. unfold ods_file in Hb. rewrite R in Hb. exact (C near Wd' U schema' HU Hb).
Qed.
Theorem xlsx_round Wd F schema v docs t read back : to_format Xlsx F -> schema_read Wd (f_local_off F) (f_schema F) (flatten_schema_opts Wd F) schema ->
  wd_json Wd (f_input F) = inr v -> records_at F v (map JO docs) -> sget (f_term F) terminators = Some t ->
  whole (flatten_opts Wd F schema) -> documents (flatten_opts Wd F schema) docs -> xlsx_ready (flatten_opts Wd F schema) (writer_opts F t) (wd_wenv Wd) docs read back ->
  exists w sheets, flatten_file Wd F = Ok tt w /\ only_written w (book_name Xlsx F) (CXlsx sheets) /\ forall Wd' U schema',
    from_format Xlsx U -> xlsx_file read Wd' (u_input U) sheets ->
    schema_read Wd' (u_local_off U) (u_schema U) (unflatten_schema_opts Wd' U) schema' ->
    survive (flatten_opts Wd F schema) (unflatten_opts Wd' U schema') back docs -> Forall (fun d => numbers_finite (JO d)) docs ->
    (exists w' j, unflatten_file Wd' U = Ok tt w' /\ json_written w' (u_output U) (listed U j) /\ same_json (@Permutation jv) (JA (map JO docs)) j) /\
    (roots_together (flatten_opts Wd F schema) docs -> short_names (flatten_opts Wd F schema) docs ->
     exists w' j, unflatten_file Wd' U = Ok tt w' /\ json_written w' (u_output U) (listed U j) /\ same_json eq (JA (map JO docs)) j).
Proof.
  intros HF HS Hv Hl Ht HW HD HX. destruct (xlsx_near Wd F schema v docs t read back HF HS Hv Hl Ht HW HD HX) as (w & sheets & A & B & C). exists w, sheets. split; [exact A|]. split; [exact B|].
  intros Wd' U schema' HU Hb Hs HV Hn. pose proof (C (fun x => x) Wd' U schema' HU Hb Hs (survive_come _ _ _ _ HV)) as D. rewrite nearby_doc_id in D. exact (D Hn).
Qed.
Theorem ods_round Wd F schema v docs t RE back : to_format Ods F -> schema_read Wd (f_local_off F) (f_schema F) (flatten_schema_opts Wd F) schema ->
  wd_json Wd (f_input F) = inr v -> records_at F v (map JO docs) -> sget (f_term F) terminators = Some t ->
  whole (flatten_opts Wd F schema) -> documents (flatten_opts Wd F schema) docs -> ods_ready (flatten_opts Wd F schema) (writer_opts F t) (wd_wenv Wd) docs RE back ->
  exists w sheets, flatten_file Wd F = Ok tt w /\ only_written w (book_name Ods F) (COds sheets) /\ forall Wd' U schema',
    from_format Ods U -> ods_file RE Wd' (u_input U) sheets ->
    schema_read Wd' (u_local_off U) (u_schema U) (unflatten_schema_opts Wd' U) schema' ->
    survive (flatten_opts Wd F schema) (unflatten_opts Wd' U schema') back docs -> Forall (fun d => numbers_finite (JO d)) docs ->
    (exists w' j, unflatten_file Wd' U = Ok tt w' /\ json_written w' (u_output U) (listed U j) /\ same_json (@Permutation jv) (JA (map JO docs)) j) /\
    (roots_together (flatten_opts Wd F schema) docs -> short_names (flatten_opts Wd F schema) docs ->
     exists w' j, unflatten_file Wd' U = Ok tt w' /\ json_written w' (u_output U) (listed U j) /\ same_json eq (JA (map JO docs)) j).
Proof.
  intros HF HS Hv Hl Ht HW HD HX. destruct (ods_near Wd F schema v docs t RE back HF HS Hv Hl Ht HW HD HX) as (w & sheets & A & B & C). exists w, sheets. split; [exact A|]. split; [exact B|].
  intros Wd' U schema' HU Hb Hs HV Hn. pose proof (C (fun x => x) Wd' U schema' HU Hb Hs (survive_come _ _ _ _ HV)) as D. rewrite nearby_doc_id in D. exact (D Hn).
Qed.
