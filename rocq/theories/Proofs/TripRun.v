(** flatten to CSV files, then unflatten. *)
From Coq Require Import Permutation Lia.
From Verif.Base Require Import PyStr PyNum PyVal PyDict Outcome.
From Verif.Model Require Import Warn Lib Convert Input Json SourceMap Flatten Readers Csv Output Titles TitleLines Schema Commands.
From Verif.Spec Require Import Sites Paths Grids CsvText Written Commands RoundTrip Typed Trip.
From Verif.Proofs Require Import CommandFacts CommandRun RtTrip Trip TripJson.
Local Open Scope res_scope.

Lemma replace_join ks : (forall k, In k ks -> ~ In 47%N k) -> replace_c slash 46%N (join (u "/") ks) = join [46%N] ks.
Proof.
  assert (K : forall k, ~ In 47%N k -> replace_c slash 46%N k = k).
  { intros k H. unfold replace_c. rewrite <- (map_id k) at 2. apply map_ext_in. intros c Hc. destruct (c =? slash)%N eqn:E; [|reflexivity]. apply N.eqb_eq in E. subst c. contradiction. }
  induction ks as [|k ks IH]; intros H; [reflexivity|]. destruct ks as [|k2 ks]; [cbn [join]; apply K, H; left; reflexivity|].
  rewrite !join_cons. unfold replace_c in *. rewrite !map_app. fold (replace_c slash 46%N k) in *. f_equal; [apply K, H; left; reflexivity|]. f_equal. apply IH. intros z Hz. apply H. right. exact Hz.
Qed.
Lemma join_snoc ks k : ks <> [] -> join [46%N] ks ++ 46%N :: k = join [46%N] (ks ++ [k]).
Proof.
  induction ks as [|x ks IH]; [congruence|]. intros _. destruct ks as [|y ks]; [reflexivity|]. rewrite join_cons. change ((x :: y :: ks) ++ [k]) with (x :: y :: (ks ++ [k])). rewrite join_cons.
  rewrite <- !app_assoc. f_equal. f_equal. apply IH. discriminate.
Qed.
Lemma records_there F v ks : f_xml F = false -> place_of F v ks -> records_of F v = Ok (items_there (at_path v (down ks))) [].
Proof.
  intros Hx (Hks & Hk & Hw). unfold records_of. rewrite Hx. unfold ret. f_equal. rewrite Forall_forall in Hk. destruct (f_root_list F).
  - subst ks. change (u "item") with (join [46%N] ([] ++ [u "item"])). apply (ijson_there []); [intros k []|exact Hw|intros k []].
  - destruct Hks as (Hne & ->). rewrite replace_join by (intros k H; apply (Hk k H)).
    change (u ".item") with (46%N :: u "item"). rewrite join_snoc by exact Hne. apply ijson_there; [intros k H; apply (Hk k H)|exact Hw|intros k H; apply (Hk k H)].
Qed.
Lemma records_found F v l : f_xml F = false -> records_at F v l -> records_of F v = Ok l [].
Proof. intros Hx (ks & Hp & Ha). rewrite (records_there F v ks Hx Hp), Ha. reflexivity. Qed.
Lemma schema_read_ok Wd b file S sch : schema_read Wd b file S sch -> exists w, optional_schema Wd file b S = Ok sch w /\ texts_written w = [].
Proof.
  intros [(-> & ->)|(Hf & v & s & w & Hv & Hp & ->)]; [exists []; split; reflexivity|]. destruct file as [|c file]; [congruence|]. cbn [optional_schema]. unfold schema_parser. rewrite Hv. cbn [open_file bind]. rewrite Hp. cbn [lift bind ret].
  eexists. split; [reflexivity|]. rewrite app_nil_r. cbn [texts_written flat_map app]. clear. induction w as [|x w IH]; [reflexivity|exact IH].
Qed.
Lemma texts_app a b : texts_written (a ++ b) = texts_written a ++ texts_written b.
Proof. unfold texts_written. apply flat_map_app. Qed.
Lemma texts_warned {A} (f : A -> anywarn) w : texts_written (map (fun x => Warned (f x)) w) = [].
Proof. induction w as [|x w IH]; [reflexivity|exact IH]. Qed.
Lemma each_write fs : exists r, each (fun pf : str * str => write (Some (fst pf)) (CText (snd pf))) fs = Ok r (map (fun pf => Wrote (Some (fst pf)) (CText (snd pf))) fs).
Proof. induction fs as [|x fs (r & IH)]; [exists []; reflexivity|]. exists (tt :: r). cbn [each]. unfold write at 1. cbn [bind]. rewrite IH. cbn [bind ret map]. rewrite app_nil_r. reflexivity. Qed.
Lemma texts_each fs : texts_written (map (fun pf : str * str => Wrote (Some (fst pf)) (CText (snd pf))) fs) = fs.
Proof. induction fs as [|[p c] fs IH]; [reflexivity|]. cbn [map texts_written flat_map app fst snd]. f_equal. exact IH. Qed.

Lemma format_known f : sget (format_name f) formats = Some f. Proof. destruct f; reflexivity. Qed.
Section Run.
  Variables (Wd : world) (F : flopts) (schema : option sps) (v : jv) (l : list jv) (t : term) (f : fmt).
  Hypothesis HF : to_format f F.
  Hypothesis HS : schema_read Wd (f_local_off F) (f_schema F) (flatten_schema_opts Wd F) schema.
  Hypothesis Hv : wd_json Wd (f_input F) = inr v.
  Hypothesis Hl : records_at F v l.
  Hypothesis Ht : sget (f_term F) terminators = Some t.
  Lemma parser_runs s wf : flatten (flatten_opts Wd F schema) (f_drop F) [] l = Ok s wf -> exists w, json_parser Wd F schema = Ok s w /\ texts_written w = [].
  Proof.
    intros H. destruct HF as (_ & _ & _ & _ & Hp & Hr & Hx). unfold json_parser, resolve_rollup. rewrite Hr, Hx. cbn [roll_truthy]. unfold preserve_lines, preserve_warning. rewrite Hp. cbn [is_nil negb].
    unfold read_document. rewrite Hx, Hv. cbn [open_file bind ret]. rewrite (records_found F v l Hx Hl). destruct schema as [sc|]; cbn [ret bind open_file fst snd preserve_fields_input app]; unfold flatten_opts in H; change (preserve_fields_input []) with (@nil str); rewrite H; cbn [lift bind]; eexists; (split; [reflexivity|]); cbn [texts_written flat_map app]; apply texts_warned.
  Qed.
  Theorem flatten_outputs s wf : flatten (flatten_opts Wd F schema) (f_drop F) [] l = Ok s wf -> exists w0, texts_written w0 = [] /\ silent w0 /\
    flatten_file Wd F = (_ <- Ok tt w0 ;; spreadsheet_output Wd (f_main F) (f_prefix F) t (main_table s) (sub_tables s) f (named_or (u "flattened" ++ suffix f) (f_output F))).
  Proof.
    intros H. destruct (parser_runs s wf H) as (w1 & Hj & T1). unfold flatten_file. rewrite Ht. pose proof HF as (Hf & _ & H1 & H2 & _ & Hr & _). rewrite H1, H2.
    assert (G : exists w0, (schema <- match f_schema F with [] => ret None | file => s <- schema_parser Wd (f_local_off F) file {| so_rollup := roll_truthy (f_roll F); so_root_id := f_root_id F; so_titles := f_titles F; so_trunc := f_trunc F; so_nodep := false; so_wkt := f_wkt F; so_lower := wd_lower Wd |} ;; ret (Some s) end ;;
        s <- json_parser Wd F schema ;; write_outputs Wd (f_main F) (f_prefix F) t (main_table s) (sub_tables s) (u "flattened") (f_format F) (f_output F)) =
      (s <- Ok s (w0 ++ w1) ;; write_outputs Wd (f_main F) (f_prefix F) t (main_table s) (sub_tables s) (u "flattened") (f_format F) (f_output F)) /\ texts_written w0 = [] /\ silent w0).
    { destruct (schema_read_ok _ _ _ _ _ HS) as (w0 & Es & T0). exists w0.
      assert (S0 : silent w0) by (apply (f_equal warns) in Es; cbn [warns] in Es; rewrite <- Es; unfold optional_schema; destruct (f_schema F); [apply silent_nil|]; apply bind_silent; [apply schema_parser_silent|intros; apply silent_nil]).
      split; [|split; [exact T0|exact S0]]. rewrite Hr. cbn [roll_truthy]. unfold flatten_schema_opts in Es. unfold optional_schema in Es. destruct (f_schema F) as [|c file].
      - injection Es as Es1 Es2. subst schema w0. cbn [ret bind]. rewrite Hj. cbn [bind app]. destruct (write_outputs _ _ _ _ _ _ _ _); reflexivity.
      - rewrite Es. cbn [bind]. rewrite Hj. cbn [bind]. destruct (write_outputs _ _ _ _ _ _ _ _); cbn; rewrite app_assoc; reflexivity. }
    destruct G as (w0 & -> & T0 & S0). exists (w0 ++ w1). split; [rewrite texts_app, T0, T1; reflexivity|].
    assert (S1 : silent w1) by (apply (f_equal warns) in Hj; cbn [warns] in Hj; rewrite <- Hj; apply json_parser_silent).
    split; [apply silent_app; assumption|]. cbn [bind]. rewrite Hf, (write_single Wd _ _ _ _ _ _ (format_name f) f) by apply format_known. reflexivity.
  Qed.
End Run.
Theorem flatten_runs Wd F schema v l t : to_csv F -> schema_read Wd (f_local_off F) (f_schema F) (flatten_schema_opts Wd F) schema -> wd_json Wd (f_input F) = inr v -> records_at F v l ->
  sget (f_term F) terminators = Some t -> forall s wf fs, flatten (flatten_opts Wd F schema) (f_drop F) [] l = Ok s wf ->
  write_csv_files (writer_opts F t) (wd_wenv Wd) (main_table s) (sub_tables s) [] = Ok fs [] ->
  exists w, flatten_file Wd F = Ok tt w /\ texts_written w = fs.
Proof.
  intros HF HS Hv Hl Ht s wf fs H Hw. destruct (flatten_outputs Wd F schema v l t Csv HF HS Hv Hl Ht s wf H) as (w0 & T0 & _ & ->). cbn [suffix bind]. rewrite app_nil_r. unfold spreadsheet_output. cbv zeta.
  change {| w_main := f_main F; w_output := named_or (u "flattened") (f_output F); w_prefix := f_prefix F; w_term := t |} with (writer_opts F t). rewrite Hw. cbn [lift map bind]. destruct (each_write fs) as (r & ->). cbn [bind ret app]. rewrite app_nil_r.
  eexists. split; [reflexivity|]. rewrite texts_app, T0, texts_each. reflexivity.
Qed.

Definition rd0 : reader := {| rd_base := empty_conf; rd_use := true; rd_vertical := false; rd_include := []; rd_exclude := [] |}.
(** the records of sheets, with or without titles as headings *)
Definition sheets_give (ti : bool) (Wd : world) (U : uopts) (schema : option sps) (sheets : list sheet_in) : R (list vdict) :=
  if ti then unflatten_titled (wd_lower Wd) (unflatten_opts Wd U schema) (match schema with Some s => Some (sp_table s) | None => None end) sheets
  else unflatten (unflatten_opts Wd U schema) sheets.
Section Back.
  Variables (ti : bool) (Wd : world) (U : uopts) (schema : option sps) (b : book) (sheets : list sheet_in) (out : list vdict) (j : jout) (f : fmt) (wu : list warning).
  Hypothesis HU : from_format_with ti f U.
  Hypothesis HS : schema_read Wd (u_local_off U) (u_schema U) (unflatten_schema_opts Wd U) schema.
  Hypothesis Hb : wd_book Wd f (u_input U) = inr b.
  Hypothesis Hr : read_book f rd0 b = Ok sheets [].
  Hypothesis Hu : sheets_give ti Wd U schema sheets = Ok out wu.
  Hypothesis Hd : dump_records Wd out = Ok j [].
  Lemma main_runs : exists cs w, read_main Wd U f empty_conf (root_path U empty_conf) (id_name_used U empty_conf) = Ok (out, None, None, cs) w /\ silent w.
  Proof.
    destruct (schema_read_ok _ _ _ _ _ HS) as (w0 & Es & T0). destruct HU as (_ & _ & Hm & _ & Hx & Hve & Hti & _ & Hce & Hhe). unfold read_main.
    assert (S0 : silent w0) by (apply (f_equal warns) in Es; cbn [warns] in Es; rewrite <- Es; unfold optional_schema; destruct (u_schema U); [apply silent_nil|]; apply bind_silent; [apply schema_parser_silent|intros; apply silent_nil]).
    unfold unflatten_schema_opts in Es. rewrite Es. cbn [bind]. unfold read_spreadsheet. rewrite Hb. cbn [open_file bind]. rewrite Hm, Hx, Hve, Hti, Hce, Hhe. cbn [is_nil negb]. 
    unfold read_book in Hr. fold rd0. apply bind_ok in Hr as (cs & w1 & w2 & H1 & H2 & Ew). symmetry in Ew. apply app_eq_nil in Ew as [-> ->]. rewrite H1. cbn [bind]. rewrite H2. cbn [bind ret].
    assert (G : exists sheets' w2, (if ti then convert_sheets (wd_lower Wd) (match schema with Some s => Some (sp_table s) | None => None end) sheets else ret sheets) = Ok sheets' w2 /\ exists w3, unflatten (unflatten_opts Wd U schema) sheets' = Ok out w3).
    { unfold sheets_give in Hu. destruct ti; [|exists sheets, []; eauto]. unfold unflatten_titled in Hu. apply bind_ok in Hu as (sheets' & w2 & w3 & Ha & Hb' & _). eauto 6. }
    clear Hu. destruct G as (sheets' & w2 & Hc & w3 & Hu). rewrite Hc. cbn [bind]. clear Hc.
    unfold unflatten in Hu. apply bind_ok in Hu as (tr & w4 & w5 & H3 & H4 & Ew). injection H4 as H4 _.
    unfold unflatten_opts in H3. unfold fancy_unflatten. cbn [f_cells f_headings orb]. 
    assert (Et : (fun k => types_for schema k) = match schema with Some s => types_of s | None => fun _ => [] end) by (destruct schema; reflexivity). change (types_for schema) with (fun k => types_for schema k). rewrite Et, H3. cbn [bind ret lift map app].
    rewrite H4. eexists. eexists. split; [reflexivity|]. apply silent_app; [exact S0|]. intros g c [Q|Q]; [discriminate Q|]. apply in_map_iff in Q as (z & Q & _). discriminate Q.
  Qed.
  Theorem unflatten_runs_with : exists w, unflatten_file Wd U = Ok tt w /\ json_written w (u_output U) (listed U j).
  Proof.
    destruct main_runs as (cs & w1 & Hm & S1). destruct HU as (Hf & Hbase & Hmeta & Hconf & Hx & Hve & Hti & Hmo & Hce & Hhe).
    assert (Fin : forall d w0, silent w0 -> dump Wd d = Ok (listed U j) [] ->
      exists w, (bind (Ok (d, [] : cmap, [] : hmap) w0) (fun x => let '(r, cells, heads) := x in _ <- json_stage Wd U r ;; map_stage U cells heads)) = Ok tt w /\ json_written w (u_output U) (listed U j)).
    { intros d w0 S0 Ed. cbn [bind]. unfold json_stage. rewrite Ed. cbn [lift bind map write app]. unfold map_stage. rewrite Hce, Hhe. cbn [ret bind app]. rewrite ?app_nil_r. eexists. split; [reflexivity|]. split; [apply in_or_app; right; left; reflexivity|].
      intros file j' Q. apply in_app_or in Q as [Q|[Q|[]]]; [destruct (S0 _ _ Q)|]. injection Q as -> ->. auto. }
    assert (St : forall s0, us_conf s0 = empty_conf -> us_cells s0 = [] -> us_heads s0 = [] -> (u_root_list U = false -> us_base s0 = inr []) -> exists d, main_stage Wd U f s0 = Ok (d, [], []) w1 /\ dump Wd d = Ok (listed U j) []).
    { intros s0 E1 E2 E3 E4. unfold main_stage. cbv zeta. rewrite E1, E2, E3, Hmo. cbn [negb orb].
      change (match u_path U with Some p => p | None => match sc_rootlist empty_conf with Some p => p | None => u "main" end end) with (root_path U empty_conf).
      change (match u_id_name U with Some p => p | None => match sc_idname empty_conf with Some p => p | None => u "id" end end) with (id_name_used U empty_conf).
      rewrite Hm. cbn [bind]. unfold listed. destruct (u_root_list U).
      - exists (FRecords out). cbn [ret bind app]. rewrite app_nil_r. split; [reflexivity|]. exact Hd.
      - rewrite (E4 eq_refl). exists (FObject [(root_path U empty_conf, BRecords out)]). cbn [ret bind app sset aset]. rewrite app_nil_r. split; [reflexivity|].
        cbn [dump dump_items dump_list dump_value fst snd bind]. rewrite Hd. reflexivity. }
    unfold unflatten_file. rewrite Hf. rewrite format_known. cbv iota. rewrite Hmeta. cbn [truthy andb]. rewrite Hx. cbv zeta iota.
    unfold read_base. rewrite Hbase. unfold metatab_stage. rewrite Hmeta, Hconf. change (default_conf []) with empty_conf.
    destruct (u_root_list U) eqn:El.
    all: cbn [ret bind app]; match goal with |- context [main_stage Wd U f ?s0] => destruct (St s0) as (d & E1 & E2); [reflexivity|reflexivity|reflexivity|first [reflexivity|congruence]|] end.
    all: rewrite E1; destruct (Fin d w1 S1 E2) as (w & Ew & Hw); cbn [bind] in Ew |- *; exists w; split; [|exact Hw].
    all: revert Ew; destruct (json_stage Wd U d) as [[] wj|ej wj]; cbn [bind]; [|intros Q; exact Q]; destruct (map_stage U [] []); intros Q; exact Q.
  Qed.
End Back.
Lemma unflatten_runs Wd U schema b sheets out j f wu : from_format f U -> schema_read Wd (u_local_off U) (u_schema U) (unflatten_schema_opts Wd U) schema -> wd_book Wd f (u_input U) = inr b ->
  read_book f rd0 b = Ok sheets [] -> unflatten (unflatten_opts Wd U schema) sheets = Ok out wu -> dump_records Wd out = Ok j [] ->
  exists w, unflatten_file Wd U = Ok tt w /\ json_written w (u_output U) (listed U j).
Proof. exact (unflatten_runs_with false Wd U schema b sheets out j f wu). Qed.
Lemma silent_texts w : silent w -> texts_written w = [].
Proof.
  induction w as [|e w IH]; intros H; [reflexivity|]. unfold texts_written. cbn [flat_map]. fold (texts_written w). rewrite IH by (intros f c Q; apply (H f c); right; exact Q).
  destruct e as [| |[f|] []]; try reflexivity. exfalso. apply (H (Some f) (CText s)). left. reflexivity.
Qed.
Lemma run_reads Wd F w : to_csv F -> flatten_file Wd F = Ok tt w -> exists v, wd_json Wd (f_input F) = inr v /\ forall ks, place_of F v ks ->
  exists schema s wf t, schema_read Wd (f_local_off F) (f_schema F) (flatten_schema_opts Wd F) schema /\
    flatten (flatten_opts Wd F schema) (f_drop F) [] (items_there (at_path v (down ks))) = Ok s wf /\
    sget (f_term F) terminators = Some t /\ exists fs w0, write_csv_files (writer_opts F t) (wd_wenv Wd) (main_table s) (sub_tables s) [] = Ok fs w0 /\ texts_written w = fs.
Proof.
  intros HF H. pose proof HF as (Hf & Ht & H1 & H2 & Hp & Hr & Hx).
  destruct (flatten_split Wd F) as (t & Et & E).
  { unfold bad_flatten. rewrite H1, H2. intros [[Q1 Q2]|[[Q1 Q2]|Q]]; try (apply Q1; reflexivity); try (apply Q2; reflexivity); try discriminate. apply Q. exact Ht. }
  rewrite E in H. apply bind_ok in H as (s & w1 & w2 & Hs & H & ->). assert (S1 : silent w1) by (pose proof (flatten_parse_silent Wd F) as Q; rewrite Hs in Q; exact Q).
  unfold flatten_parse in Hs. apply bind_ok in Hs as (schema & w3 & w4 & Hsc & Hj & ->).
  assert (HS : schema_read Wd (f_local_off F) (f_schema F) (flatten_schema_opts Wd F) schema).
  { rewrite Hr in Hsc. cbn [roll_truthy] in Hsc. destruct (f_schema F) as [|c file] eqn:Es; [injection Hsc as <- _; left; auto|right]. split; [discriminate|].
    apply bind_ok in Hsc as (sc & w5 & w6 & Hsc & Q & _). injection Q as <-. unfold schema_parser in Hsc. apply bind_ok in Hsc as (v & w7 & w8 & Hv & Hsc & _). apply lift_ok in Hsc as (w9 & Hsc & _).
    exists v, sc, w9. split; [|split; [exact Hsc|reflexivity]]. unfold open_file in Hv. destruct (wd_schema Wd (f_local_off F) (c :: file)); [discriminate|]. injection Hv as ->. reflexivity. }
  assert (Hd : exists v, wd_json Wd (f_input F) = inr v /\ forall l, records_of F v = Ok l [] -> exists wf, flatten (flatten_opts Wd F schema) (f_drop F) [] l = Ok s wf).
  { unfold json_parser, resolve_rollup in Hj. rewrite Hr, Hx in Hj. cbn [roll_truthy] in Hj. unfold preserve_lines, preserve_warning, read_document in Hj. rewrite Hp, Hx in Hj. cbn [is_nil negb] in Hj.
    assert (Hj' : (x <- (v <- open_file (f_input F) (wd_json Wd (f_input F)) ;; l <- records_of F v ;; ret (@nil str, l)) ;; lift AFlatten (flatten (parser_opts Wd F schema [] (fst x)) (f_drop F) (preserve_fields_input (fst x)) (snd x))) = Ok s w4).
    { revert Hj. destruct schema; cbn [ret bind]; destruct (open_file (f_input F) (wd_json Wd (f_input F))); cbn [bind]; try discriminate; destruct (records_of F a); cbn [bind ret]; try discriminate; intros Q; rewrite <- Q; repeat match goal with |- context [lift ?f ?x] => destruct (lift f x) end; reflexivity. }
    clear Hj. apply bind_ok in Hj' as ([ls l] & w5 & w6 & Hl & Hj & _). apply bind_ok in Hl as (v & w7 & w8 & Hv & Hl & _). apply bind_ok in Hl as (l' & w9 & w10 & Hl & Q & _). injection Q as <- <-.
    cbn [fst snd] in Hj. apply lift_ok in Hj as (wf & Hj & _). exists v. split; [unfold open_file in Hv; destruct (wd_json Wd (f_input F)); [discriminate|]; injection Hv as ->; reflexivity|].
    intros l'' Q. rewrite Hl in Q. injection Q as -> _. exists wf. exact Hj. }
  destruct Hd as (v & Hv & Hd). exists v. split; [exact Hv|]. intros ks Hks. destruct (Hd _ (records_there F v ks Hx Hks)) as (wf & Hfl). exists schema, s, wf, t. split; [exact HS|]. split; [exact Hfl|]. split; [exact Et|].
  rewrite Hf, (write_single Wd _ _ _ _ _ _ (u "csv") Readers.Csv) in H by reflexivity. cbn [suffix] in H. rewrite app_nil_r in H. unfold spreadsheet_output in H. cbv zeta in H.
  apply bind_ok in H as (fs & w5 & w6 & Hfs & H & ->). apply lift_ok in Hfs as (w0 & Hfs & ->). exists fs, w0. split; [exact Hfs|].
  destruct (each_write fs) as (r & Er). rewrite Er in H. cbn [bind ret] in H. injection H as <-. rewrite app_nil_r, !texts_app, texts_each, texts_warned. 
  rewrite <- texts_app, (silent_texts _ S1). reflexivity.
Qed.
