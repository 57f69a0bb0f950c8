(** C69: the commands [flatten] with titles and [unflatten] with titles one after the
    other, by way of a directory of CSV files and with the same schema.  The
    conditions on schema and documents are those of C62 (Spec/TitledTrip.v), the
    conditions on the files are in Spec/TitledFiles.v and Spec/Trip.v. *)
From Coq Require Import String Permutation Lia ZArith.
From Verif.Base Require Import PyStr PyNum PyVal PyDict Outcome.
From Verif.Model Require Import Warn Lib Convert Json Input Readers Flatten Csv Output Titles TitleLines Schema Commands.
From Verif.Tests Require Import TestLib FlattenLib CommandLib.
From Verif.Spec Require SchemaFields.
From Verif.Spec Require Import Flat Sites Paths Headings Commands Titled SchemaTitled RoundTrip Typed TitledTrip Positions Trip TitledFiles.
From Verif.Proofs Require Import FlattenTotal FlattenPaths RtDoc RtMain RtTyped RtCheck SchemaCheck SchemaOnce TripCheck TitleCheck TitleFilesCheck TitleEnd.
From Verif.Props Require Import TitleRound.
Local Open Scope list_scope.

(** nothing is lost *)
Theorem C69_round_trip Wd F S st ws v docs t : to_csv F -> schema_file Wd (f_local_off F) (f_schema F) S -> parse_schema (flatten_schema_opts Wd F) S = Ok st ws ->
  wd_json Wd (f_input F) = inr v -> records_at F v (map JO docs) -> sget (f_term F) terminators = Some t ->
  titled_run (flatten_schema_opts Wd F) S (Trip.flatten_opts Wd F (Some st)) -> readable_titles (flatten_schema_opts Wd F) S -> all_titled (flatten_schema_opts Wd F) S docs ->
  documents (Trip.flatten_opts Wd F (Some st)) docs -> titled_ready (Trip.flatten_opts Wd F (Some st)) (writer_opts F t) (wd_wenv Wd) docs ->
  exists w, flatten_file Wd F = Ok tt w /\ forall Wd' U st',
    from_format_with true Readers.Csv U -> u_input U = output_dir F -> directory_has Wd' (u_input U) (texts_written w) -> reads_titles Wd F S Wd' U st' ->
    survive (Trip.flatten_opts Wd F (Some st)) (Trip.unflatten_opts Wd' U (Some st')) (csv_cell (wd_wenv Wd)) docs -> Forall (fun d => numbers_finite (JO d)) docs ->
    exists w' j, unflatten_file Wd' U = Ok tt w' /\ json_written w' (u_output U) (listed U j) /\ same_json (@Permutation jv) (JA (map JO docs)) j.
Proof. intros H1 H2 H3 H4 H5 H6 H7 H8 H9 H10 H11. apply (titled_end Wd F S st ws v docs t H1 H2 H3 H4 H5 H6 H7 H8 H9 H10 H11 false). discriminate. Qed.
Print Assumptions C69_round_trip.
(** nor the order, when the file of the main sheet is the first by name and the file
    of an array comes before those of the arrays in its items *)
Theorem C69_ordered Wd F S st ws v docs t : to_csv F -> schema_file Wd (f_local_off F) (f_schema F) S -> parse_schema (flatten_schema_opts Wd F) S = Ok st ws ->
  wd_json Wd (f_input F) = inr v -> records_at F v (map JO docs) -> sget (f_term F) terminators = Some t ->
  titled_run (flatten_schema_opts Wd F) S (Trip.flatten_opts Wd F (Some st)) -> readable_titles (flatten_schema_opts Wd F) S -> all_titled (flatten_schema_opts Wd F) S docs ->
  documents (Trip.flatten_opts Wd F (Some st)) docs -> titled_ready (Trip.flatten_opts Wd F (Some st)) (writer_opts F t) (wd_wenv Wd) docs ->
  titled_main_first (Trip.flatten_opts Wd F (Some st)) (writer_opts F t) docs -> inner_names_later (Trip.flatten_opts Wd F (Some st)) docs -> roots_together (Trip.flatten_opts Wd F (Some st)) docs ->
  exists w, flatten_file Wd F = Ok tt w /\ forall Wd' U st',
    from_format_with true Readers.Csv U -> u_input U = output_dir F -> directory_has Wd' (u_input U) (texts_written w) -> reads_titles Wd F S Wd' U st' ->
    survive (Trip.flatten_opts Wd F (Some st)) (Trip.unflatten_opts Wd' U (Some st')) (csv_cell (wd_wenv Wd)) docs -> Forall (fun d => numbers_finite (JO d)) docs ->
    exists w' j, unflatten_file Wd' U = Ok tt w' /\ json_written w' (u_output U) (listed U j) /\ same_json eq (JA (map JO docs)) j.
Proof. intros H1 H2 H3 H4 H5 H6 H7 H8 H9 H10 H11 M1 M2 M3. apply (titled_end Wd F S st ws v docs t H1 H2 H3 H4 H5 H6 H7 H8 H9 H10 H11 true). auto. Qed.
Print Assumptions C69_ordered.
(** the cells are converted back when the fields have the types of the schema, ids
    are not decimals, root ids all texts or all whole numbers *)
Theorem C69_typed Wd F st Wd' U st' docs : f_id_name F = id_name_used U empty_conf -> f_root_id F = u_root_id U -> documents (Trip.flatten_opts Wd F (Some st)) docs ->
  Forall (has_types (types_of st')) docs ->
  (forall d Q, In d docs -> at_path (JO d) (Q ++ [(f_id_name F, None)]) <> None -> type_at (types_of st') (Q ++ [(f_id_name F, None)]) <> u "number") ->
  ((forall d s, In d docs -> root_key (Trip.flatten_opts Wd F (Some st)) d = Some (JS s) -> exists t, s = SStr t) \/
   (forall d s, In d docs -> root_key (Trip.flatten_opts Wd F (Some st)) d = Some (JS s) -> exists z, s = SInt z)) ->
  survive (Trip.flatten_opts Wd F (Some st)) (Trip.unflatten_opts Wd' U (Some st')) (csv_cell (wd_wenv Wd)) docs.
Proof.
  intros H1 H2 HD HT Hn Hk. apply (typed_survive (Trip.flatten_opts Wd F (Some st)) (Trip.unflatten_opts Wd' U (Some st')) (we_env (wd_wenv Wd)) (csv_cell (wd_wenv Wd)) docs eq_refl (eq_sym H1) (eq_sym H2) HD HT Hn); [|exact Hk].
  intros [| | | | | |]; try (intros _; right; reflexivity). intros []; reflexivity.
Qed.
Print Assumptions C69_typed.

(** ** A case: the documents of C62, with a schema whose sheets "Bid" and
    "Bid_Documents" are in order *)
Local Open Scope string_scope.
Local Open Scope list_scope.
Definition schema69 (bids : string) : sv := VO None [(u "properties", VO None
  [(u "id", field62 "string" "Number"); (u "ocid", field62 "string" "Process Id"); (u "total", field62 "number" "Total, with tax"); (u "tags", list62 "Tags");
   (u "buyer", object62 "Buyer" [(u "id", field62 "string" "Number"); (u "name", field62 "string" "Name")]);
   (u "bids", array62 bids [(u "id", field62 "string" "Number"); (u "value", field62 "integer" "Value"); (u "open", field62 "boolean" "Open");
      (u "docs", array62 "Documents" [(u "id", field62 "string" "Number"); (u "url", field62 "string" "Link")])])])].
Definition opts69 : flopts :=
  {| f_input := u "in.json"; f_schema := u "s.json"; f_output := Some (u "dir"); f_format := u "csv"; f_main := u "All"; f_path := u "main"; f_root_list := true;
     f_prefix := []; f_filter_field := None; f_filter_value := None; f_preserve := []; f_roll := RollFalse; f_root_id := u "ocid"; f_titles := true;
     f_xml := false; f_id_name := u "id"; f_local_off := false; f_drop := false; f_trunc := 3; f_term := u "LF"; f_wkt := false |}.
Definition world69 (bids : string) (docs : list jobj) : world := test_world [] (JS SNone) (JA (map JO docs)) (schema69 bids).
Definition back69 : uopts :=
  {| u_input := u "dir"; u_base := None; u_format := Some (u "csv"); u_output := Some (u "out.json"); u_path := None; u_root_list := true;
     u_zone := u "UTC"; u_root_id := u "ocid"; u_schema := u "s.json"; u_titles := true; u_cells := []; u_heads := []; u_id_name := None;
     u_xml := false; u_vertical := false; u_meta := None; u_meta_only := false; u_meta_schema := []; u_meta_vertical := false;
     u_xsds := None; u_conf := []; u_local_off := false; u_comment := None; u_trunc := 3; u_wkt := false |}.
Definition after69 (bids : string) (docs : list jobj) : world :=
  test_world (match csv_book (u "dir") (texts_written (warns (flatten_file (world69 bids docs) opts69))) with Ok b _ => b | Raise _ _ => [] end) (JS SNone) (JS SNone) (schema69 bids).
Definition parsed69 (SO : sopts) (bids : string) : sps := match parse_schema SO (schema69 bids) with Ok st _ => st | Raise _ _ => sps_start end.
Notation SO69 := (flatten_schema_opts (world69 "" []) opts69).
Notation SU69 := (unflatten_schema_opts (world69 "" []) back69).
Notation O69 bids docs := (Trip.flatten_opts (world69 bids docs) opts69 (Some (parsed69 SO69 bids))).
Notation P69 bids docs := (Trip.unflatten_opts (after69 bids docs) back69 (Some (parsed69 SU69 bids))).
Lemma parse69 SO bids : In (SO, bids) [(SO69, "Bid"); (SO69, "Bids"); (SU69, "Bid"); (SU69, "Bids")] -> exists w, parse_schema SO (schema69 bids) = Ok (parsed69 SO bids) w.
Proof.
  intros H. unfold parsed69. assert (G : match parse_schema SO (schema69 bids) with Ok _ _ => true | Raise _ _ => false end = true) by (destruct H as [[= <- <-]|[[= <- <-]|[[= <- <-]|[[= <- <-]|[]]]]]; vm_compute; reflexivity).
  destruct (parse_schema SO (schema69 bids)) as [st w|e w]; [exists w; reflexivity|discriminate G].
Qed.
Lemma json69 bids docs : bids = "Bid" \/ bids = "Bids" -> json_run (O69 bids docs).
Proof.
  intros H. split; [|split; reflexivity]. unfold schema_ready. change (po_schema (O69 bids docs)) with (Some (schema_info_of (parsed69 SO69 bids))).
  assert (F : nodupb (map fst (sci_subs (schema_info_of (parsed69 SO69 bids)))) = true /\ nodupb (header (sci_main (schema_info_of (parsed69 SO69 bids)))) = true /\
    forallb (fun nx => match sh_lines (snd nx) with LMem [] => true | _ => false end && nodupb (header (snd nx))) (sci_subs (schema_info_of (parsed69 SO69 bids))) = true) by (destruct H as [-> | ->]; vm_compute; auto).
  destruct F as (F1 & F2 & F). split; [apply nodupb_ok; exact F1|]. split; [apply nodupb_ok; exact F2|].
  apply Forall_forall. intros nx Hx. rewrite forallb_forall in F. apply F in Hx. apply andb_true_iff in Hx as [H1 H2]. split; [|apply nodupb_ok; exact H2]. destruct (sh_lines (snd nx)) as [[|? ?]|]; congruence.
Qed.
Lemma titled69 bids docs : bids = "Bid" \/ bids = "Bids" -> titled_run SO69 (schema69 bids) (O69 bids docs).
Proof.
  intros H. split; [destruct (parse69 SO69 bids) as (w & E); [cbn [In]; destruct H as [-> | ->]; tauto|]; exists (parsed69 SO69 bids), w; split; [exact E|]; repeat split|]. split; [exact (json69 bids docs H)|]. split; [intros l; apply Permutation_refl|].
  split; [reflexivity|]. split; [reflexivity|]. split; [reflexivity|]. destruct H as [-> | ->]; split; apply own_words_ok; vm_compute; reflexivity.
Qed.
Lemma readable69 bids : bids = "Bid" \/ bids = "Bids" -> readable_titles SO69 (schema69 bids).
Proof.
  intros H. split; [apply clear_ok|split; [apply keys_ok|split; [apply plain_ok|split; [apply named_ok|split; [apply worded_ok|split; [apply apart_ok|split; [apply titled_ids_ok|apply words_ok]]]]]]]; destruct H as [-> | ->]; vm_compute; reflexivity.
Qed.
Lemma records69 docs : wd_json (world69 "Bid" docs) (u "in.json") = inr (JA (map JO docs)) /\ records_at opts69 (JA (map JO docs)) (map JO docs).
Proof. split; [reflexivity|]. exists []. split; [|reflexivity]. split; [reflexivity|]. split; [constructor|]. intros ks1 ks2 d E. destruct ks1; [discriminate|discriminate E]. Qed.
Lemma back_reads69 bids docs : bids = "Bid" \/ bids = "Bids" -> reads_titles (world69 bids docs) opts69 (schema69 bids) (after69 bids docs) back69 (parsed69 SU69 bids).
Proof. intros H. split; [split; [discriminate|reflexivity]|]. split; [|split; reflexivity]. apply (parse69 SU69 bids). cbn [In]. destruct H as [-> | ->]; tauto. Qed.
Example C69_meets : to_csv opts69 /\ schema_file (world69 "Bid" docs62) (f_local_off opts69) (f_schema opts69) (schema69 "Bid") /\ titled_run SO69 (schema69 "Bid") (O69 "Bid" docs62) /\
  readable_titles SO69 (schema69 "Bid") /\ all_titled SO69 (schema69 "Bid") docs62 /\ documents (O69 "Bid" docs62) docs62 /\ titled_ready (O69 "Bid" docs62) (writer_opts opts69 LF) cmd_wenv docs62 /\
  titled_main_first (O69 "Bid" docs62) (writer_opts opts69 LF) docs62 /\ inner_names_later (O69 "Bid" docs62) docs62 /\ roots_together (O69 "Bid" docs62) docs62 /\
  from_format_with true Readers.Csv back69 /\ u_input back69 = output_dir opts69 /\ directory_has (after69 "Bid" docs62) (u_input back69) (texts_written (warns (flatten_file (world69 "Bid" docs62) opts69))) /\
  reads_titles (world69 "Bid" docs62) opts69 (schema69 "Bid") (after69 "Bid" docs62) back69 (parsed69 SU69 "Bid") /\
  survive (O69 "Bid" docs62) (P69 "Bid" docs62) (csv_cell cmd_wenv) docs62 /\ Forall (fun d => numbers_finite (JO d)) docs62.
Proof.
  split; [repeat split; cbn; tauto|]. split; [split; [discriminate|reflexivity]|]. split; [apply titled69; auto|]. split; [apply readable69; auto|]. split; [apply all_titled_ok; vm_compute; reflexivity|].
  split; [apply documents_check; vm_compute; reflexivity|]. split; [apply titled_ready_check; [reflexivity|vm_compute; reflexivity]|]. split; [apply titled_main_first_check; vm_compute; reflexivity|].
  split; [apply inner_later_check; vm_compute; reflexivity|]. split.
  { intros a d b' e c Q _. destruct b' as [|x b']; [constructor|]. exfalso. apply (f_equal (@List.length jobj)) in Q. rewrite !app_length in Q. cbn [List.length docs62] in Q. rewrite app_length in Q. cbn [List.length] in Q. lia. }
  split; [repeat split|]. split; [reflexivity|]. split; [eexists; split; [reflexivity|]; vm_compute; reflexivity|]. split; [apply back_reads69; auto|].
  split; [apply survive_check; vm_compute; reflexivity|]. repeat (apply Forall_cons; [apply finite_check; vm_compute; reflexivity|]). apply Forall_nil.
Qed.
(** the files *)
Example C69_files : texts_written (warns (flatten_file (world69 "Bid" docs62) opts69)) =
  [(u "dir/All.csv", u "Number,Process Id,""Total, with tax"",Tags,Buyer:Number,Buyer:Name
1,a,12.5,x;y,b1,B
2,a,,,,
"); (u "dir/Bid.csv", u "ocid,Number,Bid:Number,Bid:Value,Bid:Open,Process Id
,1,p,7,,a
,1,q,,False,a
,2,p,9,,a
"); (u "dir/Bid_Documents.csv", u "ocid,Number,Bid:Number,Bid:Documents:Number,Bid:Documents:Link,Process Id
,1,p,d,L,a
,1,p,e,,a
,1,q,d,M,a
")].
Proof. vm_compute. reflexivity. Qed.
(** The array titled "Bids" has the sheet Bids, the array in its items the sheet
    Bid_Documents (the titles on the way are cut to three letters), and that file is
    read first: the bids come back in another order. *)
Definition turned69 : list jobj :=
  [ [(u "id", t62 "1"); (u "ocid", t62 "a"); (u "bids", JA [JO [(u "id", t62 "p"); (u "value", JS (SInt 7))]; JO [(u "id", t62 "q"); (u "docs", JA [JO [(u "id", t62 "d")]])]])] ].
Theorem C69_order_refuted : exists bids docs, titled_run SO69 (schema69 bids) (O69 bids docs) /\ readable_titles SO69 (schema69 bids) /\ all_titled SO69 (schema69 bids) docs /\ documents (O69 bids docs) docs /\
  titled_ready (O69 bids docs) (writer_opts opts69 LF) cmd_wenv docs /\ titled_main_first (O69 bids docs) (writer_opts opts69 LF) docs /\ roots_together (O69 bids docs) docs /\
  reads_titles (world69 bids docs) opts69 (schema69 bids) (after69 bids docs) back69 (parsed69 SU69 bids) /\ survive (O69 bids docs) (P69 bids docs) (csv_cell cmd_wenv) docs /\
  docs = [ [(u "id", t62 "1"); (u "ocid", t62 "a"); (u "bids", JA [JO [(u "id", t62 "p"); (u "value", JS (SInt 7))]; JO [(u "id", t62 "q"); (u "docs", JA [JO [(u "id", t62 "d")]])]])] ] /\
  exists w, unflatten_file (after69 bids docs) back69 = Ok tt w /\ In (Wrote (Some (u "out.json")) (CJson
    (OArr [OObj [(u "id", OLeaf (JStr (u "1"))); (u "ocid", OLeaf (JStr (u "a")));
       (u "bids", OArr [OObj [(u "id", OLeaf (JStr (u "q"))); (u "docs", OArr [OObj [(u "id", OLeaf (JStr (u "d")))]])]; OObj [(u "id", OLeaf (JStr (u "p"))); (u "value", OLeaf (JInt 7))]])]]))) w.
Proof.
  exists "Bids", turned69. split; [apply titled69; auto|]. split; [apply readable69; auto|]. split; [apply all_titled_ok; vm_compute; reflexivity|].
  split; [apply documents_check; vm_compute; reflexivity|]. split; [apply titled_ready_check; [reflexivity|vm_compute; reflexivity]|]. split; [apply titled_main_first_check; vm_compute; reflexivity|].
  split. { intros a d b' e c Q _. apply (f_equal (@List.length jobj)) in Q. rewrite !app_length in Q. cbn [List.length turned69] in Q. rewrite app_length in Q. cbn [List.length] in Q. lia. }
  split; [apply back_reads69; auto|]. split; [apply survive_check; vm_compute; reflexivity|]. split; [reflexivity|].
  eexists. split; [vm_compute; reflexivity|]. cbn [In]. tauto.
Qed.
Print Assumptions C69_order_refuted.
