(** C51, C52: the commands [flatten] and [unflatten] one after the other, by way of
    a directory of CSV files; which records [flatten] reads.  The notions used in
    the statements are in Spec/Trip.v (what goes through CSV files, the files
    written, the same as JSON), Spec/RoundTrip.v and Spec/Typed.v (documents),
    Spec/Commands.v (schema read, JSON written). *)
From Coq Require Import String Permutation Lia Sorted.
From Verif.Base Require Import PyStr PyNum PyVal PyDict Outcome.
From Verif.Model Require Import Warn Lib Convert Input Json Flatten Readers Csv Output Schema Commands.
From Verif.Spec Require Import Flat Sites Paths Headings Grids CsvText SchemaFields Written Commands RoundTrip Typed.
From Verif.Tests Require Import TestLib FlattenLib CommandLib.
From Verif.Spec Require Import Paths RoundTrip Typed Trip.
From Verif.Proofs Require Import RtTrip RtNames RtCheck RtTyped SchemaReady SchemaCheck Trip TripJson TripRun TripEnd TripCheck.
Local Open Scope list_scope.

(** ** C51: nothing is lost.  After [flatten] has run, any world in which the
    directory holds the files it wrote, any options of [unflatten] and any schema
    under which the cells are converted back *)
Theorem C51_round_trip Wd F schema v docs t : to_csv F -> schema_read Wd (f_local_off F) (f_schema F) (flatten_schema_opts Wd F) schema ->
  wd_json Wd (f_input F) = inr v -> records_at F v (map JO docs) -> sget (f_term F) terminators = Some t ->
  whole (flatten_opts Wd F schema) -> documents (flatten_opts Wd F schema) docs -> csv_ready (flatten_opts Wd F schema) (writer_opts F t) (wd_wenv Wd) docs ->
  exists w, flatten_file Wd F = Ok tt w /\ forall Wd' U schema',
    from_csv U -> u_input U = output_dir F -> directory_has Wd' (u_input U) (texts_written w) ->
    schema_read Wd' (u_local_off U) (u_schema U) (unflatten_schema_opts Wd' U) schema' ->
    survive (flatten_opts Wd F schema) (unflatten_opts Wd' U schema') (csv_cell (wd_wenv Wd)) docs -> Forall (fun d => numbers_finite (JO d)) docs ->
    exists w' j, unflatten_file Wd' U = Ok tt w' /\ json_written w' (u_output U) (listed U j) /\ same_json (@Permutation jv) (JA (map JO docs)) j.
Proof. exact (end_any Wd F schema v docs t). Qed.
Print Assumptions C51_round_trip.
(** nor the order, when the file of the main sheet comes first in the directory *)
Theorem C51_ordered Wd F schema v docs t : to_csv F -> schema_read Wd (f_local_off F) (f_schema F) (flatten_schema_opts Wd F) schema ->
  wd_json Wd (f_input F) = inr v -> records_at F v (map JO docs) -> sget (f_term F) terminators = Some t ->
  whole (flatten_opts Wd F schema) -> documents (flatten_opts Wd F schema) docs -> csv_ready (flatten_opts Wd F schema) (writer_opts F t) (wd_wenv Wd) docs ->
  main_first (flatten_opts Wd F schema) (writer_opts F t) docs -> roots_together (flatten_opts Wd F schema) docs -> short_names (flatten_opts Wd F schema) docs ->
  exists w, flatten_file Wd F = Ok tt w /\ forall Wd' U schema',
    from_csv U -> u_input U = output_dir F -> directory_has Wd' (u_input U) (texts_written w) ->
    schema_read Wd' (u_local_off U) (u_schema U) (unflatten_schema_opts Wd' U) schema' ->
    survive (flatten_opts Wd F schema) (unflatten_opts Wd' U schema') (csv_cell (wd_wenv Wd)) docs -> Forall (fun d => numbers_finite (JO d)) docs ->
    exists w' j, unflatten_file Wd' U = Ok tt w' /\ json_written w' (u_output U) (listed U j) /\ same_json eq (JA (map JO docs)) j.
Proof. exact (end_ordered Wd F schema v docs t). Qed.
Print Assumptions C51_ordered.
(** the cells are converted back when the fields have the types of the schema that
    [unflatten] reads, ids are not decimals, root ids all texts or all whole
    numbers *)
Theorem C51_typed Wd F schema Wd' U schema' docs : f_id_name F = id_name_used U empty_conf -> f_root_id F = u_root_id U ->
  documents (flatten_opts Wd F schema) docs ->
  let types := match schema' with Some s => types_of s | None => fun _ => [] end in
  Forall (has_types types) docs ->
  (forall d Q, In d docs -> at_path (JO d) (Q ++ [(f_id_name F, None)]) <> None -> type_at types (Q ++ [(f_id_name F, None)]) <> u "number") ->
  ((forall d s, In d docs -> root_key (flatten_opts Wd F schema) d = Some (JS s) -> exists t, s = SStr t) \/
   (forall d s, In d docs -> root_key (flatten_opts Wd F schema) d = Some (JS s) -> exists z, s = SInt z)) ->
  survive (flatten_opts Wd F schema) (unflatten_opts Wd' U schema') (csv_cell (wd_wenv Wd)) docs.
Proof.
  intros H1 H2 HD types HT Hn Hk. apply (typed_survive (Trip.flatten_opts Wd F schema) (Trip.unflatten_opts Wd' U schema') (we_env (wd_wenv Wd)) (csv_cell (wd_wenv Wd)) docs eq_refl (eq_sym H1) (eq_sym H2) HD HT Hn); [|exact Hk].
  intros [| | | | | |]; try (intros _; right; reflexivity). intros []; reflexivity.
Qed.
Print Assumptions C51_typed.

(** *** Documents with a schema *)
Definition et (x : string) : jv := JS (SStr (u x)).
Definition en (z : Z) : jv := JS (SInt z).
Definition e_text (t : string) : sv := VS (SStr (u t)).
Definition e_prop (type : string) (more : list (str * sv)) : sv := VO None ([(u "type", e_text type)] ++ more).
Definition e_schema : sv := e_prop "object" [(u "properties", VO None [
  (u "id", e_prop "integer" []); (u "name", e_prop "string" []); (u "paid", e_prop "boolean" []);
  (u "at", e_prop "object" [(u "properties", VO None [(u "town", e_prop "string" [])])]);
  (u "orders", e_prop "array" [(u "items", e_prop "object" [(u "properties", VO None [
     (u "id", e_prop "string" []); (u "price", e_prop "number" []); (u "tags", e_prop "array" [(u "items", e_prop "string" [])])])])])])].
Definition e_docs : list jobj :=
  [ [(u "id", en 7); (u "name", et "Ann ""A"", B"); (u "paid", JS (SBool true)); (u "at", JO [(u "town", et "X")]);
     (u "orders", JA [JO [(u "id", et "a"); (u "price", JS (SDec (DFin false 125 (-2)))); (u "tags", JA [et "x"; et "y z"])]; JO [(u "id", et "b"); (u "price", en 3)]])];
    [(u "id", en 8); (u "orders", JA [JO [(u "id", et "a")]])] ].
Definition e_opts : flopts :=
  {| f_input := u "in.json"; f_schema := u "s.json"; f_output := Some (u "dir"); f_format := u "csv"; f_main := u "main"; f_path := u "data/list"; f_root_list := false;
     f_prefix := []; f_filter_field := None; f_filter_value := None; f_preserve := []; f_roll := RollFalse; f_root_id := []; f_titles := false;
     f_xml := false; f_id_name := u "id"; f_local_off := false; f_drop := false; f_trunc := 3; f_term := u "LF"; f_wkt := false |}.
Definition e_world (docs : list jobj) : world := test_world [] (JS SNone) (JO [(u "version", et "1"); (u "data", JO [(u "list", JA (map JO docs))])]) e_schema.
Definition e_back : uopts :=
  {| u_input := u "dir"; u_base := None; u_format := Some (u "csv"); u_output := Some (u "out.json"); u_path := None; u_root_list := false;
     u_zone := u "UTC"; u_root_id := []; u_schema := u "s.json"; u_titles := false; u_cells := []; u_heads := []; u_id_name := None;
     u_xml := false; u_vertical := false; u_meta := None; u_meta_only := false; u_meta_schema := []; u_meta_vertical := false;
     u_xsds := None; u_conf := []; u_local_off := false; u_comment := None; u_trunc := 3; u_wkt := false |}.
(** a world whose directory has the files that were written *)
Definition e_after (docs : list jobj) (F : flopts) : world :=
  test_world (match csv_book (u "dir") (texts_written (warns (flatten_file (e_world docs) F))) with Ok b _ => b | Raise _ _ => [] end) (JS SNone) (JS SNone) e_schema.
Definition e_sps (O : sopts) : option sps := match parse_schema O e_schema with Ok s _ => Some s | Raise _ _ => None end.
Definition e_fschema : option sps := e_sps (flatten_schema_opts (e_world []) e_opts).
Definition e_uschema : option sps := e_sps (unflatten_schema_opts (e_world []) e_back).
Notation EO := (Trip.flatten_opts (e_world e_docs) e_opts e_fschema).
Example e_to_csv : to_csv e_opts.
Proof. repeat split. cbn. tauto. Qed.
Example e_schema_read : schema_read (e_world e_docs) false (u "s.json") (flatten_schema_opts (e_world e_docs) e_opts) e_fschema /\
  schema_read (e_after e_docs e_opts) false (u "s.json") (unflatten_schema_opts (e_after e_docs e_opts) e_back) e_uschema.
Proof. split; right; (split; [discriminate|]); exists e_schema; do 2 eexists; (split; [reflexivity|]); (split; [vm_compute; reflexivity|vm_compute; reflexivity]). Qed.
Example e_place : place_of e_opts (JO [(u "version", et "1"); (u "data", JO [(u "list", JA (map JO e_docs))])]) [u "data"; u "list"].
Proof.
  split; [split; [discriminate|reflexivity]|]. split; [repeat constructor; cbn; intuition discriminate|].
  assert (K : forall (e : jobj) d, Some (JO e) = Some (JO d) -> nodup_b str_eqb (map fst e) && forallb (fun k => lacks_c 46 k) (map fst e) = true -> NoDup (map fst d) /\ forall k, In k (map fst d) -> ~ In 46%N k).
  { intros e d [= <-] H. apply andb_prop in H as [H1 H2]. split; [exact (nodup_check _ str_eqb_refl _ H1)|]. intros k Hk. rewrite forallb_forall in H2. exact (lacks_c_check _ _ (H2 k Hk)). }
  intros ks1 ks2 d E H. destruct ks1 as [|a [|b [|c ks1]]]; [|injection E as <- E|injection E as <- <- E|discriminate E].
  - eapply K; [exact H|reflexivity].
  - eapply K; [exact H|reflexivity].
  - discriminate H.
Qed.
Example e_records : wd_json (e_world e_docs) (u "in.json") = inr (JO [(u "version", et "1"); (u "data", JO [(u "list", JA (map JO e_docs))])]) /\
  records_at e_opts (JO [(u "version", et "1"); (u "data", JO [(u "list", JA (map JO e_docs))])]) (map JO e_docs).
Proof.
  split; [reflexivity|]. exists [u "data"; u "list"]. split; [exact e_place|reflexivity].
Qed.
Lemma e_ready docs : schema_ready (Trip.flatten_opts (e_world docs) e_opts e_fschema).
Proof.
  destruct (parse_schema (flatten_schema_opts (e_world []) e_opts) e_schema) as [st w|e w] eqn:E; [|vm_compute in E; discriminate E].
  apply (parsed_ready (flatten_schema_opts (e_world []) e_opts) e_schema st w E); [apply named_ok; vm_compute; reflexivity|apply apart_ok; vm_compute; reflexivity|reflexivity|intros []|discriminate|].
  unfold Trip.flatten_opts, parser_opts, e_fschema, e_sps. rewrite E. reflexivity.
Qed.
Example e_whole : whole EO.
Proof. repeat split. right. split; [apply e_ready|reflexivity]. Qed.
Example e_documents : documents EO e_docs.
Proof. apply documents_check. vm_compute. reflexivity. Qed.
Example e_csv_ready : csv_ready EO (writer_opts e_opts LF) cmd_wenv e_docs /\ sget (f_term e_opts) terminators = Some LF.
Proof. split; [apply csv_ready_check; [reflexivity|vm_compute; reflexivity]|reflexivity]. Qed.
Example e_in_order : main_first EO (writer_opts e_opts LF) e_docs /\ roots_together EO e_docs /\ short_names EO e_docs.
Proof.
  split; [apply main_first_check; vm_compute; reflexivity|]. split.
  - intros a d b e c E _. apply Forall_forall. reflexivity.
  - intros d x y r Hd Hx Hy E Hr. exfalso. destruct Hd as [<-|[<-|[]]]; cbn in Hx, Hy; repeat (destruct Hx as [<-|Hx]); try (exfalso; exact Hx);
      repeat (destruct Hy as [<-|Hy]); try (exfalso; exact Hy); (apply Hr; cbn in E; destruct r; [reflexivity|discriminate E]).
Qed.
Example e_back_ok : from_csv e_back /\ u_input e_back = output_dir e_opts /\
  directory_has (e_after e_docs e_opts) (u_input e_back) (texts_written (warns (flatten_file (e_world e_docs) e_opts))).
Proof. split; [repeat split|]. split; [reflexivity|]. eexists. split; [reflexivity|]. vm_compute. reflexivity. Qed.
Example e_survive : survive EO (Trip.unflatten_opts (e_after e_docs e_opts) e_back e_uschema) (csv_cell cmd_wenv) e_docs /\ Forall (fun d => numbers_finite (JO d)) e_docs.
Proof. split; [apply survive_check; vm_compute; reflexivity|]. repeat (apply Forall_cons; [apply finite_check; vm_compute; reflexivity|]). apply Forall_nil. Qed.
(** the files, and what is written in the end *)
Example e_files : texts_written (warns (flatten_file (e_world e_docs) e_opts)) =
  [(u "dir/main.csv", u "id,name,paid,at/town
7,""Ann """"A"""", B"",True,X
8,,,
"); (u "dir/orders.csv", u "id,orders/0/id,orders/0/price,orders/0/tags
7,a,1.25,x;y z
7,b,3,
8,a,,
")].
Proof. vm_compute. reflexivity. Qed.
Example e_result : exists w, unflatten_file (e_after e_docs e_opts) e_back = Ok tt w /\ json_written w (Some (u "out.json"))
  (OObj [(u "main", OArr [
     OObj [(u "id", OLeaf (JInt 7)); (u "name", OLeaf (JStr (u "Ann ""A"", B"))); (u "paid", OLeaf (JBool true)); (u "at", OObj [(u "town", OLeaf (JStr (u "X")))]);
           (u "orders", OArr [OObj [(u "id", OLeaf (JStr (u "a"))); (u "price", OLeaf (JDouble (DFin false 125 (-2)))); (u "tags", OLeaf (JArr [JStr (u "x"); JStr (u "y z")]))];
                              OObj [(u "id", OLeaf (JStr (u "b"))); (u "price", OLeaf (JInt 3))]])];
     OObj [(u "id", OLeaf (JInt 8)); (u "orders", OArr [OObj [(u "id", OLeaf (JStr (u "a")))]])]])]).
Proof.
  eexists. split; [vm_compute; reflexivity|]. split; [unfold written; cbn; tauto|]. intros f j H. cbn in H. repeat (destruct H as [H|H]; [try discriminate H|]); try (exfalso; exact H). injection H as <- <-. auto.
Qed.
(** without "main first" the records can come in another order: the file
    awards.csv is read before main.csv *)
Definition e_docs2 : list jobj := [[(u "id", en 1)]; [(u "id", en 2); (u "awards", JA [JO [(u "id", et "3")]])]].
Notation EO2 := (Trip.flatten_opts (e_world e_docs2) e_opts e_fschema).
Theorem C51_main_first_refuted :
  whole EO2 /\ documents EO2 e_docs2 /\ csv_ready EO2 (writer_opts e_opts LF) cmd_wenv e_docs2 /\ roots_together EO2 e_docs2 /\
  survive EO2 (Trip.unflatten_opts (e_after e_docs2 e_opts) e_back e_uschema) (csv_cell cmd_wenv) e_docs2 /\
  (exists w, flatten_file (e_world e_docs2) e_opts = Ok tt w /\ directory_has (e_after e_docs2 e_opts) (u_input e_back) (texts_written w)) /\
  exists w, unflatten_file (e_after e_docs2 e_opts) e_back = Ok tt w /\ json_written w (Some (u "out.json"))
    (OObj [(u "main", OArr [OObj [(u "id", OLeaf (JInt 2)); (u "awards", OArr [OObj [(u "id", OLeaf (JStr (u "3")))]])]; OObj [(u "id", OLeaf (JInt 1))]])]).
Proof.
  split; [repeat split; right; split; [apply e_ready|reflexivity]|]. split; [apply documents_check; vm_compute; reflexivity|].
  split; [apply csv_ready_check; [reflexivity|vm_compute; reflexivity]|]. split; [intros a d b e c E _; apply Forall_forall; reflexivity|].
  split; [apply survive_check; vm_compute; reflexivity|]. split.
  - eexists. split; [vm_compute; reflexivity|]. eexists. split; [reflexivity|]. vm_compute. reflexivity.
  - eexists. split; [vm_compute; reflexivity|]. split; [unfold written; cbn; tauto|]. intros f j H. cbn in H. repeat (destruct H as [H|H]; [try discriminate H|]); try (exfalso; exact H). injection H as <- <-. auto.
Qed.
Print Assumptions C51_main_first_refuted.

(** ** C52: the records [flatten] reads are the items of what is at the path
    ([place_of] excludes dots and "item" among the keys of the path, repeated keys
    and keys with dots in the objects on the way); nothing is read, and nothing is
    said, if there is nothing there *)
Theorem C52_records F v ks : f_xml F = false -> place_of F v ks -> records_of F v = Ok (items_there (at_path v (down ks))) [].
Proof. exact (records_there F v ks). Qed.
Print Assumptions C52_records.
(** the whole run reads just these *)
Theorem C52_run Wd F w : to_csv F -> flatten_file Wd F = Ok tt w -> exists v, wd_json Wd (f_input F) = inr v /\ forall ks, place_of F v ks ->
  exists schema s wf t, schema_read Wd (f_local_off F) (f_schema F) (flatten_schema_opts Wd F) schema /\
    flatten (Trip.flatten_opts Wd F schema) (f_drop F) [] (items_there (at_path v (down ks))) = Ok s wf /\
    sget (f_term F) terminators = Some t /\ exists fs w0, write_csv_files (writer_opts F t) (wd_wenv Wd) (main_table s) (sub_tables s) [] = Ok fs w0 /\ texts_written w = fs.
Proof. exact (run_reads Wd F w). Qed.
Print Assumptions C52_run.
Example C52_meets : place_of e_opts (JO [(u "version", et "1"); (u "data", JO [(u "list", JA (map JO e_docs))])]) [u "data"; u "list"].
Proof. exact e_place. Qed.
(** a key with a dot is taken for a path *)
Theorem C52_dots_refuted : let v := JO [(u "data.list", JA [et "x"]); (u "data", JO [(u "list", JA [et "y"])])] in
  records_of e_opts v = Ok [et "x"; et "y"] [] /\ at_path v (down [u "data"; u "list"]) = Some (JA [et "y"]).
Proof. split; reflexivity. Qed.
Print Assumptions C52_dots_refuted.
