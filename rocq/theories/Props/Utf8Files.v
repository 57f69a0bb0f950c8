(** C70: files as bytes.  UTF-8 as in RFC 3629: Spec/Bytes.v; JSON and its data:
    Spec/JsonGrammar.v and Spec/JsonTrip.v; documents and CSV files: Spec/Trip.v. *)
From Coq Require Import String Permutation Lia.
From Verif.Base Require Import PyStr PyNum PyVal PyDict Outcome.
From Verif.Model Require Import Warn Lib Convert Input Json Flatten Readers Csv Output Schema Commands JsonText Utf8.
From Verif.Spec Require Import Sites Paths Grids CsvText Written Commands RoundTrip Typed.
From Verif.Tests Require Import TestLib FlattenLib CommandLib.
From Verif.Spec Require Import Paths RoundTrip Typed Trip JsonGrammar JsonTrip Bytes.
From Verif.Proofs Require Import RtCheck TripCheck SchemaCheck JsonScan JsonSound JsonTexts Utf8Facts BytesFacts BytesTrip.
From Verif.Props Require Import EndToEnd JsonFiles.
Local Open Scope list_scope.

(** ** C70: what is written is UTF-8; what is read is the text that was written *)
Theorem C70_written s b : encode s = Some b <-> text_bytes s b.
Proof. exact (encode_says s b). Qed.
Print Assumptions C70_written.
Theorem C70_read b s : decode b = Some s <-> text_bytes s b.
Proof. exact (decode_says b s). Qed.
Print Assumptions C70_read.
(** one text, one sequence of bytes *)
Theorem C70_one s s' b b' : text_bytes s b -> text_bytes s' b' -> s = s' <-> b = b'.
Proof. intros H H'. split; [intros <-; exact (bytes_one s b b' H H')|intros <-; exact (text_one s s' b H H')]. Qed.
Print Assumptions C70_one.
(** a text is refused just if it has half a surrogate pair (or a number that is no
    code point) *)
Theorem C70_refused s : encode s = None <-> ~ whole_chars s.
Proof. exact (encode_fails s). Qed.
Print Assumptions C70_refused.
(** a CSV file is refused just if one of its fields is *)
Theorem C70_csv_refused t rows : encode (write_csv t rows) = None <-> ~ Forall (Forall (fun field => encode field <> None)) rows.
Proof.
  rewrite encode_fails, csv_whole. assert (E : Forall (Forall whole_chars) rows <-> Forall (Forall (fun field => encode field <> None)) rows).
  { split; apply Forall_impl; intros r; apply Forall_impl; intros s; rewrite encode_fails; [tauto|]. intros H. destruct (encode s) as [b|] eqn:Es; [apply bytes_exist; exists b; apply encode_says; exact Es|]. exfalso. apply H. apply encode_fails. exact Es. }
  rewrite E. reflexivity.
Qed.
Print Assumptions C70_csv_refused.
(** JSON with no such text inside is never refused, however it is spaced *)
Theorem C70_json lax t v : document_says lax t v -> whole_texts v -> exists b, text_bytes t b.
Proof. intros H H'. apply bytes_exist. exact (document_whole lax t v H H'). Qed.
Print Assumptions C70_json.

(** from the bytes of a JSON file to those of another: C66 for files *)
Theorem C70_round_trip Wd F schema T b0 t0 v0 ks rs docs tm : to_csv F -> schema_read Wd (f_local_off F) (f_schema F) (flatten_schema_opts Wd F) schema ->
  file_holds Wd (f_input F) b0 -> text_bytes t0 b0 -> document_says false t0 v0 -> keys_once v0 -> no_halves v0 -> place_of F (data_of v0) ks -> value_at v0 ks = Some (VArr rs) ->
  map data_of rs = map JO docs -> sget (f_term F) terminators = Some tm ->
  whole (Trip.flatten_opts Wd F schema) -> documents (Trip.flatten_opts Wd F schema) docs -> csv_ready (Trip.flatten_opts Wd F schema) (writer_opts F tm) (wd_wenv Wd) docs ->
  whole_headings (Trip.flatten_opts Wd F schema) ->
  exists w bs, flatten_file Wd F = Ok tt w /\ files_bytes (texts_written w) bs /\ forall Wd' U schema',
    from_csv U -> u_input U = output_dir F -> directory_holds Wd' (u_input U) bs ->
    schema_read Wd' (u_local_off U) (u_schema U) (unflatten_schema_opts Wd' U) schema' ->
    survive (Trip.flatten_opts Wd F schema) (Trip.unflatten_opts Wd' U schema') (csv_cell (wd_wenv Wd)) docs -> all_digits_kept T (VArr rs) -> whole_chars (root_path U empty_conf) ->
    exists w' b1 t1 v1 ms, unflatten_file Wd' U = Ok tt w' /\ text_out T w' (u_output U) t1 /\ text_bytes t1 b1 /\ document_says false t1 v1 /\ loads t1 = Some v1 /\
      v1 = (if u_root_list U then VArr ms else VObj [(root_path U empty_conf, VArr ms)]) /\ same_data (@Permutation jval) (VArr rs) (VArr ms).
Proof. exact (bytes_any Wd F schema T b0 t0 v0 ks rs docs tm). Qed.
Print Assumptions C70_round_trip.
Theorem C70_ordered Wd F schema T b0 t0 v0 ks rs docs tm : to_csv F -> schema_read Wd (f_local_off F) (f_schema F) (flatten_schema_opts Wd F) schema ->
  file_holds Wd (f_input F) b0 -> text_bytes t0 b0 -> document_says false t0 v0 -> keys_once v0 -> no_halves v0 -> place_of F (data_of v0) ks -> value_at v0 ks = Some (VArr rs) ->
  map data_of rs = map JO docs -> sget (f_term F) terminators = Some tm ->
  whole (Trip.flatten_opts Wd F schema) -> documents (Trip.flatten_opts Wd F schema) docs -> csv_ready (Trip.flatten_opts Wd F schema) (writer_opts F tm) (wd_wenv Wd) docs ->
  whole_headings (Trip.flatten_opts Wd F schema) ->
  main_first (Trip.flatten_opts Wd F schema) (writer_opts F tm) docs -> roots_together (Trip.flatten_opts Wd F schema) docs -> short_names (Trip.flatten_opts Wd F schema) docs ->
  exists w bs, flatten_file Wd F = Ok tt w /\ files_bytes (texts_written w) bs /\ forall Wd' U schema',
    from_csv U -> u_input U = output_dir F -> directory_holds Wd' (u_input U) bs ->
    schema_read Wd' (u_local_off U) (u_schema U) (unflatten_schema_opts Wd' U) schema' ->
    survive (Trip.flatten_opts Wd F schema) (Trip.unflatten_opts Wd' U schema') (csv_cell (wd_wenv Wd)) docs -> all_digits_kept T (VArr rs) -> whole_chars (root_path U empty_conf) ->
    exists w' b1 t1 v1 ms, unflatten_file Wd' U = Ok tt w' /\ text_out T w' (u_output U) t1 /\ text_bytes t1 b1 /\ document_says false t1 v1 /\ loads t1 = Some v1 /\
      v1 = (if u_root_list U then VArr ms else VObj [(root_path U empty_conf, VArr ms)]) /\ same_data eq (VArr rs) (VArr ms).
Proof. exact (bytes_ordered Wd F schema T b0 t0 v0 ks rs docs tm). Qed.
Print Assumptions C70_ordered.

(** *** A record with letters of all lengths *)
Definition name70 : str := u "Zo" ++ [235; 44; 32; 26085; 26412; 32; 128512]%N.
Definition text70 : str := u "{""version"": ""1"", ""data"": {""list"": [{""id"": 7, ""name"": """ ++ u "Zo" ++ [235; 44; 32; 26085]%N ++ u "\u672c \uD83D\uDE00"", ""caf" ++ [233]%N ++ u """: ""x"", ""orders"": [{""id"": """ ++ [233]%N ++ u """}]}]}}".
Definition docs70 : list jobj := [[(u "id", en 7); (u "name", JS (SStr name70)); (u "caf" ++ [233]%N, et "x"); (u "orders", JA [JO [(u "id", JS (SStr [233]%N))]])]].
Definition recs70 : list jval := [VObj [(u "id", VInt 7); (u "name", VStr name70); (u "caf" ++ [233]%N, VStr (u "x")); (u "orders", VArr [VObj [(u "id", VStr [233]%N)]])]].
Definition doc70 : jval := VObj [(u "version", VStr (u "1")); (u "data", VObj [(u "list", VArr recs70)])].
Definition bytes_of (s : str) : list byte := match encode s with Some b => b | None => [] end.
Definition files70 : list (str * list byte) := match encode_files (texts_written (warns (flatten_file (e_world docs70) e_opts))) with Some l => l | None => [] end.
Definition after70 : world := test_world (match csv_book_bytes (u "dir") files70 with Ok b _ => b | Raise _ _ => [] end) (JS SNone) (JS SNone) e_schema.
Notation O70 := (Trip.flatten_opts (e_world docs70) e_opts e_fschema).
Example C70_bytes : bytes_of (u "o" ++ [235; 26085; 128512]%N) = [111; 195; 171; 230; 151; 165; 240; 159; 152; 128]%N /\
  files70 = [(u "dir/main.csv", bytes_of (u "id,name,paid,at/town,caf" ++ [233]%N ++ u "
7,""" ++ name70 ++ u """,,,x
")); (u "dir/orders.csv", bytes_of (u "id,orders/0/id,orders/0/price,orders/0/tags
7," ++ [233]%N ++ u ",,
"))].
Proof. split; vm_compute; reflexivity. Qed.
Example text70_says : document_says false text70 doc70 /\ keys_once doc70 /\ no_halves doc70 /\ map data_of recs70 = map JO docs70 /\ file_holds (e_world docs70) (u "in.json") (bytes_of text70).
Proof.
  assert (H : document_says false text70 doc70) by (apply read_check; vm_compute; reflexivity).
  split; [exact H|]. split; [|split; [|split; [reflexivity|]]].
  - unfold doc70, recs70. repeat first [apply ko_object; [repeat (constructor; [cbn; intuition discriminate|]); constructor|repeat apply Forall_cons; try apply Forall_nil; cbn [snd]]
                 |apply ko_array; repeat apply Forall_cons; try apply Forall_nil|apply ko_other; exact I].
  - unfold doc70, recs70. repeat first [apply nh_object; repeat apply Forall_cons; try apply Forall_nil; (split; [apply half_check; reflexivity|cbn [snd]])
                 |apply nh_array; repeat apply Forall_cons; try apply Forall_nil|apply nh_str; apply half_check; reflexivity|apply nh_other; exact I].
  - intros t Ht v Hv _ _. assert (t = text70) as -> by (apply decode_says in Ht; vm_compute in Ht; injection Ht as <-; vm_compute; reflexivity).
    rewrite (one_meaning _ _ _ _ _ Hv H). reflexivity.
Qed.
Lemma heading_whole s : forallb (fun c => c <? 55296)%N s = true -> whole_chars s.
Proof. intros H. apply whole_low. apply Forall_forall. intros c Hc. rewrite forallb_forall in H. apply N.ltb_lt. exact (H c Hc). Qed.
(** all conditions together, and the bytes that are written *)
Example C70_meets : exists w w' ms, flatten_file (e_world docs70) e_opts = Ok tt w /\ unflatten_file after70 e_back = Ok tt w' /\
  (exists t1, text_out j_tenv w' (Some (u "out.json")) t1 /\ text_bytes t1 (bytes_of (u "{
    ""main"": [
        {
            ""id"": 7,
            ""name"": """ ++ name70 ++ u """,
            ""caf" ++ [233]%N ++ u """: ""x"",
            ""orders"": [
                {
                    ""id"": """ ++ [233]%N ++ u """
                }
            ]
        }
    ]
}"))) /\ same_data eq (VArr recs70) (VArr ms).
Proof.
  destruct text70_says as (H1 & H2 & H3 & H4 & H5).
  destruct (C70_ordered (e_world docs70) e_opts e_fschema j_tenv (bytes_of text70) text70 doc70 [u "data"; u "list"] recs70 docs70 LF e_to_csv) as (w & bs & Hw & Hbs & Hback).
  { right. split; [discriminate|]. exists e_schema. do 2 eexists. split; [reflexivity|]. split; vm_compute; reflexivity. }
  { exact H5. }
  { apply encode_says. vm_compute. reflexivity. }
  { exact H1. }
  { exact H2. }
  { exact H3. }
  { split; [split; [discriminate|reflexivity]|]. split; [repeat constructor; cbn; intuition discriminate|].
    assert (K : forall (e : jobj) d, Some (JO e) = Some (JO d) -> nodup_b str_eqb (map fst e) && forallb (fun k => lacks_c 46 k) (map fst e) = true -> NoDup (map fst d) /\ forall k, In k (map fst d) -> ~ In 46%N k).
    { intros e d [= <-] H. apply andb_prop in H as [K1 K2]. split; [exact (nodup_check _ str_eqb_refl _ K1)|]. intros k Hk. rewrite forallb_forall in K2. exact (lacks_c_check _ _ (K2 k Hk)). }
    intros ks1 ks2 d E H. destruct ks1 as [|a [|b [|c ks1]]]; [|injection E as <- E|injection E as <- <- E|discriminate E].
    - eapply K; [exact H|reflexivity].
    - eapply K; [exact H|reflexivity].
    - discriminate H. }
  { reflexivity. }
  { exact H4. }
  { reflexivity. }
  { repeat split. right. split; [apply e_ready|reflexivity]. }
  { apply documents_check. vm_compute. reflexivity. }
  { apply csv_ready_check; [reflexivity|vm_compute; reflexivity]. }
  { intros h Hh. assert (In h (schema_headings O70)) as Hi.
    { destruct Hh as (sc & Es & Hh). unfold schema_headings. rewrite Es. apply in_or_app. destruct Hh as [Hh|(n & x & Hx & Hh)]; [left; exact Hh|right]. apply in_flat_map. exists (n, x). split; assumption. }
    apply heading_whole. revert h Hi Hh. assert (G : forallb (fun h => forallb (fun c => c <? 55296)%N h) (schema_headings O70) = true) by (vm_compute; reflexivity). intros h Hi _. rewrite forallb_forall in G. exact (G h Hi). }
  { apply main_first_check. vm_compute. reflexivity. }
  { intros a d b e c E _. apply Forall_forall. reflexivity. }
  { intros d x y r Hd Hx Hy E Hr. exfalso. destruct Hd as [<-|[]]; cbn in Hx, Hy; repeat (destruct Hx as [<-|Hx]); try (exfalso; exact Hx);
      repeat (destruct Hy as [<-|Hy]); try (exfalso; exact Hy); (apply Hr; cbn in E; destruct r; [reflexivity|discriminate E]). }
  assert (Eb : bs = files70). { apply files_encoded in Hbs. unfold files70. rewrite Hw. cbn [warns]. rewrite Hbs. reflexivity. }
  destruct (Hback after70 e_back e_uschema) as (w' & b1 & t1 & v1 & ms & Hu & Ho & Hb1 & _ & _ & _ & Hs).
  { repeat split. }
  { reflexivity. }
  { rewrite Eb. exists files70. split; [reflexivity|]. vm_compute. reflexivity. }
  { right. split; [discriminate|]. exists e_schema. do 2 eexists. split; [reflexivity|]. split; vm_compute; reflexivity. }
  { apply survive_check. vm_compute. reflexivity. }
  { intros x Hx. apply values_all in Hx. assert (quantity x = None \/ x = VInt 7) as [Hq| ->]; [cbn in Hx; repeat (destruct Hx as [<-|Hx]; [first [left; reflexivity|right; reflexivity]|]); destruct Hx|intros f (q & E & _); congruence|].
    apply j_digits. eapply vi_array; [left; reflexivity|]. eapply vi_object; [left; reflexivity|]. constructor. }
  { apply heading_whole. vm_compute. reflexivity. }
  exists w, w', ms. split; [exact Hw|]. split; [exact Hu|]. split; [|exact Hs].
  assert (Hw' : exists w2, unflatten_file after70 e_back = Ok tt w2 /\ text_out j_tenv w2 (Some (u "out.json")) (u "{
    ""main"": [
        {
            ""id"": 7,
            ""name"": """ ++ name70 ++ u """,
            ""caf" ++ [233]%N ++ u """: ""x"",
            ""orders"": [
                {
                    ""id"": """ ++ [233]%N ++ u """
                }
            ]
        }
    ]
}")).
  { eexists. split; [vm_compute; reflexivity|]. eexists. split; [split; [unfold Commands.written; cbn; tauto|]|].
    - intros f j H. cbn in H. repeat (destruct H as [H|H]; [try discriminate H|]); try (exfalso; exact H). injection H as <- <-. auto.
    - vm_compute. reflexivity. }
  destruct Hw' as (w2 & Hu2 & Ho2). rewrite Hu in Hu2. injection Hu2 as <-. eexists. split; [exact Ho2|]. apply encode_says. vm_compute. reflexivity.
Qed.

(** a byte order mark is kept as a character of the first heading: with one, the
    ids of a CSV file are no ids *)
Definition bom70 (bytes : list byte) : world := test_world (match csv_book_bytes (u "dir") [(u "dir/main.csv", bytes)] with Ok b _ => b | Raise _ _ => [] end) (JS SNone) (JS SNone) e_schema.
Definition table70 : str := u "id,name
1,a
1,b
".
Theorem C70_mark_refuted :
  (exists w, unflatten_file (bom70 (bytes_of table70)) e_back = Ok tt w /\ json_written w (Some (u "out.json")) (OObj [(u "main", OArr [OObj [(u "id", OLeaf (JInt 1)); (u "name", OLeaf (JStr (u "a")))]])])) /\
  exists w, unflatten_file (bom70 ([239; 187; 191]%N ++ bytes_of table70)) e_back = Ok tt w /\ json_written w (Some (u "out.json"))
    (OObj [(u "main", OArr [OObj [([65279]%N ++ u "id", OLeaf (JStr (u "1"))); (u "name", OLeaf (JStr (u "a")))]; OObj [([65279]%N ++ u "id", OLeaf (JStr (u "1"))); (u "name", OLeaf (JStr (u "b")))]])]).
Proof.
  split; (eexists; split; [vm_compute; reflexivity|]; split; [unfold Commands.written; cbn; tauto|]); intros f j H; cbn in H; repeat (destruct H as [H|H]; [try discriminate H|]); try (exfalso; exact H); injection H as <- <-; auto.
Qed.
Print Assumptions C70_mark_refuted.
(** half a surrogate pair in the base JSON: the text to be written is JSON, but has
    no bytes *)
Theorem C70_half_refuted : loads (u "{""a"": ""\ud800""}") = Some (VObj [(u "a", VStr [55296%N])]) /\
  exists w t, unflatten_file (test_world [(u "main", [[SStr (u "id")]; [SStr (u "1")]])] (JO [(u "a", JS (SStr [55296%N]))]) (JS SNone) e_schema)
      (with_base (u "base.json") (CommandLib.unflatten_opts (u "csv"))) = Ok tt w /\
    text_out j_tenv w (Some (u "out.json")) t /\ (exists v, document_says false t v) /\ encode t = None.
Proof.
  split; [vm_compute; reflexivity|]. eexists. eexists. split; [vm_compute; reflexivity|]. split.
  - eexists. split; [|reflexivity]. split; [unfold Commands.written; cbn; right; right; left; reflexivity|].
    intros f j H. cbn in H. repeat (destruct H as [H|H]; [try discriminate H|]); try (exfalso; exact H). injection H as <- <-. auto.
  - split; [eexists; apply read_check; vm_compute; reflexivity|vm_compute; reflexivity].
Qed.
Print Assumptions C70_half_refuted.
