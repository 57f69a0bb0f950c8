(** C41, C43, C49, C50: the functions create_template, flatten and unflatten of the
    package.  A run is a trace of events: [Opened file], [Wrote file content],
    warnings; see Model/Commands.v.  The notions used in the statements are in
    Spec/Commands.v. *)
From Coq Require Import String.
From Verif.Base Require Import PyStr PyNum PyVal PyDict Outcome.
From Verif.Model Require Import Warn Lib Convert Input Json SourceMap Readers Flatten Schema Output Commands.
From Verif.Spec Require Import Commands.
From Verif.Tests Require Import TestLib CommandLib CommandRepo.
From Verif.Proofs Require Import CommandFacts CommandRun CommandMaps.

(** ** C41 base JSON and metatab are preserved *)
(** a successful run without metatab writes one JSON document: an object with the
    keys of the base JSON and the root list path, in that order; all values other
    than that at the root list path are those of the base JSON; at the root list
    path is the list of the records read from the spreadsheet *)
Theorem C41_base : forall Wd U w, unflatten_file Wd U = Ok tt w -> u_xml U = false -> u_root_list U = false -> u_meta_only U = false -> ~ given (u_meta U) ->
  let conf := default_conf (u_conf U) in
  exists fn f d l m recs, u_format U = Some fn /\ sget fn formats = Some f /\
    ((exists file, u_base U = Some file /\ file <> [] /\ wd_base Wd file = inr (JO d)) \/ (~ given (u_base U) /\ d = [])) /\
    json_written w (u_output U) (OObj l) /\
    (loaded (JO d) -> forall k, k <> root_path U conf -> found_alike unchanged (sget k d) (sget k l)) /\
    map fst l = map fst d ++ match sget (root_path U conf) d with Some _ => [] | None => [root_path U conf] end /\
    sget (root_path U conf) l = Some (OArr m) /\
    main_records Wd U f conf recs /\ Forall2 (fun x j => record_json (we_env (wd_wenv Wd)) (VDict x) j) recs m.
Proof. exact unflatten_base. Qed.
Print Assumptions C41_base.
(** with a metatab: the same with the first record of the metatab in place of the
    base JSON; its sheet is not read again; the configuration in the metatab goes
    over the default configuration *)
Theorem C41_metatab : forall Wd U name w, distinct_sheets Wd -> unflatten_file Wd U = Ok tt w -> u_xml U = false -> u_root_list U = false ->
  u_meta U = Some name -> name <> [] ->
  exists fn f mrecs mconf l, u_format U = Some fn /\ sget fn formats = Some f /\ meta_records Wd U f name mrecs /\ meta_conf Wd U f name mconf /\
    json_written w (u_output U) (OObj l) /\
    let meta := match mrecs with d :: _ => d | [] => [] end in
    let conf := conf_over mconf (default_conf (u_conf U)) in
    let path := root_path U conf in
    if u_meta_only U then map fst l = map fst meta /\ forall k, found_alike (record_json (we_env (wd_wenv Wd))) (sget k meta) (sget k l)
    else exists m recs, (forall k, k <> path -> found_alike (record_json (we_env (wd_wenv Wd))) (sget k meta) (sget k l)) /\
      map fst l = map fst meta ++ match sget path meta with Some _ => [] | None => [path] end /\
      sget path l = Some (OArr m) /\ main_records Wd U f conf recs /\ Forall2 (fun x j => record_json (we_env (wd_wenv Wd)) (VDict x) j) recs m.
Proof. exact unflatten_metatab. Qed.
Print Assumptions C41_metatab.
(** root_is_list: the list of the records *)
Theorem C41_list : forall Wd U w, unflatten_file Wd U = Ok tt w -> u_xml U = false -> u_root_list U = true ->
  exists fn f m recs, u_format U = Some fn /\ sget fn formats = Some f /\ json_written w (u_output U) (OArr m) /\
    main_records Wd U f (default_conf (u_conf U)) recs /\ Forall2 (fun x j => record_json (we_env (wd_wenv Wd)) (VDict x) j) recs m.
Proof. exact unflatten_list. Qed.
Print Assumptions C41_list.
Local Open Scope string_scope.
Local Open Scope list_scope.
(** base JSON: the key "main" in the middle is replaced in place *)
Definition base_ex : jv := JO [(u "v", JS (SInt 1)); (u "main", JS (SStr (u "old"))); (u "w", JA [JS SNone; JO [(u "x", JS (SBool true))]])].
Definition ex_book : book := [(u "s", g [["id"; "n/0/m"]; ["1"; "a"]; ["1"; "b"]])].
Definition ex_world : world := test_world ex_book base_ex (JO []) no_schema.
Definition ex_result : jout := OObj [(u "id", leaf "1"); (u "n", OArr [OObj [(u "m", leaf "a")]; OObj [(u "m", leaf "b")]])].
Example C41_base_meets : let U := with_base (u "base.json") (unflatten_opts (u "ods")) in
  ~ given (u_meta U) /\ loaded base_ex /\ unflatten_file ex_world U = Ok tt [Opened (u "base.json"); Opened (u "in");
    Wrote (Some (u "out.json")) (CJson (OObj [(u "v", OLeaf (JInt 1)); (u "main", OArr [ex_result]); (u "w", OArr [OLeaf JNull; OObj [(u "x", OLeaf (JBool true))]])]))].
Proof.
  split; [intros (s & Q & _); discriminate Q|]. split; [|vm_compute; reflexivity].
  repeat (constructor; try exact I).
Qed.
Example C41_metatab_meets : let U := with_meta (u "Meta") false (unflatten_opts (u "xlsx")) in
  distinct_sheets meta_world /\ exists w, unflatten_file meta_world U = Ok tt w.
Proof.
  split; [|eexists; vm_compute; reflexivity].
  intros f file b Q. injection Q as <-. repeat (constructor; [vm_compute; intuition discriminate|]). constructor.
Qed.
Example C41_list_meets : let U := with_list (unflatten_opts (u "csv")) in
  unflatten_file ex_world U = Ok tt [Opened (u "in"); Wrote (Some (u "out.json")) (CJson (OArr [ex_result]))].
Proof. vm_compute. reflexivity. Qed.
(** of several metatab records only the first is in the output *)
Definition two_book : book := [(u "Meta", g [["a"; "1"; "2"]])].
Definition two_world : world := test_world two_book (JO []) (JO []) no_schema.
Theorem C41_second_record_refuted : exists w, unflatten_file two_world (with_meta (u "Meta") false (unflatten_opts (u "xlsx"))) = Ok tt w /\
  json_written w (Some (u "out.json")) (OObj [(u "a", leaf "1"); (u "main", OArr [])]).
Proof.
  eexists. split; [vm_compute; reflexivity|]. split; [vm_compute; tauto|].
  intros f j H. repeat (destruct H as [H|H]; [try discriminate H; injection H as <- <-; split; reflexivity|]). destruct H.
Qed.
Print Assumptions C41_second_record_refuted.
(** a list of records cannot be written as XML *)
Theorem C41_list_xml_refuted : forall Wd U w, u_xml U = true -> u_root_list U = true -> unflatten_file Wd U <> Ok tt w.
Proof. exact unflatten_list_xml. Qed.
Print Assumptions C41_list_xml_refuted.

(** ** C43 invalid option combinations are rejected before any output *)
(** exactly the bad options are refused at once: before anything is opened,
    written, or warned about *)
Theorem C43_unflatten : forall Wd U, unflatten_file Wd U = Raise EFlattenToolError [] <-> bad_unflatten U.
Proof. exact unflatten_refused. Qed.
Print Assumptions C43_unflatten.
Theorem C43_flatten : forall Wd F, flatten_file Wd F = Raise EFlattenToolError [] <-> bad_flatten F.
Proof. exact flatten_refused. Qed.
Print Assumptions C43_flatten.
Theorem C43_template : forall Wd C, create_template Wd C = Raise EFlattenToolError [] <-> bad_template C.
Proof. exact template_refused. Qed.
Print Assumptions C43_template.
(** an unknown output format: nothing is written; if the same run with a known
    format succeeds, it is refused with a FlattenToolError (after the input has
    been read) *)
Theorem C43_flatten_format : forall Wd F format name, unknown_output format ->
  exists e w, flatten_file Wd (flatten_as format name F) = Raise e w /\ silent w /\
    (forall format' name' w', flatten_file Wd (flatten_as format' name' F) = Ok tt w' -> e = EFlattenToolError /\ exists w1, w' = w ++ w1).
Proof. exact flatten_unknown_format. Qed.
Print Assumptions C43_flatten_format.
Theorem C43_template_format : forall Wd C format name, unknown_output format ->
  exists e w, create_template Wd (template_as format name C) = Raise e w /\ silent w /\
    (forall format' name' w', create_template Wd (template_as format' name' C) = Ok tt w' -> e = EFlattenToolError /\ exists w1, w' = w ++ w1).
Proof. exact template_unknown_format. Qed.
Print Assumptions C43_template_format.
Definition doc_ex : jv := JO [(u "main", JA [JO [(u "id", JS (SStr (u "1"))); (u "x", JA [JO [(u "y", JS (SStr (u "z")))]])]])].
Definition doc_world : world := test_world [] (JO []) doc_ex (VO None [(u "properties", VO None [(u "a", VO None [(u "type", VS (SStr (u "string")))])])]).
Example C43_meets : ~ bad_unflatten (unflatten_opts (u "csv")) /\ bad_unflatten (unflatten_opts (u "XLSX")) /\
  ~ bad_flatten (flatten_opts (u "csv")) /\ ~ bad_template (template_opts (u "csv")) /\ unknown_output (u "pdf") /\
  (exists w, flatten_file doc_world (flatten_opts (u "csv")) = Ok tt w) /\ (exists w, create_template doc_world (template_opts (u "csv")) = Ok tt w).
Proof.
  split; [intros [[=]|[(f & [= <-] & N)|[(s & [=] & _) _]]]; apply N; right; left; reflexivity|].
  split; [right; left; exists (u "XLSX"); split; [reflexivity|intros [Q|[Q|[Q|[]]]]; discriminate Q]|].
  split; [intros [[_ N]|[[N _]|N]]; [now apply N|now apply N|apply N; right; left; reflexivity]|].
  split; [intros N; apply N; right; left; reflexivity|].
  split; [split; [discriminate|intros [Q|[Q|[Q|[]]]]; discriminate Q]|].
  split; eexists; vm_compute; reflexivity.
Qed.
(** the input is read before an unknown output format is noticed *)
Theorem C43_format_late_refuted : flatten_file doc_world (flatten_opts (u "pdf")) = Raise EFlattenToolError [Opened (u "in.json")].
Proof. vm_compute. reflexivity. Qed.
Print Assumptions C43_format_late_refuted.

(** ** C49 the output format "all" *)
(** the run writes what the three runs with the single formats write: the name
    gets the suffix of each format (none for the CSV directory) *)
Theorem C49_flatten : forall Wd F name w, flatten_file Wd (flatten_as (u "all") name F) = Ok tt w ->
  let n := named_or (u "flattened") name in
  exists r wx wc wo, w = r ++ wx ++ wc ++ wo /\ silent r /\
    flatten_file Wd (flatten_as (u "xlsx") (Some (n ++ u ".xlsx")) F) = Ok tt (r ++ wx) /\
    flatten_file Wd (flatten_as (u "csv") (Some n) F) = Ok tt (r ++ wc) /\
    flatten_file Wd (flatten_as (u "ods") (Some (n ++ u ".ods")) F) = Ok tt (r ++ wo).
Proof. exact flatten_all. Qed.
Print Assumptions C49_flatten.
Theorem C49_template : forall Wd C name w, create_template Wd (template_as (u "all") name C) = Ok tt w ->
  let n := named_or (u "template") name in
  exists r wx wc wo, w = r ++ wx ++ wc ++ wo /\ silent r /\
    create_template Wd (template_as (u "xlsx") (Some (n ++ u ".xlsx")) C) = Ok tt (r ++ wx) /\
    create_template Wd (template_as (u "csv") (Some n) C) = Ok tt (r ++ wc) /\
    create_template Wd (template_as (u "ods") (Some (n ++ u ".ods")) C) = Ok tt (r ++ wo).
Proof. exact template_all. Qed.
Print Assumptions C49_template.
Example C49_meets : exists w, flatten_file doc_world (flatten_as (u "all") None (flatten_opts [])) = Ok tt w /\
  flat_map (fun e => match e with Wrote (Some f) _ => [f] | _ => [] end) w = [u "flattened.xlsx"; u "flattened/main.csv"; u "flattened/x.csv"; u "flattened.ods"] /\
  exists w', create_template doc_world (template_as (u "all") (Some (u "t")) (template_opts [])) = Ok tt w'.
Proof. eexists. split; [vm_compute; reflexivity|]. split; [vm_compute; reflexivity|]. eexists. vm_compute. reflexivity. Qed.

(** ** C50 the source maps that unflatten writes *)
(** without metatab they are those of the one run on the spreadsheet; what these
    are is said by C11, C12, C14, C46 *)
Theorem C50_main : forall Wd U w, unflatten_file Wd U = Ok tt w -> u_xml U = false -> ~ given (u_meta U) -> u_meta_only U = false \/ u_root_list U = true ->
  exists fn f r mc mh, u_format U = Some fn /\ sget fn formats = Some f /\ main_maps Wd U f (default_conf (u_conf U)) r mc mh /\
    (u_cells U <> [] -> exists m, mc = Some m /\ cells_written w (u_cells U) m) /\
    (u_heads U <> [] -> exists h, mh = Some h /\ heads_written w (u_heads U) h).
Proof. exact maps_main. Qed.
Print Assumptions C50_main.
(** with a metatab of at most one record (and no field with an empty name) the
    entry at a place is that of the main run, else that of the metatab, which has
    the same place in the record 0 of the list "meta" *)
Theorem C50_metatab : forall Wd U name w, distinct_sheets Wd -> unflatten_file Wd U = Ok tt w -> u_xml U = false -> u_root_list U = false ->
  u_meta U = Some name -> name <> [] ->
  exists fn f mrecs mconf mc0 mh0 recs mc mh, u_format U = Some fn /\ sget fn formats = Some f /\
    meta_maps Wd U f name mrecs mc0 mh0 /\ meta_conf Wd U f name mconf /\
    (if u_meta_only U then mc = Some [] /\ mh = Some [] else main_maps Wd U f (conf_over mconf (default_conf (u_conf U))) recs mc mh) /\
    (u_cells U <> [] -> (length mrecs <= 1)%nat -> (forall d, In d mrecs -> sget [] d = None) ->
       exists m0 m1 m, mc0 = Some m0 /\ mc = Some m1 /\ cells_written w (u_cells U) m /\
         forall k, sget k m = match sget k m1 with Some e => Some e | None => sget (meta_place k) m0 end) /\
    (u_heads U <> [] -> exists h0 h1 h, mh0 = Some h0 /\ mh = Some h1 /\ heads_written w (u_heads U) h /\
         forall k, sget k h = match sget k h1 with Some e => Some e | None => sget (u "meta/" ++ k) h0 end).
Proof. exact maps_metatab. Qed.
Print Assumptions C50_metatab.
Example C50_meets : let U := with_meta (u "Meta") false (unflatten_opts (u "xlsx")) in u_cells U <> [] /\ u_heads U <> [] /\
  exists w cells heads, unflatten_file meta_world U = Ok tt w /\ writes (unflatten_file meta_world U) =
    [(Some (u "out.json"), CJson (OObj [(u "a", leaf "a1"); (u "b", leaf "b1"); (u "c", leaf "c1");
      (u "main", OArr [row2 "colA" "cell1" "colB" "cell2"; row2 "colA" "cell3" "colB" "cell4"; row2 "colC" "cell5" "colD" "cell6"; row2 "colC" "cell7" "colD" "cell8"])]));
     (Some (u "cells"), CCells cells); (Some (u "heads"), CHeads heads)] /\
  sget (u "a") cells = Some (ECells [{| l_sheet := u "Meta"; l_col := u "1"; l_row := 2; l_heading := SStr (u "a") |}]) /\
  sget (u "main/2") cells = Some (ERows [(u "subsheet", 2%N)]) /\ sget [] cells = Some (ERows [(u "Meta", 2%N)]).
Proof. split; [discriminate|]. split; [discriminate|]. do 3 eexists. split; [vm_compute; reflexivity|]. split; [vm_compute; reflexivity|]. split; [vm_compute; reflexivity|]. split; vm_compute; reflexivity. Qed.
(** with two records the entries are those of the second, which is not in the
    output (C41_second_record_refuted) *)
Theorem C50_second_record_refuted : exists cells heads, writes (unflatten_file two_world (with_meta (u "Meta") false (unflatten_opts (u "xlsx")))) =
  [(Some (u "out.json"), CJson (OObj [(u "a", leaf "1"); (u "main", OArr [])])); (Some (u "cells"), CCells cells); (Some (u "heads"), CHeads heads)] /\
  sget (u "a") cells = Some (ECells [{| l_sheet := u "Meta"; l_col := u "1"; l_row := 3; l_heading := SStr (u "a") |}]) /\ sget [] cells = Some (ERows [(u "Meta", 3%N)]).
Proof. do 2 eexists. split; [vm_compute; reflexivity|]. split; vm_compute; reflexivity. Qed.
Print Assumptions C50_second_record_refuted.
