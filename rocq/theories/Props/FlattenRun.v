(** C56: the flatten command, create_template and the configuration of unflatten
    do what their options say.  The notions used are in Spec/FlattenRun.v (and
    Spec/Trip.v for the records of a document, Spec/SheetConf.v for
    configurations). *)
From Coq Require Import String.
From Verif.Base Require Import PyStr PyNum PyVal PyDict Outcome.
From Verif.Model Require Import Warn Lib Convert Input Json SourceMap Readers Flatten Schema Output Commands.
From Verif.Tests Require Import TestLib CommandLib.
From Verif.Spec Require Import Paths Commands Trip FlattenRun SheetConf.
From Verif.Proofs Require Import FlattenCommand.
Import CommandLib.

(** a successful run: the records of the document are flattened with the roll-ups
    of the schema if it has any, else those in the file given, else those given;
    with the filter and the lines of the preserve file; the result is written in the
    format asked for and nothing else is written; it is said that roll-ups given
    directly are ignored exactly if they are; the fields to preserve that the schema
    does not have are named *)
Theorem C56_flatten : forall Wd F w, flatten_file Wd F = Ok tt w -> not_mixed (f_roll F) ->
  exists t schema roll lines recs s v, sget (f_term F) terminators = Some t /\ run_inputs Wd F schema roll lines recs /\
    flatten (run_opts Wd F schema roll lines) (f_drop F) (requests lines) recs = Ok s v /\
    (forall f, sget (f_format F) formats = Some f -> output_is Wd {| w_main := f_main F; w_output := output_name (u "flattened") f (f_output F); w_prefix := f_prefix F; w_term := t |} (main_table s) (sub_tables s) f w) /\
    (rollup_warned w <-> schema_rollups schema <> [] /\ asks_paths (f_roll F)) /\
    (forall ps, preserve_warned w ps <-> exists sc, schema = Some sc /\ f_preserve F <> [] /\ ps = filter (fun p => negb (shas p (sp_flat sc))) (wd_set_order Wd (requests lines))).
Proof. exact flatten_means. Qed.
Print Assumptions C56_flatten.
(** create_template writes the sheets of the schema *)
Theorem C56_template : forall Wd C w, create_template Wd C = Ok tt w ->
  exists t v s w0, sget (c_term C) terminators = Some t /\ wd_schema Wd (c_local_off C) (c_schema C) = inr v /\
    parse_schema {| so_rollup := c_rollup C; so_root_id := c_root_id C; so_titles := c_titles C; so_trunc := c_trunc C; so_nodep := c_nodep C; so_wkt := c_wkt C; so_lower := wd_lower Wd |} v = Ok s w0 /\
    forall f, sget (c_format C) formats = Some f -> output_is Wd {| w_main := c_main C; w_output := output_name (u "template") f (c_output C); w_prefix := []; w_term := t |}
      {| tb_name := []; tb_header := header (sp_main s); tb_rows := lines_of [] (sp_main s) |}
      (map (fun nx => {| tb_name := fst nx; tb_header := header (snd nx); tb_rows := lines_of [] (snd nx) |}) (sp_subs s)) f w.
Proof. exact template_means. Qed.
Print Assumptions C56_template.
(** the default configuration of unflatten is that of its comma-separated items *)
Theorem C56_configuration : forall U items, comma_items (u_conf U) items -> conf_means items (default_conf (u_conf U)).
Proof. intros U items. exact (default_means (u_conf U) items). Qed.
Print Assumptions C56_configuration.
Theorem C56_items : forall text, exists items, comma_items text items.
Proof. exact comma_any. Qed.
Print Assumptions C56_items.

(** roll-ups asked for just by True, without schema: a TypeError *)
Theorem C56_rollup_true_refuted : forall Wd F, ~ bad_flatten F -> f_schema F = [] -> f_roll F = RollTrue \/ f_roll F = RollList [RTrue] ->
  exists w, flatten_file Wd F = Raise ETypeError w.
Proof. exact rollup_true_raises. Qed.
Print Assumptions C56_rollup_true_refuted.

(** ** Cases *)
Local Open Scope string_scope.
Local Open Scope list_scope.
Definition doc56 : jv := JO [(u "r", JO [(u "main", JA [JO [(u "id", JS (SStr (u "1"))); (u "p", JA [JO [(u "x", JS (SStr (u "2")))]])]; JO [(u "id", JS (SStr (u "3")))]])])].
Definition schema56 : sv :=
  VO None [(u "properties", VO None [(u "id", VO None [(u "type", VS (SStr (u "string")))]);
    (u "p", VO None [(u "type", VS (SStr (u "array"))); (u "rollUp", VA [VS (SStr (u "x"))]);
                     (u "items", VO None [(u "type", VS (SStr (u "object"))); (u "properties", VO None [(u "x", VO None [(u "type", VS (SStr (u "string")))])])])])])].
Definition world56 : world :=
  {| wd_schema := fun _ _ => inr schema56; wd_json := fun _ => inr doc56; wd_base := fun _ => inl EOther; wd_xml := fun _ _ => inr doc56;
     wd_lines := fun f => if str_eqb f (u "roll.txt") then inr [u " p "; u "q"] else inr [u "id "; u "p/x"; u "zz/"];
     wd_isfile := fun f => str_eqb f (u "roll.txt"); wd_book := fun _ _ => inl EOther; wd_xsd := fun _ => inl EOther; wd_xsd_fuel := 0;
     wd_xenv := cmd_xenv; wd_wenv := cmd_wenv; wd_lower := lower; wd_shape := None; wd_set_order := fun l => l; wd_conv := fun _ _ => test_cenv |}.
Definition opts56 (schema preserve : str) (filter : option str * option str) (roll : rollarg) (xml : bool) (format : str) : flopts :=
  {| f_input := u "in.json"; f_schema := schema; f_output := None; f_format := format; f_main := u "main"; f_path := u "r/main"; f_root_list := false;
     f_prefix := []; f_filter_field := fst filter; f_filter_value := snd filter; f_preserve := preserve; f_roll := roll; f_root_id := []; f_titles := false;
     f_xml := xml; f_id_name := u "id"; f_local_off := false; f_drop := false; f_trunc := 3; f_term := u "LF"; f_wkt := false |}.
Definition nl : str := [10%N].
Definition texts (m : IO unit) : option (list (str * str)) := match m with Ok _ w => Some (texts_written w) | Raise _ _ => None end.
(** roll-ups from a file; from a single path; from the schema *)
Example C56_meets :
  let F1 := opts56 [] [] (None, None) (RollList [RPath (u "roll.txt")]) false (u "csv") in
  let F2 := opts56 [] [] (Some (u "id"), Some (u "1")) (RollList [RPath (u "p")]) false (u "csv") in
  let F3 := opts56 (u "s.json") (u "keep.txt") (None, None) (RollList [RPath (u "p")]) false (u "csv") in
  not_mixed (f_roll F1) /\ not_mixed (f_roll F3) /\
  texts (flatten_file world56 F1) = Some [(u "flattened/main.csv", u "id,p/0/x" ++ nl ++ u "1,2" ++ nl ++ u "3," ++ nl); (u "flattened/p.csv", u "id,p/0/x" ++ nl ++ u "1,2" ++ nl)] /\
  texts (flatten_file world56 F2) = Some [(u "flattened/main.csv", u "id,p/0/x" ++ nl ++ u "1,2" ++ nl); (u "flattened/p.csv", u "id,p/0/x" ++ nl ++ u "1,2" ++ nl)] /\
  (exists w, flatten_file world56 F3 = Ok tt w /\ rollup_warned w /\ preserve_warned w [u "zz"]) /\
  (exists w, create_template world56 (template_opts (u "xlsx")) = Ok tt w).
Proof.
  cbv zeta. split; [intros l Q; injection Q as <-; right; exists [u "roll.txt"]; reflexivity|]. split; [intros l Q; injection Q as <-; right; exists [u "p"]; reflexivity|].
  split; [vm_compute; reflexivity|]. split; [vm_compute; reflexivity|].
  split; [eexists; split; [vm_compute; reflexivity|]; split; vm_compute; tauto|]. eexists. vm_compute. reflexivity.
Qed.
Example C56_configuration_meets : comma_items (u "skipRows 2, RootListPath  a,,ignore") [u "skipRows 2"; u " RootListPath  a"; []; u "ignore"].
Proof. split; [discriminate|]. split; [reflexivity|]. repeat (constructor; [vm_compute; intuition discriminate|]). constructor. Qed.
(** it is said that fields to preserve are not in the schema even if they all are *)
Theorem C56_preserve_warning_refuted : exists Wd F w, flatten_file Wd F = Ok tt w /\ preserve_warned w [].
Proof.
  exists {| wd_schema := fun _ _ => inr schema56; wd_json := fun _ => inr doc56; wd_base := fun _ => inl EOther; wd_xml := fun _ _ => inr doc56;
     wd_lines := fun f => inr [u "id"]; wd_isfile := fun f => false; wd_book := fun _ _ => inl EOther; wd_xsd := fun _ => inl EOther; wd_xsd_fuel := 0;
     wd_xenv := cmd_xenv; wd_wenv := cmd_wenv; wd_lower := lower; wd_shape := None; wd_set_order := fun l => l; wd_conv := fun _ _ => test_cenv |}.
  exists (opts56 (u "s.json") (u "keep.txt") (None, None) RollFalse false (u "csv")). eexists. split; [vm_compute; reflexivity|vm_compute; tauto].
Qed.
Print Assumptions C56_preserve_warning_refuted.
(** the only record of an XML document under a nested path is lost: xmltodict is
    told to make a list of elements called "r/main", of which there are none *)
Definition one_xml : jv := JO [(u "r", JO [(u "main", JO [(u "id", JO [(u "#text", JS (SStr (u "1")))])])])].
Theorem C56_xml_nested_refuted : exists Wd F v w, f_xml F = true /\ f_path F = u "r/main" /\ wd_xml Wd (Some (f_path F)) (f_input F) = inr v /\
  at_path v (down [u "r"; u "main"]) = Some (JO [(u "id", JO [(u "#text", JS (SStr (u "1")))])]) /\
  flatten_file Wd F = Ok tt w /\ texts_written w = [(u "flattened/main.csv", nl)].
Proof.
  exists {| wd_schema := fun _ _ => inr schema56; wd_json := fun _ => inl EOther; wd_base := fun _ => inl EOther; wd_xml := fun _ _ => inr one_xml;
     wd_lines := fun f => inr [u "id"]; wd_isfile := fun f => false; wd_book := fun _ _ => inl EOther; wd_xsd := fun _ => inl EOther; wd_xsd_fuel := 0;
     wd_xenv := cmd_xenv; wd_wenv := cmd_wenv; wd_lower := lower; wd_shape := None; wd_set_order := fun l => l; wd_conv := fun _ _ => test_cenv |}.
  exists (opts56 [] [] (None, None) RollFalse true (u "csv")), one_xml. eexists. split; [reflexivity|]. split; [reflexivity|]. split; [reflexivity|]. split; [reflexivity|].
  split; [vm_compute; reflexivity|vm_compute; reflexivity].
Qed.
Print Assumptions C56_xml_nested_refuted.
