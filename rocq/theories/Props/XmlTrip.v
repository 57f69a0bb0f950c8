(** C73: XML written by unflatten and read back by flatten.  [reread], [plain_xml]
    and [put] are in Spec/XmlTrip.v; [element_value force e] (Model/XmlDict.v) is
    what xmltodict makes of an element. *)
From Coq Require Import String.
From Verif.Base Require Import PyStr PyNum PyVal PyDict Outcome.
From Verif.Model Require Import Warn Lib Convert Input Flatten Readers SortXml XmlInput XmlOut XmlDict Output Schema Commands.
From Verif.Spec Require Import Paths Commands Trip XmlData XmlTrip XmlSheets FlattenRun.
From Verif.Tests Require Import TestLib CommandLib CommandRepo.
From Verif.Proofs Require Import XmlTripFacts XmlTripRun XmlShapes XmlSheets.
Local Open Scope list_scope.

(** ** the document *)
(** whatever the schema for sorting and the comment: if the XML is written without
    a warning, what is read back from it has, in every element, the same
    attributes, the same text without white space around, and the same elements
    with every tag, in the same order; before and after
    list_dict_consistency, and whatever tag is forced to be a list *)
Theorem C73_read_back : forall E x tag schema comment r c force, hd 0%N tag <> 64%N -> ~ In 58%N tag ->
  shaped [(u "xml", u "http://www.w3.org/XML/1998/namespace")] x -> plain_xml x -> force <> Some (u "#text") ->
  toxml E x tag schema comment = Ok (r, c) [] ->
  x_tag r = tag /\ reread (xe_env E) x (element_value force r) /\ reread (xe_env E) x (list_dict_consistency (element_value force r)).
Proof. exact xml_trip. Qed.
Print Assumptions C73_read_back.
Definition tx (s : str) : jv := JO [(u "text()", JS (SStr s))].
Definition trip_ex : jv :=
  JO [(u "@version", JS (SStr (u "2.03")));
      (u "act", JA [JO [(u "title", tx (u " T1 ")); (u "code", JO [(u "@ref", JS (SInt 7))]); (u "party", JA [tx (u "p"); JO []; tx (u "q")])];
                    JO [(u "party", tx (u "r")); (u "title", JA [tx (u "T2")])]])].
(** the schema puts "party" first; "title" is a list in one place *)
Definition trip_schema : option (res warning sdict) := Some (Ok (SD [(u "party", SD []); (u "title", SD [])]) []).
Definition text_read (s : str) : jv := JO [(u "#text", JS (SStr s))].
Example C73_read_back_meets :
  shaped [(u "xml", u "http://www.w3.org/XML/1998/namespace")] trip_ex /\ plain_xml trip_ex /\
  exists r, toxml cmd_xenv trip_ex (u "acts") trip_schema None = Ok (r, u "XML generated by flatten-tool") [] /\
    element_value (Some (u "act")) r =
    JO [(u "@version", JS (SStr (u "2.03")));
        (u "act", JA [JO [(u "party", JA [text_read (u "p"); JS SNone; text_read (u "q")]); (u "title", text_read (u "T1")); (u "code", JO [(u "@ref", JS (SStr (u "7")))])];
                      JO [(u "party", text_read (u "r")); (u "title", text_read (u "T2"))]])].
Proof.
  assert (H : shape_ok trip_ex = true) by (vm_compute; reflexivity). destruct (shape_sound [(u "xml", u "http://www.w3.org/XML/1998/namespace")] _ H) as [H1 H2].
  split; [exact H1|]. split; [exact H2|]. eexists. split; vm_compute; reflexivity.
Qed.
(** the same is not so for the order of elements with different tags, the white
    space around texts, elements with nothing in them, lists of one element, and
    what kind of value a text was: all in the example above *)
Theorem C73_same_data_refuted : exists x r c, shaped [(u "xml", u "http://www.w3.org/XML/1998/namespace")] x /\ plain_xml x /\
  toxml cmd_xenv x (u "r") None None = Ok (r, c) [] /\
  x = JO [(u "a", JA [JO [(u "@n", JS (SInt 1)); (u "text()", JS (SStr (u " ")))]]); (u "b", JO [])] /\
  list_dict_consistency (element_value None r) = JO [(u "a", JO [(u "@n", JS (SStr (u "1")))]); (u "b", JS SNone)].
Proof.
  set (x := JO [(u "a", JA [JO [(u "@n", JS (SInt 1)); (u "text()", JS (SStr (u " ")))]]); (u "b", JO [])]).
  assert (H : shape_ok x = true) by (vm_compute; reflexivity). destruct (shape_sound [(u "xml", u "http://www.w3.org/XML/1998/namespace")] _ H) as [H1 H2].
  do 3 eexists. split; [exact H1|]. split; [exact H2|]. split; [vm_compute; reflexivity|]. split; [reflexivity|vm_compute; reflexivity].
Qed.
Print Assumptions C73_same_data_refuted.
(** a tag "#text" is taken for a text *)
Theorem C73_text_tag_refuted : exists x r c, x = JO [(u "#text", tx (u "a")); (u "text()", JS (SStr (u "b")))] /\
  toxml cmd_xenv x (u "r") None None = Ok (r, c) [] /\ element_value None r = JO [(u "#text", JA [text_read (u "a"); JS (SStr (u "b"))])].
Proof. do 3 eexists. split; [reflexivity|]. split; vm_compute; reflexivity. Qed.
Print Assumptions C73_text_tag_refuted.

(** ** the commands *)
(** a run of unflatten that writes XML, without a warning about it, followed by
    flatten on what was written, with the same root list path: the records that
    flatten takes are, in order, those that unflatten wrote *)
Theorem C73_files : forall Wd U w, unflatten_file Wd U = Ok tt w -> u_xml U = true -> u_root_list U = false -> u_meta_only U = false -> ~ given (u_meta U) ->
  let conf := default_conf (u_conf U) in let path := root_path U conf in
  (forall t, ~ In (Warned (AXml t)) w) -> hd 0%N (root_tag conf) <> 64%N -> ~ In 58%N (root_tag conf) -> root_tag conf <> path ->
  xml_step path -> hd 0%N path <> 64%N -> path <> u "#text" ->
  exists f recs b root comment, (exists w1, read_base Wd U = Ok (inr b) w1) /\ main_records Wd U f conf recs /\ In (Wrote (u_output U) (CXml root comment)) w /\
    let data := JO (map (fun kv => (fst kv, xml_value (snd kv))) (sset path (BRecords recs) b)) in
    (shaped [(u "xml", u "http://www.w3.org/XML/1998/namespace")] data -> plain_xml data -> forall Wd' F, f_xml F = true -> f_root_list F = false -> f_path F = path ->
     wd_xml Wd' (Some path) (f_input F) = inr (root_value (Some path) root) -> forall l, records_read Wd' F l ->
     Forall2 (fun d v => reread (xe_env (wd_xenv Wd)) (JO (map (fun kv => (fst kv, xml_node (snd kv))) d)) v) recs l).
Proof. exact xml_files. Qed.
Print Assumptions C73_files.
(** ... and flatten, if it succeeds, makes its tables of those records *)
Theorem C73_commands : forall Wd U w Wd' F w', unflatten_file Wd U = Ok tt w -> u_xml U = true -> u_root_list U = false -> u_meta_only U = false -> ~ given (u_meta U) ->
  let conf := default_conf (u_conf U) in let path := root_path U conf in
  (forall t, ~ In (Warned (AXml t)) w) -> hd 0%N (root_tag conf) <> 64%N -> ~ In 58%N (root_tag conf) -> root_tag conf <> path ->
  xml_step path -> hd 0%N path <> 64%N -> path <> u "#text" ->
  flatten_file Wd' F = Ok tt w' -> not_mixed (f_roll F) -> f_xml F = true -> f_root_list F = false -> f_path F = path ->
  exists f recs b root comment, (exists w1, read_base Wd U = Ok (inr b) w1) /\ main_records Wd U f conf recs /\ In (Wrote (u_output U) (CXml root comment)) w /\
    let data := JO (map (fun kv => (fst kv, xml_value (snd kv))) (sset path (BRecords recs) b)) in
    (shaped [(u "xml", u "http://www.w3.org/XML/1998/namespace")] data -> plain_xml data ->
     wd_xml Wd' (Some path) (f_input F) = inr (root_value (Some path) root) ->
     exists schema roll lines l s v, run_inputs Wd' F schema roll lines l /\ flatten (run_opts Wd' F schema roll lines) (f_drop F) (requests lines) l = Ok s v /\
       Forall2 (fun d v => reread (xe_env (wd_xenv Wd)) (JO (map (fun kv => (fst kv, xml_node (snd kv))) d)) v) recs l).
Proof. exact xml_commands. Qed.
Print Assumptions C73_commands.
Local Open Scope string_scope.
Local Open Scope list_scope.
Definition xml_book : book := [(u "s", g [["id"; "@v"; "p/0/name"; "p/0/@role"]; ["1"; "x"; "A "; "a"]; ["1"; ""; "B"; "b"]; ["2"; "y"; "C"; ""]])].
Definition xml_world : world := test_world xml_book (JO []) (JO []) no_schema.
Definition with_xml (U : uopts) : uopts :=
  {| u_input := u_input U; u_base := u_base U; u_format := u_format U; u_output := u_output U; u_path := Some (u "act"); u_root_list := u_root_list U;
     u_zone := u_zone U; u_root_id := []; u_schema := u_schema U; u_titles := u_titles U; u_cells := u_cells U; u_heads := u_heads U; u_id_name := u_id_name U;
     u_xml := true; u_vertical := u_vertical U; u_meta := u_meta U; u_meta_only := u_meta_only U; u_meta_schema := u_meta_schema U; u_meta_vertical := u_meta_vertical U;
     u_xsds := u_xsds U; u_conf := u_conf U; u_local_off := u_local_off U; u_comment := u_comment U; u_trunc := u_trunc U; u_wkt := u_wkt U |}.
Definition xml_flatten : flopts :=
  {| f_input := u "in.xml"; f_schema := []; f_output := None; f_format := u "csv"; f_main := u "main"; f_path := u "act"; f_root_list := false;
     f_prefix := []; f_filter_field := None; f_filter_value := None; f_preserve := []; f_roll := RollFalse; f_root_id := []; f_titles := false;
     f_xml := true; f_id_name := u "id"; f_local_off := false; f_drop := false; f_trunc := 3; f_term := u "CRLF"; f_wkt := false |}.
Definition xml_written : xel :=
  El (u "iati-activities") [] None
    [El (u "act") [(u "v", u "x")] None [El (u "id") [] (Some (u "1")) []; El (u "p") [(u "role", u "a")] None [El (u "name") [] (Some (u "A ")) []];
       El (u "p") [(u "role", u "b")] None [El (u "name") [] (Some (u "B")) []]];
     El (u "act") [(u "v", u "y")] None [El (u "id") [] (Some (u "2")) []; El (u "p") [] None [El (u "name") [] (Some (u "C")) []]]].
Definition xml_read_world : world :=
  let Wd := xml_world in
  {| wd_schema := wd_schema Wd; wd_json := wd_json Wd; wd_base := wd_base Wd; wd_xml := fun force _ => inr (root_value force xml_written);
     wd_lines := wd_lines Wd; wd_isfile := wd_isfile Wd; wd_book := wd_book Wd; wd_xsd := wd_xsd Wd; wd_xsd_fuel := wd_xsd_fuel Wd;
     wd_xenv := wd_xenv Wd; wd_wenv := wd_wenv Wd; wd_lower := wd_lower Wd; wd_shape := wd_shape Wd; wd_set_order := wd_set_order Wd; wd_conv := wd_conv Wd |}.
(** unflatten and then flatten: the data that are written have the right shape,
    and the tables are those of the records *)
Definition xml_data : jv :=
  JO [(u "act", JA [JO [(u "id", tx (u "1")); (u "@v", JS (SStr (u "x")));
                        (u "p", JA [JO [(u "name", tx (u "A ")); (u "@role", JS (SStr (u "a")))]; JO [(u "name", tx (u "B")); (u "@role", JS (SStr (u "b")))]])];
                    JO [(u "id", tx (u "2")); (u "@v", JS (SStr (u "y"))); (u "p", JA [JO [(u "name", tx (u "C"))]])]])].
Example C73_files_meets : let U := with_xml (unflatten_opts (u "ods")) in let path := root_path U (default_conf (u_conf U)) in
  (exists w, unflatten_file xml_world U = Ok tt w /\ In (Wrote (Some (u "out.json")) (CXml xml_written (u "XML generated by flatten-tool"))) w /\ forall t, ~ In (Warned (AXml t)) w) /\
  ~ given (u_meta U) /\ root_tag (default_conf (u_conf U)) = u "iati-activities" /\ path = u "act" /\ xml_step path /\
  shaped [(u "xml", u "http://www.w3.org/XML/1998/namespace")] xml_data /\ plain_xml xml_data /\
  toxml cmd_xenv xml_data (u "iati-activities") None None = Ok (xml_written, u "XML generated by flatten-tool") [] /\
  flatten_file xml_read_world xml_flatten = Ok tt [Opened (u "in.xml");
    Wrote (Some (u "flattened/main.csv")) (CText (u "id,@v" ++ [13; 10]%N ++ u "1,x" ++ [13; 10]%N ++ u "2,y" ++ [13; 10]%N));
    Wrote (Some (u "flattened/p.csv")) (CText (u "id,p/0/@role,p/0/name" ++ [13; 10]%N ++ u "1,a,A" ++ [13; 10]%N ++ u "1,b,B" ++ [13; 10]%N ++ u "2,,C" ++ [13; 10]%N))].
Proof.
  assert (H : shape_ok xml_data = true) by (vm_compute; reflexivity). destruct (shape_sound [(u "xml", u "http://www.w3.org/XML/1998/namespace")] _ H) as [H1 H2].
  cbv zeta. split; [|split; [|split; [|split; [|split; [|split; [|split; [|split]]]]]]].
  - eexists. split; [vm_compute; reflexivity|]. split; [right; left; vm_compute; reflexivity|]. intros t [X|[X|[]]]; discriminate X.
  - intros (n & X & _). vm_compute in X. discriminate X.
  - vm_compute. reflexivity.
  - vm_compute. reflexivity.
  - split; [|vm_compute; reflexivity]. intros X. vm_compute in X. repeat (destruct X as [X|X]; [discriminate X|]). exact X.
  - exact H1.
  - exact H2.
  - vm_compute. reflexivity.
  - vm_compute. reflexivity.
Qed.

(** ** what the headings must be like *)
(** C35: with no types from a schema, the records of any sheets have the right
    shape for XML if "@name" is only the last part of a heading, is not a
    namespace, and no attribute has two names ([attributes_last] and
    [attributes_apart] are in Spec/XmlSheets.v) *)
Theorem C35_sheets : forall O sheets ns, o_xml O = true -> (forall p, o_types O p = []) ->
  attributes_last (o_conv O) sheets -> attributes_apart (o_conv O) sheets ns ->
  forall r w, unflatten O sheets = Ok r w -> forall d, In d r ->
  shaped ns (JO (map (fun kv => (fst kv, xml_node (snd kv))) d)) /\ (plain_parts (o_conv O) sheets -> plain_xml (JO (map (fun kv => (fst kv, xml_node (snd kv))) d))).
Proof. exact sheets_good. Qed.
Print Assumptions C35_sheets.
Definition xml_sheet (lines : list (list (str * str))) : list sheet_in :=
  [{| si_name := u "s"; si_headings := None; si_lines := map (map (fun kv => (SStr (fst kv), SStr (snd kv)))) lines |}].
Definition xml_opts : opts := {| o_conv := test_cenv; o_types := fun _ => []; o_root_id := []; o_id_name := u "id"; o_xml := true; o_vertical := false |}.
Definition good_sheet : list sheet_in :=
  xml_sheet [[(u "id", u "1"); (u "@v", u "x"); (u "p/0/name", u "A "); (u "p/0/@role", u "a")];
             [(u "id", u "1"); (u "@v", u ""); (u "p/0/name", u "B"); (u "p/0/@role", u "b")];
             [(u "id", u "2"); (u "@v", u "y"); (u "p/0/name", u "C"); (u "p/0/@role", u "")]].
Example C35_sheets_meets : attributes_last (o_conv xml_opts) good_sheet /\ plain_parts (o_conv xml_opts) good_sheet /\ (forall ns, attributes_apart (o_conv xml_opts) good_sheet ns) /\
  exists r, unflatten xml_opts good_sheet = Ok r [] /\ xml_data = JO [(u "act", JA (map (fun d => JO (map (fun kv => (fst kv, xml_node (snd kv))) d)) r))].
Proof.
  assert (H : headings_ok (o_conv xml_opts) good_sheet = true) by (vm_compute; reflexivity). destruct (headings_sound _ _ H) as [H1 H2].
  split; [exact H1|]. split; [exact H2|]. split; [intros ns; apply plain_apart, H2|]. eexists. split; vm_compute; reflexivity.
Qed.
(** a heading with something after "@name" puts an element "@b" into the data *)
Theorem C35_heading_refuted : exists d, unflatten xml_opts (xml_sheet [[(u "id", u "1"); (u "@b/c", u "x")]]) = Ok [d] [] /\
  JO (map (fun kv => (fst kv, xml_node (snd kv))) d) = JO [(u "id", tx (u "1")); (u "@b", JO [(u "c", tx (u "x"))])] /\
  forall ns, ~ shaped ns (JO [(u "id", tx (u "1")); (u "@b", JO [(u "c", tx (u "x"))])]).
Proof.
  eexists. split; [vm_compute; reflexivity|]. split; [vm_compute; reflexivity|]. intros ns H. inversion H as [d0 N0 K N1 N2 E]; subst d0.
  destruct (K (u "@b") _ (or_intror (or_introl eq_refl))) as [(s & X & _)|[X _]]; [discriminate X|apply X; reflexivity].
Qed.
Print Assumptions C35_heading_refuted.
(** C73: XML made from a spreadsheet alone, with such headings and without
    prefixes, is read back by flatten *)
Theorem C73_sheets : forall Wd U w Wd' F w', unflatten_file Wd U = Ok tt w -> u_xml U = true -> u_root_list U = false -> u_meta_only U = false -> ~ given (u_meta U) ->
  ~ given (u_base U) -> u_schema U = [] ->
  let conf := default_conf (u_conf U) in let path := root_path U conf in
  (forall t, ~ In (Warned (AXml t)) w) -> hd 0%N (root_tag conf) <> 64%N -> ~ In 58%N (root_tag conf) -> root_tag conf <> path ->
  xml_step path -> hd 0%N path <> 64%N -> path <> u "#text" -> ~ In 58%N path ->
  flatten_file Wd' F = Ok tt w' -> not_mixed (f_roll F) -> f_xml F = true -> f_root_list F = false -> f_path F = path ->
  exists f sheets O recs w0 root comment, main_run Wd U f conf sheets O /\ unflatten O sheets = Ok recs w0 /\ In (Wrote (u_output U) (CXml root comment)) w /\
    (attributes_last (o_conv O) sheets -> plain_parts (o_conv O) sheets -> wd_xml Wd' (Some path) (f_input F) = inr (root_value (Some path) root) ->
     exists schema roll lines l s v, run_inputs Wd' F schema roll lines l /\ flatten (run_opts Wd' F schema roll lines) (f_drop F) (requests lines) l = Ok s v /\
       Forall2 (fun d v => reread (xe_env (wd_xenv Wd)) (JO (map (fun kv => (fst kv, xml_node (snd kv))) d)) v) recs l).
Proof. exact xml_sheets. Qed.
Print Assumptions C73_sheets.
(** (the run of C73_files_meets has no base and no schema, and its headings are
    those of C35_sheets_meets) *)
Example C73_sheets_meets : let U := with_xml (unflatten_opts (u "ods")) in ~ given (u_base U) /\ u_schema U = [] /\ ~ In 58%N (root_path U (default_conf (u_conf U))) /\
  exists sheets O, main_run xml_world U Ods (default_conf (u_conf U)) sheets O /\ attributes_last (o_conv O) sheets /\ plain_parts (o_conv O) sheets /\
    wd_xml xml_read_world (Some (u "act")) (f_input xml_flatten) = inr (root_value (Some (u "act")) xml_written).
Proof.
  cbv zeta. split; [intros (n & X & _); vm_compute in X; discriminate X|]. split; [reflexivity|]. split; [intros X; vm_compute in X; repeat (destruct X as [X|X]; [discriminate X|]); exact X|].
  eexists. eexists. split; [|split; [|split; [|reflexivity]]].
  - exists None. split; [left; split; reflexivity|]. split; [|reflexivity]. do 3 eexists. exists []. split; [vm_compute; reflexivity|]. split; vm_compute; reflexivity.
  - apply headings_sound. vm_compute. reflexivity.
  - apply headings_sound. vm_compute. reflexivity.
Qed.
