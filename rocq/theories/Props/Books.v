(** C67, C68: the commands [flatten] and [unflatten] one after the other, by way of
    a workbook (XLSX) or of an ODS document.  The notions used in the statements are
    in Spec/BookTrip.v (what goes through such a file), Spec/Trip.v, Spec/RoundTrip.v
    and Spec/Typed.v (documents), Spec/Alike.v and Spec/Near.v (values that come back as
    nearby ones), Spec/Written.v and Spec/OdsCells.v (cells). *)
From Coq Require Import String Permutation Lia.
From Verif.Base Require Import PyStr PyNum PyVal PyDict Outcome.
From Verif.Model Require Import Warn Lib Convert Input Json Flatten Readers Csv Ods Output Schema Commands.
From Verif.Tests Require Import TestLib FlattenLib CommandLib.
From Verif.Spec Require Import Flat Sites Paths Headings OdsCells Written Commands RoundTrip Typed Trip BookTrip Alike Near.
From Verif.Proofs Require Import RtCheck RtTyped SchemaReady SchemaCheck TripRun TripCheck BookEnd BookCheck NearFacts.
From Verif.Props Require Import EndToEnd.
Local Open Scope list_scope.

(** ** C67: by way of a workbook nothing is lost, nor the order when the records of
    a root come together.  [read]: what is read in a cell in which a value was put *)
Theorem C67_workbook Wd F schema v docs t read back : to_format Xlsx F -> schema_read Wd (f_local_off F) (f_schema F) (flatten_schema_opts Wd F) schema ->
  wd_json Wd (f_input F) = inr v -> records_at F v (map JO docs) -> sget (f_term F) terminators = Some t ->
  whole (Trip.flatten_opts Wd F schema) -> documents (Trip.flatten_opts Wd F schema) docs -> xlsx_ready (Trip.flatten_opts Wd F schema) (writer_opts F t) (wd_wenv Wd) docs read back ->
  exists w sheets, flatten_file Wd F = Ok tt w /\ only_written w (book_name Xlsx F) (CXlsx sheets) /\ forall Wd' U schema',
    from_format Xlsx U -> xlsx_file read Wd' (u_input U) sheets ->
    schema_read Wd' (u_local_off U) (u_schema U) (unflatten_schema_opts Wd' U) schema' ->
    survive (Trip.flatten_opts Wd F schema) (Trip.unflatten_opts Wd' U schema') back docs -> Forall (fun d => numbers_finite (JO d)) docs ->
    (exists w' j, unflatten_file Wd' U = Ok tt w' /\ json_written w' (u_output U) (listed U j) /\ same_json (@Permutation jv) (JA (map JO docs)) j) /\
    (roots_together (Trip.flatten_opts Wd F schema) docs -> short_names (Trip.flatten_opts Wd F schema) docs ->
     exists w' j, unflatten_file Wd' U = Ok tt w' /\ json_written w' (u_output U) (listed U j) /\ same_json eq (JA (map JO docs)) j).
Proof. exact (xlsx_round Wd F schema v docs t read back). Qed.
Print Assumptions C67_workbook.

(** ** C68: by way of an ODS document *)
Theorem C68_ods Wd F schema v docs t RE back : to_format Ods F -> schema_read Wd (f_local_off F) (f_schema F) (flatten_schema_opts Wd F) schema ->
  wd_json Wd (f_input F) = inr v -> records_at F v (map JO docs) -> sget (f_term F) terminators = Some t ->
  whole (Trip.flatten_opts Wd F schema) -> documents (Trip.flatten_opts Wd F schema) docs -> ods_ready (Trip.flatten_opts Wd F schema) (writer_opts F t) (wd_wenv Wd) docs RE back ->
  exists w sheets, flatten_file Wd F = Ok tt w /\ only_written w (book_name Ods F) (COds sheets) /\ forall Wd' U schema',
    from_format Ods U -> ods_file RE Wd' (u_input U) sheets ->
    schema_read Wd' (u_local_off U) (u_schema U) (unflatten_schema_opts Wd' U) schema' ->
    survive (Trip.flatten_opts Wd F schema) (Trip.unflatten_opts Wd' U schema') back docs -> Forall (fun d => numbers_finite (JO d)) docs ->
    (exists w' j, unflatten_file Wd' U = Ok tt w' /\ json_written w' (u_output U) (listed U j) /\ same_json (@Permutation jv) (JA (map JO docs)) j) /\
    (roots_together (Trip.flatten_opts Wd F schema) docs -> short_names (Trip.flatten_opts Wd F schema) docs ->
     exists w' j, unflatten_file Wd' U = Ok tt w' /\ json_written w' (u_output U) (listed U j) /\ same_json eq (JA (map JO docs)) j).
Proof. exact (ods_round Wd F schema v docs t RE back). Qed.
Print Assumptions C68_ods.

(** the cells are converted back when the fields have the types of the schema that
    [unflatten] reads, and the cell of every field is read as it was put there, as
    its text, or (numbers) as an equal float *)
Theorem C67_typed Wd F schema Wd' U schema' docs back : f_id_name F = id_name_used U empty_conf -> f_root_id F = u_root_id U ->
  documents (Trip.flatten_opts Wd F schema) docs ->
  let types := match schema' with Some s => types_of s | None => fun _ => [] end in
  Forall (has_types types) docs ->
  (forall d Q, In d docs -> at_path (JO d) (Q ++ [(f_id_name F, None)]) <> None -> type_at types (Q ++ [(f_id_name F, None)]) <> u "number") ->
  (forall d Q k y c, In d docs -> at_path (JO d) (Q ++ [(k, None)]) = Some y -> leaf_cell (Trip.flatten_opts Wd F schema) y = Some (JS c) ->
     cell_gives (we_env (wd_wenv Wd)) (type_at types (Q ++ [(k, None)])) c (back c)) ->
  (forall d s, In d docs -> root_key (Trip.flatten_opts Wd F schema) d = Some (JS s) -> back s = s \/ back s = SStr (py_str (we_env (wd_wenv Wd)) s)) ->
  ((forall d s, In d docs -> root_key (Trip.flatten_opts Wd F schema) d = Some (JS s) -> exists t, s = SStr t) \/
   (forall d s, In d docs -> root_key (Trip.flatten_opts Wd F schema) d = Some (JS s) -> exists z, s = SInt z)) ->
  survive (Trip.flatten_opts Wd F schema) (Trip.unflatten_opts Wd' U schema') back docs.
Proof.
  intros H1 H2 HD types HT Hn Hc Hr Hk.
  exact (typed_survive_used (Trip.flatten_opts Wd F schema) (Trip.unflatten_opts Wd' U schema') (we_env (wd_wenv Wd)) back docs eq_refl (eq_sym H1) (eq_sym H2) HD HT Hn Hc Hr Hk).
Qed.
Print Assumptions C67_typed.

(** ** Values that do not come back exactly: [near c] comes back for the value [c] of
    a field (the float nearest to a number, say), and the JSON is that of the
    documents with [near c] for [c] *)
Theorem C67_near Wd F schema v docs t read back : to_format Xlsx F -> schema_read Wd (f_local_off F) (f_schema F) (flatten_schema_opts Wd F) schema ->
  wd_json Wd (f_input F) = inr v -> records_at F v (map JO docs) -> sget (f_term F) terminators = Some t ->
  whole (Trip.flatten_opts Wd F schema) -> documents (Trip.flatten_opts Wd F schema) docs -> xlsx_ready (Trip.flatten_opts Wd F schema) (writer_opts F t) (wd_wenv Wd) docs read back ->
  exists w sheets, flatten_file Wd F = Ok tt w /\ only_written w (book_name Xlsx F) (CXlsx sheets) /\ forall near Wd' U schema',
    from_format Xlsx U -> xlsx_file read Wd' (u_input U) sheets ->
    schema_read Wd' (u_local_off U) (u_schema U) (unflatten_schema_opts Wd' U) schema' ->
    come (near_leaf near) (Trip.flatten_opts Wd F schema) (Trip.unflatten_opts Wd' U schema') back docs -> Forall (fun d => numbers_finite (JO d)) (map (nearby_doc near) docs) ->
    (exists w' j, unflatten_file Wd' U = Ok tt w' /\ json_written w' (u_output U) (listed U j) /\ same_json (@Permutation jv) (JA (map JO (map (nearby_doc near) docs))) j) /\
    (roots_together (Trip.flatten_opts Wd F schema) docs -> short_names (Trip.flatten_opts Wd F schema) docs ->
     exists w' j, unflatten_file Wd' U = Ok tt w' /\ json_written w' (u_output U) (listed U j) /\ same_json eq (JA (map JO (map (nearby_doc near) docs))) j).
Proof. exact (xlsx_near Wd F schema v docs t read back). Qed.
Print Assumptions C67_near.
Theorem C68_near Wd F schema v docs t RE back : to_format Ods F -> schema_read Wd (f_local_off F) (f_schema F) (flatten_schema_opts Wd F) schema ->
  wd_json Wd (f_input F) = inr v -> records_at F v (map JO docs) -> sget (f_term F) terminators = Some t ->
  whole (Trip.flatten_opts Wd F schema) -> documents (Trip.flatten_opts Wd F schema) docs -> ods_ready (Trip.flatten_opts Wd F schema) (writer_opts F t) (wd_wenv Wd) docs RE back ->
  exists w sheets, flatten_file Wd F = Ok tt w /\ only_written w (book_name Ods F) (COds sheets) /\ forall near Wd' U schema',
    from_format Ods U -> ods_file RE Wd' (u_input U) sheets ->
    schema_read Wd' (u_local_off U) (u_schema U) (unflatten_schema_opts Wd' U) schema' ->
    come (near_leaf near) (Trip.flatten_opts Wd F schema) (Trip.unflatten_opts Wd' U schema') back docs -> Forall (fun d => numbers_finite (JO d)) (map (nearby_doc near) docs) ->
    (exists w' j, unflatten_file Wd' U = Ok tt w' /\ json_written w' (u_output U) (listed U j) /\ same_json (@Permutation jv) (JA (map JO (map (nearby_doc near) docs))) j) /\
    (roots_together (Trip.flatten_opts Wd F schema) docs -> short_names (Trip.flatten_opts Wd F schema) docs ->
     exists w' j, unflatten_file Wd' U = Ok tt w' /\ json_written w' (u_output U) (listed U j) /\ same_json eq (JA (map JO (map (nearby_doc near) docs))) j).
Proof. exact (ods_near Wd F schema v docs t RE back). Qed.
Print Assumptions C68_near.
(** by types: cells of fields of type number may be read as any float, those of type
    integer as a whole one; the value of the float comes back *)
Theorem C67_typed_near Wd F schema Wd' U schema' docs back : f_id_name F = id_name_used U empty_conf -> f_root_id F = u_root_id U ->
  documents (Trip.flatten_opts Wd F schema) docs ->
  let types := match schema' with Some s => types_of s | None => fun _ => [] end in
  Forall (has_types types) docs ->
  (forall d Q, In d docs -> at_path (JO d) (Q ++ [(f_id_name F, None)]) <> None -> type_at types (Q ++ [(f_id_name F, None)]) <> u "number") ->
  (forall d Q k y c, In d docs -> at_path (JO d) (Q ++ [(k, None)]) = Some y -> leaf_cell (Trip.flatten_opts Wd F schema) y = Some (JS c) ->
     cell_gives_near (we_env (wd_wenv Wd)) (type_at types (Q ++ [(k, None)])) c (back c) /\
     (k = f_id_name F -> cell_gives (we_env (wd_wenv Wd)) (type_at types (Q ++ [(k, None)])) c (back c))) ->
  (forall d s, In d docs -> root_key (Trip.flatten_opts Wd F schema) d = Some (JS s) -> back s = s \/ back s = SStr (py_str (we_env (wd_wenv Wd)) s)) ->
  ((forall d s, In d docs -> root_key (Trip.flatten_opts Wd F schema) d = Some (JS s) -> exists t, s = SStr t) \/
   (forall d s, In d docs -> root_key (Trip.flatten_opts Wd F schema) d = Some (JS s) -> exists z, s = SInt z)) ->
  come (near_leaf (float_near back)) (Trip.flatten_opts Wd F schema) (Trip.unflatten_opts Wd' U schema') back docs.
Proof.
  intros H1 H2 HD types HT Hn Hc Hr Hk.
  exact (typed_come_near (Trip.flatten_opts Wd F schema) (Trip.unflatten_opts Wd' U schema') (we_env (wd_wenv Wd)) back docs eq_refl (eq_sym H1) (eq_sym H2) HD HT Hn Hc Hr Hk).
Qed.
Print Assumptions C67_typed_near.

(** *** Examples: the documents and the schema of C51 *)
(** decimals and floats: 1.25 is 5 / 2^2; the float nearest to 0.1 *)
Definition b_float (d : dec) : option flt :=
  match d with
  | DFin n c e => if (0 <=? e)%Z then Some (FFin n (c * 10 ^ Z.to_N e) 0)
                  else if (c mod 5 ^ Z.to_N (- e) =? 0)%N then Some (FFin n (c / 5 ^ Z.to_N (- e)) e)
                  else if (c =? 1)%N && (e =? -1)%Z then Some (FFin n 3602879701896397 (-55)) else None
  | _ => None
  end.
Definition b_float_str (f : flt) : str := let s := dec_str (flt_dec f) in if str_mem [46%N] (map (fun x => [x]) s) then s else s ++ u ".0".
Definition b_env : env :=
  {| float_str := b_float_str; dt_str := dt_str test_env; dt_date_iso := dt_date_iso test_env; dt_local_iso := dt_local_iso test_env;
     geo_available := geo_available test_env; wkt_loads := wkt_loads test_env |}.
(** float(value): of a text that is a number, too *)
Definition b_floats (s : scalar) : float_result :=
  match to_decimal s with Some d => match b_float d with Some f => FloatOk f | None => FloatRaise EOther end | None => FloatValueError end.
Definition b_wenv : wenv :=
  {| we_env := b_env; we_str := fun _ => u "[]"; we_float := b_floats; we_cell := fun _ => None; we_title := fun _ => None; we_open := fun _ => None |}.
Definition b_cenv : conv_env := {| ce_env := b_env; ce_repr := ce_repr test_cenv; ce_wkt := ce_wkt test_cenv |}.
Definition b_world (b : book) (docs : list jobj) : world :=
  {| wd_schema := fun _ _ => inr e_schema; wd_json := fun _ => inr (JO [(u "version", et "1"); (u "data", JO [(u "list", JA (map JO docs))])]); wd_base := fun _ => inr (JS SNone); wd_xml := fun _ _ => inr (JS SNone);
     wd_lines := fun _ => inl EOther; wd_isfile := fun _ => false; wd_book := fun _ _ => inr b; wd_xsd := fun _ => inl EOther; wd_xsd_fuel := 0;
     wd_xenv := cmd_xenv; wd_wenv := b_wenv; wd_lower := lower; wd_shape := None; wd_set_order := fun l => l; wd_conv := fun _ _ => b_cenv |}.
Definition b_opts (format : str) : flopts :=
  {| f_input := u "in.json"; f_schema := u "s.json"; f_output := None; f_format := format; f_main := u "main"; f_path := u "data/list"; f_root_list := false;
     f_prefix := []; f_filter_field := None; f_filter_value := None; f_preserve := []; f_roll := RollFalse; f_root_id := []; f_titles := false;
     f_xml := false; f_id_name := u "id"; f_local_off := false; f_drop := false; f_trunc := 3; f_term := u "LF"; f_wkt := false |}.
Definition b_back (format : str) : uopts :=
  {| u_input := u "in"; u_base := None; u_format := Some format; u_output := Some (u "out.json"); u_path := None; u_root_list := false;
     u_zone := u "UTC"; u_root_id := []; u_schema := u "s.json"; u_titles := false; u_cells := []; u_heads := []; u_id_name := None;
     u_xml := false; u_vertical := false; u_meta := None; u_meta_only := false; u_meta_schema := []; u_meta_vertical := false;
     u_xsds := None; u_conf := []; u_local_off := false; u_comment := None; u_trunc := 3; u_wkt := false |}.
(** openpyxl: decimals come back as floats, texts that begin with "=" are formulas *)
Definition b_read (v : jv) : scalar :=
  match v with
  | JS (SDec d) => match b_float d with Some f => SFlt f | None => SNone end
  | JS (SStr (61%N :: _)) => SNone
  | JS s => s
  | _ => SNone
  end.
Definition b_ods : ods_env := {| oe_float := fun s => match parse_dec s with Some d => option_map SFlt (b_float d) | None => None end; oe_date := fun _ => None |}.
(** ODS: a cell that is nothing to Python (0, False) has its text; what float()
    takes comes back as a float *)
Definition b_ods_back (c : scalar) : scalar := match ods_read1 b_wenv b_ods (JS c) with Some x => x | None => SNone end.

Definition b_sps (O : sopts) : option sps := match parse_schema O e_schema with Ok s _ => Some s | Raise _ _ => None end.
Definition b_fschema (f : str) : option sps := b_sps (flatten_schema_opts (b_world [] []) (b_opts f)).
Definition b_uschema (f : str) : option sps := b_sps (unflatten_schema_opts (b_world [] []) (b_back f)).
Notation BO f docs := (Trip.flatten_opts (b_world [] docs) (b_opts f) (b_fschema f)).
Lemma b_ready f docs : schema_ready (BO f docs).
Proof.
  assert (E0 : flatten_schema_opts (b_world [] []) (b_opts f) = flatten_schema_opts (b_world [] []) (b_opts [])) by reflexivity.
  unfold b_fschema. rewrite E0. clear E0.
  destruct (parse_schema (flatten_schema_opts (b_world [] []) (b_opts [])) e_schema) as [st w|e w] eqn:E; [|vm_compute in E; discriminate E].
  apply (parsed_ready (flatten_schema_opts (b_world [] []) (b_opts [])) e_schema st w E); [apply named_ok; vm_compute; reflexivity|apply apart_ok; vm_compute; reflexivity|reflexivity|intros []|discriminate|].
  unfold Trip.flatten_opts, parser_opts, b_sps. rewrite E. reflexivity.
Qed.
Lemma b_whole f docs : whole (BO f docs).
Proof. repeat split. right. split; [apply b_ready|reflexivity]. Qed.
Lemma b_schema_read f b docs : schema_read (b_world b docs) false (u "s.json") (flatten_schema_opts (b_world b docs) (b_opts f)) (b_fschema f) /\
  schema_read (b_world b docs) false (u "s.json") (unflatten_schema_opts (b_world b docs) (b_back f)) (b_uschema f).
Proof. split; right; (split; [discriminate|]); exists e_schema; do 2 eexists; (split; [reflexivity|]); (split; [vm_compute; reflexivity|vm_compute; reflexivity]). Qed.
Lemma b_place f docs : place_of (b_opts f) (JO [(u "version", et "1"); (u "data", JO [(u "list", JA (map JO docs))])]) [u "data"; u "list"].
Proof.
  split; [split; [discriminate|reflexivity]|]. split; [repeat constructor; cbn; intuition discriminate|].
  assert (K : forall (e : jobj) d, Some (JO e) = Some (JO d) -> nodup_b str_eqb (map fst e) && forallb (fun k => lacks_c 46 k) (map fst e) = true -> NoDup (map fst d) /\ forall k, In k (map fst d) -> ~ In 46%N k).
  { intros e d [= <-] H. apply andb_prop in H as [H1 H2]. split; [exact (nodup_check _ str_eqb_refl _ H1)|]. intros k Hk. rewrite forallb_forall in H2. exact (lacks_c_check _ _ (H2 k Hk)). }
  intros ks1 ks2 d E H. destruct ks1 as [|a [|b [|c ks1]]]; [|injection E as <- E|injection E as <- <- E|discriminate E].
  - eapply K; [exact H|reflexivity].
  - eapply K; [exact H|reflexivity].
  - discriminate H.
Qed.
Lemma b_records f docs : exists v, wd_json (b_world [] docs) (f_input (b_opts f)) = inr v /\ records_at (b_opts f) v (map JO docs).
Proof. eexists. split; [reflexivity|]. exists [u "data"; u "list"]. split; [exact (b_place f docs)|reflexivity]. Qed.
Ltac b_all :=
  match goal with |- Forall ?P ?l => let l' := eval vm_compute in l in let E := fresh in assert (E : l = l') by (vm_compute; reflexivity); rewrite E; clear E end;
  repeat (apply Forall_cons; [try (split; [discriminate|split; [discriminate|]]); vm_compute; reflexivity|]); apply Forall_nil.

(** a workbook.  The sheets that are written: *)
Definition b_sheets (docs : list jobj) : list worksheet :=
  match last (warns (flatten_file (b_world [] docs) (b_opts (u "xlsx")))) (Opened []) with Wrote _ (CXlsx l) => l | _ => [] end.
Definition b_book (docs : list jobj) : book := map (fun s => (fst s, map (map b_read) (snd s))) (b_sheets docs).
Definition b_xlsx_back (c : scalar) : scalar := b_read (JS c).
Notation BX := (BO (u "xlsx") e_docs).
Example C67_meets : to_format Xlsx (b_opts (u "xlsx")) /\ sget (f_term (b_opts (u "xlsx"))) terminators = Some LF /\ documents BX e_docs /\
  xlsx_ready BX (writer_opts (b_opts (u "xlsx")) LF) b_wenv e_docs b_read b_xlsx_back /\
  from_format Xlsx (b_back (u "xlsx")) /\ xlsx_file b_read (b_world (b_book e_docs) []) (u "in") (b_sheets e_docs) /\
  survive BX (Trip.unflatten_opts (b_world (b_book e_docs) []) (b_back (u "xlsx")) (b_uschema (u "xlsx"))) b_xlsx_back e_docs /\ Forall (fun d => numbers_finite (JO d)) e_docs /\
  roots_together BX e_docs /\ short_names BX e_docs.
Proof.
  split; [repeat split; cbn; tauto|]. split; [reflexivity|]. split; [apply documents_check; vm_compute; reflexivity|].
  split; [apply xlsx_ready_check; [reflexivity|reflexivity|reflexivity|b_all|b_all]|]. split; [repeat split|].
  split. { exists (b_book e_docs). split; [reflexivity|]. split; [apply (nodup_check _ str_eqb_refl); vm_compute; reflexivity|]. unfold b_book. rewrite map_map. reflexivity. }
  split; [apply survive_check; vm_compute; reflexivity|]. split; [repeat (apply Forall_cons; [apply finite_check; vm_compute; reflexivity|]); apply Forall_nil|].
  exact (proj2 e_in_order).
Qed.
Example C67_book : b_book e_docs =
  [(u "main", [[SStr (u "id"); SStr (u "name"); SStr (u "paid"); SStr (u "at/town")]; [SInt 7; SStr (u "Ann ""A"", B"); SBool true; SStr (u "X")]; [SInt 8; SNone; SNone; SNone]]);
   (u "orders", [[SStr (u "id"); SStr (u "orders/0/id"); SStr (u "orders/0/price"); SStr (u "orders/0/tags")];
                 [SInt 7; SStr (u "a"); SFlt (FFin false 5 (-2)); SStr (u "x;y z")]; [SInt 7; SStr (u "b"); SInt 3; SNone]; [SInt 8; SStr (u "a"); SNone; SNone]])].
Proof. vm_compute. reflexivity. Qed.
(** the same JSON as by way of CSV files *)
Definition e_json : jout := OObj [(u "main", OArr [
     OObj [(u "id", OLeaf (JInt 7)); (u "name", OLeaf (JStr (u "Ann ""A"", B"))); (u "paid", OLeaf (JBool true)); (u "at", OObj [(u "town", OLeaf (JStr (u "X")))]);
           (u "orders", OArr [OObj [(u "id", OLeaf (JStr (u "a"))); (u "price", OLeaf (JDouble (DFin false 125 (-2)))); (u "tags", OLeaf (JArr [JStr (u "x"); JStr (u "y z")]))];
                              OObj [(u "id", OLeaf (JStr (u "b"))); (u "price", OLeaf (JInt 3))]])];
     OObj [(u "id", OLeaf (JInt 8)); (u "orders", OArr [OObj [(u "id", OLeaf (JStr (u "a")))]])]])].
Definition json_result (m : IO unit) : option jout := match m with Ok _ w => match last w (Opened []) with Wrote _ (CJson j) => Some j | _ => None end | Raise _ _ => None end.
Example C67_result : json_result (unflatten_file (b_world (b_book e_docs) []) (b_back (u "xlsx"))) = Some e_json.
Proof. vm_compute. reflexivity. Qed.

(** 0.1 is read as the float nearest to it, and the value of that float comes back
    (Python writes the double 0.1 for it) *)
Definition n_docs : list jobj := [ [(u "id", en 7); (u "orders", JA [JO [(u "id", et "a"); (u "price", JS (SDec (DFin false 1 (-1))))]])] ].
Notation BN := (BO (u "xlsx") n_docs).
Notation n_near := (float_near b_xlsx_back).
Example C67_near_meets : documents BN n_docs /\ xlsx_ready BN (writer_opts (b_opts (u "xlsx")) LF) b_wenv n_docs b_read b_xlsx_back /\
  xlsx_file b_read (b_world (b_book n_docs) []) (u "in") (b_sheets n_docs) /\
  come (near_leaf n_near) BN (Trip.unflatten_opts (b_world (b_book n_docs) []) (b_back (u "xlsx")) (b_uschema (u "xlsx"))) b_xlsx_back n_docs /\
  Forall (fun d => numbers_finite (JO d)) (map (nearby_doc n_near) n_docs).
Proof.
  split; [apply documents_check; vm_compute; reflexivity|].
  split; [apply xlsx_ready_check; [reflexivity|reflexivity|reflexivity|b_all|b_all]|].
  split. { exists (b_book n_docs). split; [reflexivity|]. split; [apply (nodup_check _ str_eqb_refl); vm_compute; reflexivity|]. unfold b_book. rewrite map_map. reflexivity. }
  split; [apply (come_check (fun y => match y with JS a => JS (n_near a) | _ => y end)); vm_compute; reflexivity|].
  cbn [map n_docs]. apply Forall_cons; [apply finite_check; vm_compute; reflexivity|]. apply Forall_nil.
Qed.
Example C67_near_docs : map (nearby_doc n_near) n_docs =
  [ [(u "id", en 7); (u "orders", JA [JO [(u "id", et "a"); (u "price", JS (SDec (DFin false 1000000000000000055511151231257827021181583404541015625 (-55))))]])] ].
Proof. vm_compute. reflexivity. Qed.
Example C67_near_result : json_result (unflatten_file (b_world (b_book n_docs) []) (b_back (u "xlsx"))) = Some (OObj [(u "main", OArr [
     OObj [(u "id", OLeaf (JInt 7)); (u "orders", OArr [OObj [(u "id", OLeaf (JStr (u "a"))); (u "price", OLeaf (JDouble (DFin false 1000000000000000055511151231257827021181583404541015625 (-55))))]])]])]).
Proof. vm_compute. reflexivity. Qed.

(** an ODS document; "paid" is false here *)
Definition o_docs : list jobj :=
  [ [(u "id", en 7); (u "name", et "Ann ""A"", B"); (u "paid", JS (SBool false)); (u "at", JO [(u "town", et "X")]);
     (u "orders", JA [JO [(u "id", et "a"); (u "price", JS (SDec (DFin false 125 (-2)))); (u "tags", JA [et "x"; et "y z"])]; JO [(u "id", et "b"); (u "price", en 0)]])];
    [(u "id", en 8); (u "orders", JA [JO [(u "id", et "a")]])] ].
Definition o_sheets (docs : list jobj) : list (str * list ods_row) :=
  match last (warns (flatten_file (b_world [] docs) (b_opts (u "ods")))) (Opened []) with Wrote _ (COds l) => l | _ => [] end.
Definition o_book (docs : list jobj) : book := match read_ods b_ods false (o_sheets docs) [] with Ok b _ => b | Raise _ _ => [] end.
Notation BD docs := (BO (u "ods") docs).
Notation o_survive docs := (survive (BD docs) (Trip.unflatten_opts (b_world (o_book docs) []) (b_back (u "ods")) (b_uschema (u "ods"))) b_ods_back docs).
Example C68_meets : to_format Ods (b_opts (u "ods")) /\ sget (f_term (b_opts (u "ods"))) terminators = Some LF /\ documents (BD o_docs) o_docs /\
  ods_ready (BD o_docs) (writer_opts (b_opts (u "ods")) LF) b_wenv o_docs b_ods b_ods_back /\
  from_format Ods (b_back (u "ods")) /\ ods_file b_ods (b_world (o_book o_docs) []) (u "in") (o_sheets o_docs) /\
  o_survive o_docs /\ Forall (fun d => numbers_finite (JO d)) o_docs /\ roots_together (BD o_docs) o_docs /\ short_names (BD o_docs) o_docs.
Proof.
  split; [repeat split; cbn; tauto|]. split; [reflexivity|]. split; [apply documents_check; vm_compute; reflexivity|].
  split; [apply ods_ready_check; [vm_compute; reflexivity|vm_compute; reflexivity|b_all|b_all]|]. split; [repeat split|].
  split; [unfold ods_file; vm_compute; reflexivity|].
  split; [apply survive_check; vm_compute; reflexivity|]. split; [repeat (apply Forall_cons; [apply finite_check; vm_compute; reflexivity|]); apply Forall_nil|].
  split.
  - intros a d b e c E _. apply Forall_forall. reflexivity.
  - intros d x y r Hd Hx Hy E Hr. exfalso. destruct Hd as [<-|[<-|[]]]; cbn in Hx, Hy; repeat (destruct Hx as [<-|Hx]); try (exfalso; exact Hx);
      repeat (destruct Hy as [<-|Hy]); try (exfalso; exact Hy); (apply Hr; cbn in E; destruct r; [reflexivity|discriminate E]).
Qed.
(** whole numbers are read as floats, 0 and False as texts *)
Example C68_book : o_book o_docs =
  [(u "main", [[SStr (u "id"); SStr (u "name"); SStr (u "paid"); SStr (u "at/town")]; [SFlt (FFin false 14 (-1)); SStr (u "Ann ""A"", B"); SStr (u "False"); SStr (u "X")]; [SFlt (FFin false 16 (-1))]]);
   (u "orders", [[SStr (u "id"); SStr (u "orders/0/id"); SStr (u "orders/0/price"); SStr (u "orders/0/tags")];
                 [SFlt (FFin false 14 (-1)); SStr (u "a"); SFlt (FFin false 5 (-2)); SStr (u "x;y z")]; [SFlt (FFin false 14 (-1)); SStr (u "b"); SStr (u "0")]; [SFlt (FFin false 16 (-1)); SStr (u "a")]])].
Proof. vm_compute. reflexivity. Qed.
Example C68_result : json_result (unflatten_file (b_world (o_book o_docs) []) (b_back (u "ods"))) = Some (OObj [(u "main", OArr [
     OObj [(u "id", OLeaf (JInt 7)); (u "name", OLeaf (JStr (u "Ann ""A"", B"))); (u "paid", OLeaf (JBool false)); (u "at", OObj [(u "town", OLeaf (JStr (u "X")))]);
           (u "orders", OArr [OObj [(u "id", OLeaf (JStr (u "a"))); (u "price", OLeaf (JDouble (DFin false 125 (-2)))); (u "tags", OLeaf (JArr [JStr (u "x"); JStr (u "y z")]))];
                              OObj [(u "id", OLeaf (JStr (u "b"))); (u "price", OLeaf (JInt 0))]])];
     OObj [(u "id", OLeaf (JInt 8)); (u "orders", OArr [OObj [(u "id", OLeaf (JStr (u "a")))]])]])]).
Proof. vm_compute. reflexivity. Qed.

(** *** What does not survive in ODS documents.  True: the cell is read as the float
    1.0, the text of which is no truth value *)
Definition b_docs (fields : list (str * jv)) : list jobj := [(u "id", en 7) :: fields].
Definition o_result (docs : list jobj) : option jout := json_result (unflatten_file (b_world (o_book docs) []) (b_back (u "ods"))).
Notation o_conditions docs := (documents (BD docs) docs /\ ods_ready (BD docs) (writer_opts (b_opts (u "ods")) LF) b_wenv docs b_ods b_ods_back /\
  ods_file b_ods (b_world (o_book docs) []) (u "in") (o_sheets docs) /\ Forall (fun d => numbers_finite (JO d)) docs).
Ltac o_all := split; [apply documents_check; vm_compute; reflexivity|]; split; [apply ods_ready_check; [vm_compute; reflexivity|vm_compute; reflexivity|b_all|b_all]|];
  split; [unfold ods_file; vm_compute; reflexivity|]; repeat (apply Forall_cons; [apply finite_check; vm_compute; reflexivity|]); apply Forall_nil.
Theorem C68_true_refuted : let docs := b_docs [(u "paid", JS (SBool true))] in o_conditions docs /\
  o_result docs = Some (OObj [(u "main", OArr [OObj [(u "id", OLeaf (JInt 7)); (u "paid", OLeaf (JStr (u "1.0")))]])]).
Proof. cbv zeta. split; [o_all|vm_compute; reflexivity]. Qed.
Print Assumptions C68_true_refuted.
(** a text that is a number *)
Theorem C68_digits_refuted : let docs := b_docs [(u "name", et "007")] in o_conditions docs /\
  o_result docs = Some (OObj [(u "main", OArr [OObj [(u "id", OLeaf (JInt 7)); (u "name", OLeaf (JStr (u "7.0")))]])]).
Proof. cbv zeta. split; [o_all|vm_compute; reflexivity]. Qed.
Print Assumptions C68_digits_refuted.
(** sheets whose names have the same first 31 characters: the second one is read in
    the place of the first *)
Definition t_key (c : string) : str := u "contacts_of_the_organisation_and_" ++ u c.
Definition t_docs : list jobj := b_docs [(t_key "a", JA [JO [(u "id", et "x")]]); (t_key "b", JA [JO [(u "id", et "y")]])].
Theorem C68_titles_refuted : documents (BD t_docs) t_docs /\ o_survive t_docs /\ map fst (o_sheets t_docs) = [u "main"; u "contacts_of_the_organisation_an"; u "contacts_of_the_organisation_an"; u "orders"] /\
  ods_file b_ods (b_world (o_book t_docs) []) (u "in") (o_sheets t_docs) /\
  o_result t_docs = Some (OObj [(u "main", OArr [OObj [(u "id", OLeaf (JInt 7)); (t_key "b", OArr [OObj [(u "id", OLeaf (JStr (u "y")))]])]])]).
Proof.
  split; [apply documents_check; vm_compute; reflexivity|]. split; [apply survive_check; vm_compute; reflexivity|]. split; [vm_compute; reflexivity|]. split; [unfold ods_file; vm_compute; reflexivity|vm_compute; reflexivity].
Qed.
Print Assumptions C68_titles_refuted.
