(** C15-C19: cells, types, JSON, totality and sheet configuration.
    The notions used in the statements are in Spec/Conversion.v, Spec/Source.v,
    Spec/Plain.v, Spec/Ids.v ([inside]) and Spec/SheetConf.v. *)
From Coq Require Import String.
From Verif.Base Require Import PyStr PyNum PyVal PyDict Outcome.
From Verif.Model Require Import Warn Lib Convert Json Input.
From Verif.Spec Require Import Ids Conversion Source Plain SheetConf.
From Verif.Tests Require Import TestLib.
From Verif.Proofs Require Import DecStr DecText ConvertFacts RunSource Total SheetConfFacts.

(** ** C15 *)
Theorem C15_convert : forall (E : conv_env) ty s, In ty value_types -> blank s = false -> ordinary s ->
  (exists r, convert_type E ty (CV s) = Ok r [] /\ denotes E ty s r) \/
  (exists r x, convert_type E ty (CV s) = Ok r [x] /\ kept_as_text E ty s r x).
Proof. exact convert_spec. Qed.
Print Assumptions C15_convert.
Theorem C15_blank : forall (E : conv_env) ty s, blank s = true -> convert_type E ty (CV s) = Ok (CV SNone) [].
Proof. exact convert_blank. Qed.
Print Assumptions C15_blank.
Theorem C15_geojson : forall (E : conv_env) s, blank s = false -> ce_wkt E = true ->
  (geo_available E = true -> wkt_loads E s <> WktRaise) ->
  (exists g, geo_available E = true /\ wkt_loads E s = WktOk g /\ convert_type E (u "geojson") (CV s) = Ok (CGeo g) []) \/
  (geo_available E = true /\ wkt_loads E s = WktBad /\ convert_type E (u "geojson") (CV s) = Ok (CV SNone) [WBadWkt (CV s)]) \/
  (geo_available E = false /\ convert_type E (u "geojson") (CV s) = Ok (CV (SStr (py_str E s))) [WGeoDependencies]).
Proof. exact convert_geojson. Qed.
Print Assumptions C15_geojson.
(** an infinite number in a cell makes conversion fail *)
Theorem C15_infinity_refuted : exists (E : conv_env) ty s e w, In ty value_types /\ blank s = false /\
  convert_type E ty (CV s) = Raise e w.
Proof.
  exists test_cenv, (u "integer"), (SFlt (FInf false)), EOverflowError, []. vm_compute. tauto.
Qed.
Print Assumptions C15_infinity_refuted.
Example C15_convert_meets : In (u "number") value_types /\ blank (SStr (u "12.50")) = false /\ ordinary (SStr (u "12.50")) /\
  convert_type test_cenv (u "number") (CV (SStr (u "12.50"))) = Ok (CV (SDec (DFin false 1250 (-2)))) [] /\
  convert_type test_cenv (u "number") (CV (SStr (u "a lot"))) = Ok (CV (SStr (u "a lot"))) [WNonNumeric (CV (SStr (u "a lot")))] /\
  convert_type test_cenv (u "array") (CV (SStr (u "a,b;c"))) = Ok (CList2 [[SStr (u "a"); SStr (u "b")]; [SStr (u "c")]]) [].
Proof. vm_compute. tauto. Qed.
Example C15_geojson_meets : forall (E : conv_env), ce_wkt E = true -> geo_available E = false ->
  blank (SStr (u "POINT (1 2)")) = false /\ (geo_available E = true -> wkt_loads E (SStr (u "POINT (1 2)")) <> WktRaise).
Proof. intros E _ H. split; [reflexivity|congruence]. Qed.

(** ** C16 *)
Theorem C16_decimal_text : forall neg coef exp, parse_dec (dec_str (DFin neg coef exp)) = Some (DFin neg coef exp).
Proof. exact parse_dec_str. Qed.
Print Assumptions C16_decimal_text.
(** infinities and NaNs too *)
Theorem C16_any_decimal_text : forall d, parse_dec (dec_str d) = Some d.
Proof. exact dec_text. Qed.
Print Assumptions C16_any_decimal_text.
(** integers too *)
Theorem C16_integer_text : forall z, parse_int (Z_str z) = Some z.
Proof. exact parse_int_Z_str. Qed.
Print Assumptions C16_integer_text.
Example C16_case : dec_str (DFin true 1250 (-2)) = u "-12.50" /\ dec_str (DFin false 5 (-10)) = u "5E-10" /\
  dec_str (DFin false 12 3) = u "1.2E+4".
Proof. vm_compute. tauto. Qed.

(** ** C17 *)
Theorem C17_leaves : forall O sheets r w, unflatten O sheets = Ok r w ->
  forall v, inside (VLeaf v) (VList r) -> out_value v.
Proof. exact leaves_out. Qed.
Print Assumptions C17_leaves.
Theorem C17_serialises : forall O sheets r w, unflatten O sheets = Ok r w ->
  forall v, inside (VLeaf v) (VList r) ->
  (forall path, o_types O path = []) \/ finite_cell v = true -> exists j, json_cell (o_conv O) v = Ok j [].
Proof. exact leaves_json. Qed.
Print Assumptions C17_serialises.
Theorem C17_integral : forall n c e,
  (exists z, py_eqb (SInt z) (SDec (DFin n c e)) = true /\ json_decimal (DFin n c e) = Ok (JInt z) []) \/
  ((forall z, py_eqb (SInt z) (SDec (DFin n c e)) = false) /\ json_decimal (DFin n c e) = Ok (JDouble (DFin n c e)) []).
Proof. exact json_decimal_integral. Qed.
Print Assumptions C17_integral.
Definition nan_opts : opts :=
  {| o_conv := test_cenv; o_types := fun p => if str_eqb p (u "amount") then u "number" else []; o_root_id := [];
     o_id_name := u "id"; o_xml := false; o_vertical := false |}.
Definition nan_sheet (t : string) : sheet_in :=
  {| si_name := u "s"; si_headings := None; si_lines := [[(SStr (u "amount"), SStr (u t))]] |}.
(** the text "NaN" in a number column unflattens, but the result cannot be written *)
Theorem C17_nan_refuted : exists O sheets r w v e w', unflatten O sheets = Ok r w /\ inside (VLeaf v) (VList r) /\
  json_cell (o_conv O) v = Raise e w'.
Proof.
  exists nan_opts, [nan_sheet "NaN"]. do 2 eexists. exists (CV (SDec (DNan false false 0))), EValueError, [].
  split; [vm_compute; reflexivity|]. split; [|reflexivity].
  eapply in_list; [left; reflexivity|left; reflexivity|constructor].
Qed.
Print Assumptions C17_nan_refuted.
Example C17_serialises_meets : exists r w, unflatten nan_opts [nan_sheet "12.0"] = Ok r w /\
  inside (VLeaf (CV (SDec (DFin false 120 (-1))))) (VList r) /\ finite_cell (CV (SDec (DFin false 120 (-1)))) = true /\
  json_cell test_cenv (CV (SDec (DFin false 120 (-1)))) = Ok (JInt 12) [].
Proof.
  do 2 eexists. split; [vm_compute; reflexivity|].
  split; [eapply in_list; [left; reflexivity|left; reflexivity|constructor]|]. vm_compute. tauto.
Qed.

(** ** C18 *)
Theorem C18_total : forall O, (forall p, o_types O p = []) -> o_xml O = false ->
  forall sheets, (forall s, In s sheets -> readable O s) -> exists r w, unflatten O sheets = Ok r w.
Proof. exact unflatten_total. Qed.
Print Assumptions C18_total.
Definition tab (h : string) (v : scalar) : sheet_in :=
  {| si_name := u "s"; si_headings := Some [SStr (u h)]; si_lines := [[(SStr (u h), v)]] |}.
(** a column inside the id crashes *)
Theorem C18_id_object_refuted : exists O sheets e w, (forall p, o_types O p = []) /\ o_xml O = false /\
  unflatten O sheets = Raise e w.
Proof.
  exists (test_opts []), [tab "id/x" (SStr (u "1"))], EAttributeError, []. vm_compute. tauto.
Qed.
Print Assumptions C18_id_object_refuted.
Example C18_total_meets : forall s, In s [tab "a/0/id" (SInt 3); tab "id" (SStr (u "1")); tab "a//0//b" (SBool true)] ->
  readable (test_opts []) s.
Proof.
  assert (H : forall t v, no_inf v -> id_is_leaf (u "id") (path_items test_cenv (SStr (u t))) -> readable (test_opts []) (tab t v)).
  { intros t v Hv Ht line [<-|[]]. split; [intros hs [= <-]; auto|]. intros h x [Q|[]]. injection Q as <- <-. auto. }
  intros s [<-|[<-|[<-|[]]]]; apply H; try exact I; vm_compute; repeat split; intros Q; discriminate Q.
Qed.

(** ** C19 *)
Theorem C19_configuration : forall l,
  exists c, parse_sheet_configuration (map SStr l) empty_conf = Ok c [] /\ conf_means l c.
Proof. exact parse_sheet_configuration_means. Qed.
Print Assumptions C19_configuration.
Theorem C19_clamped : forall l c, conf_means l c ->
  (forall z, sc_skip c = Some z -> (0 <= z)%Z) /\ (forall z, sc_header c = Some z -> (1 <= z)%Z).
Proof. exact parse_sheet_configuration_clamped. Qed.
Print Assumptions C19_clamped.
Example C19_case : parse_sheet_configuration (map SStr [u "SkipRows 3"; u " skiprows  -2 "; u "skiprows x"; u "headerrows 0"; u "ignore"; u "other 2"]) empty_conf
  = Ok {| sc_skip := Some 0%Z; sc_header := Some 1%Z; sc_ignore := true; sc_hash := false; sc_xmlroot := None; sc_rootlist := None; sc_idname := None |} [].
Proof. vm_compute. reflexivity. Qed.
(** a cell that is not text (possible in XLSX and ODS files) makes parsing fail *)
Theorem C19_non_text_refuted : exists l e w, parse_sheet_configuration l empty_conf = Raise e w.
Proof. exists [SStr (u "skipRows 1"); SInt 3], EAttributeError, []. reflexivity. Qed.
Print Assumptions C19_non_text_refuted.
