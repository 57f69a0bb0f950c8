(** C65, C66: JSON as text.  What JSON is and says, RFC 8259: Spec/JsonGrammar.v;
    the same data, digits of numbers: Spec/JsonTrip.v. *)
From Coq Require Import String QArith Qpower Permutation Lia.
From Verif.Base Require Import PyStr PyNum PyVal PyDict Outcome.
From Verif.Model Require Import Warn Lib Convert Input Json Flatten Readers Csv Output Schema Commands JsonText.
From Verif.Spec Require Import Sites Paths Grids CsvText Written Commands RoundTrip Typed.
From Verif.Tests Require Import TestLib FlattenLib CommandLib.
From Verif.Spec Require Import Paths RoundTrip Typed Trip JsonGrammar JsonTrip.
From Verif.Proofs Require Import TripCheck JsonScan JsonSound JsonWrite JsonTexts TextTrip.
From Verif.Props Require Import EndToEnd.
Local Open Scope list_scope.

(** ** C65: what [unflatten] writes is JSON, and says just the data *)
Theorem C65_written T j v : out_tells T false j v -> document_says false (json_text T j) v.
Proof. exact (text_says T false j v). Qed.
Print Assumptions C65_written.
(** all data says something, NaN and infinities excepted *)
Theorem C65_always T j : floats_are_json (te_env T) -> plain_out T j -> exists v, out_tells T false j v.
Proof. exact (out_always T false j). Qed.
Print Assumptions C65_always.
(** it says nothing else *)
Theorem C65_one_meaning lax lax' t v v' : document_says lax t v -> document_says lax' t v' -> v = v'.
Proof. exact (one_meaning lax lax' t v v'). Qed.
Print Assumptions C65_one_meaning.
(** base JSON: every JSON text is read, as what it says (of a key given twice the
    last value counts) *)
Theorem C65_read t v : document_says false t v -> exists w, loads t = Some w /\ last_counts v w.
Proof. exact (any_loaded false t v). Qed.
Print Assumptions C65_read.
Theorem C65_read_once t v : document_says false t v -> keys_once v -> loads t = Some v.
Proof. exact (document_loaded false t v). Qed.
Print Assumptions C65_read_once.
(** nothing but JSON is read, the words NaN, Infinity and -Infinity excepted *)
Theorem C65_only t w : loads t = Some w -> exists v, document_says true t v /\ last_counts v w.
Proof. exact (only_json t w). Qed.
Print Assumptions C65_only.
(** what [unflatten] has written can be read again as it was (also with the odd
    words) *)
Theorem C65_back T lax j v : out_tells T lax j v -> keys_once v -> loads (json_text T j) = Some v.
Proof. exact (text_loads T lax j v). Qed.
Print Assumptions C65_back.
(** a NaN or an infinity is written as a word that is not JSON *)
Theorem C65_not_json T j v : out_tells T true j v -> has_odd v -> forall y, ~ document_says false (json_text T j) y.
Proof. exact (text_odd T j v). Qed.
Print Assumptions C65_not_json.

(** *** Some floats as Python writes them *)
Definition j_floats : list (scalar * str) := [(SDec (DFin false 125 (-2)), u "1.25"); (SInt 7, u "7.0"); (SInt 8, u "8.0"); (SInt 3, u "3.0"); (SInt 100000000000000000000, u "1e+20")].
Definition j_float (f : flt) : str := match find (fun x => py_eqb (SFlt f) (fst x)) j_floats with Some x => snd x | None => u "0.0" end.
Definition j_tenv : tenv :=
  {| te_env := {| float_str := j_float; dt_str := dt_str test_env; dt_date_iso := dt_date_iso test_env; dt_local_iso := dt_local_iso test_env; geo_available := false; wkt_loads := fun _ => WktBad |};
     te_double := fun d => if py_eqb (SDec d) (SDec (DFin false 125 (-2))) then FFin false 5 (-2) else FFin false 0 0;
     te_geo := fun _ => JO [(u "type", JS (SStr (u "Point")))] |}.
Lemma j_number t v : scan_number t = Some (v, []) -> number_says t v.
Proof. intros H. destruct (number_sound t v [] H) as (t' & E & Ht). rewrite app_nil_r in E. subst t'. exact Ht. Qed.
Example j_floats_json : floats_are_json (te_env j_tenv).
Proof.
  intros n m x. cbn [te_env j_tenv float_str]. unfold j_float.
  destruct (find (fun x0 => py_eqb (SFlt (FFin n m x)) (fst x0)) j_floats) as [[s t]|] eqn:E; [|eexists; apply j_number; vm_compute; reflexivity].
  apply find_some in E as [E _]. unfold j_floats in E. cbn [In] in E. repeat (destruct E as [[= <- <-]|E]; [eexists; apply j_number; vm_compute; reflexivity|]). destruct E.
Qed.
(** what is written for data with all kinds of values *)
Definition j_data : jout := OObj [
  (u "main", OArr [OObj [(u "id", OLeaf (JInt 7)); (u "a ""b""\", OLeaf (JStr [104; 233; 10; 31; 128512]%N)); (u "price", OLeaf (JDouble (DFin false 125 (-2)))); (u "none", OLeaf JNull);
                         (u "tags", OLeaf (JArr [JStr (u "x"); JBool true])); (u "at", OLeaf (JGeo (u "POINT (0 0)"))); (u "e", OArr [])]]);
  (u "big", OLeaf (JFlt (FFin false 95367431640625 20)))].
Definition j_value : jval := VObj [
  (u "main", VArr [VObj [(u "id", VInt 7); (u "a ""b""\", VStr [104; 233; 10; 31; 128512]%N); (u "price", VReal false 125 (-2)); (u "none", VNull);
                         (u "tags", VArr [VStr (u "x"); VBool true]); (u "at", VObj [(u "type", VStr (u "Point"))]); (u "e", VArr [])]]);
  (u "big", VReal false 1 20)].
Example C65_meets : out_tells j_tenv false j_data j_value /\ plain_out j_tenv j_data /\ keys_once j_value.
Proof.
  assert (keys_once j_value) as Hk.
  { repeat first [apply ko_object; [repeat (constructor; [cbn; intuition discriminate|]); constructor|repeat apply Forall_cons; try apply Forall_nil; cbn [snd]]
                 |apply ko_array; repeat apply Forall_cons; try apply Forall_nil|apply ko_other; exact I]. }
  split; [|split; [|exact Hk]].
  - repeat first [apply ot_object; repeat apply Forall2_cons; try apply Forall2_nil; (split; [reflexivity|cbn [snd]])|apply ot_array; repeat apply Forall2_cons; try apply Forall2_nil|apply ot_leaf].
    all: try (constructor; fail).
    + apply lt_double. cbn. apply tl_float. apply j_number. vm_compute. reflexivity.
    + apply lt_array. repeat constructor.
    + apply lt_geometry. cbn. apply tl_object. constructor; [|constructor]. split; [reflexivity|constructor].
    + apply lt_float. apply tl_float. apply j_number. vm_compute. reflexivity.
  - repeat first [apply po_object; repeat apply Forall_cons; try apply Forall_nil; cbn [snd]|apply po_array; repeat apply Forall_cons; try apply Forall_nil|apply po_leaf].
    all: try (apply pl_other; exact I).
    + apply pl_double. apply pd_scalar. exact I.
    + apply pl_array. repeat apply Forall_cons; try apply Forall_nil; apply pl_other; exact I.
    + apply pl_geometry. cbn. apply pd_object. constructor; [apply pd_scalar; exact I|constructor].
    + apply pl_float. apply pd_scalar. exact I.
Qed.
Example C65_text : json_text j_tenv j_data = u "{
    ""main"": [
        {
            ""id"": 7,
            ""a \""b\""\\"": ""h" ++ [233%N] ++ u "\n\u001f" ++ [128512%N] ++ u """,
            ""price"": 1.25,
            ""none"": null,
            ""tags"": [
                ""x"",
                true
            ],
            ""at"": {
                ""type"": ""Point""
            },
            ""e"": []
        }
    ],
    ""big"": 1e+20
}".
Proof. vm_compute. reflexivity. Qed.
(** a text with escapes, a key given twice and space *)
Example C65_reads : let t := u " {""\u0061"" : [1, -2.50E1,""\ud83d\ude00\/""] ,""b"":{}, ""a"":null}" in
  document_says false t (VObj [(u "a", VArr [VInt 1; VReal true 250 (-1); VStr [128512; 47]%N]); (u "b", VObj []); (u "a", VNull)]) /\
  loads t = Some (VObj [(u "a", VNull); (u "b", VObj [])]).
Proof. split; [apply read_check; vm_compute; reflexivity|vm_compute; reflexivity]. Qed.
(** NaN in the base JSON ends up in the output: the text written is not JSON *)
Definition j_base : str := u "{""rate"": NaN}".
Theorem C65_nan_refuted : loads j_base = Some (VObj [(u "rate", VOdd (u "NaN"))]) /\
  exists w t, unflatten_file (test_world [(u "main", [[SStr (u "id")]; [SStr (u "1")]])] (JO [(u "rate", JS (SFlt FNan))]) (JS SNone) e_schema)
      (with_base (u "base.json") (CommandLib.unflatten_opts (u "csv"))) = Ok tt w /\
    text_out j_tenv w (Some (u "out.json")) t /\ forall y, ~ document_says false t y.
Proof.
  split; [vm_compute; reflexivity|]. eexists. eexists. split; [vm_compute; reflexivity|]. split.
  - eexists. split; [|reflexivity]. split; [unfold Commands.written; cbn; right; right; left; reflexivity|].
    intros f j H. cbn in H. repeat (destruct H as [H|H]; [try discriminate H|]); try (exfalso; exact H). injection H as <- <-. auto.
  - apply (text_odd j_tenv _ (VObj [(u "rate", VOdd (u "NaN")); (u "main", VArr [VObj [(u "id", VStr (u "1"))]])])).
    + apply ot_object. apply Forall2_cons; [split; [reflexivity|]|].
      * apply ot_leaf. apply lt_float. apply tl_nan. reflexivity.
      * apply Forall2_cons; [split; [reflexivity|]|apply Forall2_nil]. apply ot_array. apply Forall2_cons; [|apply Forall2_nil]. apply ot_object.
        apply Forall2_cons; [split; [reflexivity|]|apply Forall2_nil]. apply ot_leaf. cbn [snd]. constructor.
    + eapply ho_object; [left; reflexivity|]. constructor.
Qed.
Print Assumptions C65_nan_refuted.

(** ** C66: [flatten] and then [unflatten], from one JSON text to the other *)
Theorem C66_text Wd F schema T t0 v0 ks rs docs tm : to_csv F -> schema_read Wd (f_local_off F) (f_schema F) (flatten_schema_opts Wd F) schema ->
  file_has Wd (f_input F) t0 -> document_says false t0 v0 -> keys_once v0 -> no_halves v0 -> place_of F (data_of v0) ks -> value_at v0 ks = Some (VArr rs) ->
  map data_of rs = map JO docs -> sget (f_term F) terminators = Some tm ->
  whole (Trip.flatten_opts Wd F schema) -> documents (Trip.flatten_opts Wd F schema) docs -> csv_ready (Trip.flatten_opts Wd F schema) (writer_opts F tm) (wd_wenv Wd) docs ->
  exists w, flatten_file Wd F = Ok tt w /\ forall Wd' U schema',
    from_csv U -> u_input U = output_dir F -> directory_has Wd' (u_input U) (texts_written w) ->
    schema_read Wd' (u_local_off U) (u_schema U) (unflatten_schema_opts Wd' U) schema' ->
    survive (Trip.flatten_opts Wd F schema) (Trip.unflatten_opts Wd' U schema') (csv_cell (wd_wenv Wd)) docs -> all_digits_kept T (VArr rs) ->
    exists w' t1 v1 ms, unflatten_file Wd' U = Ok tt w' /\ text_out T w' (u_output U) t1 /\ document_says false t1 v1 /\ loads t1 = Some v1 /\
      v1 = (if u_root_list U then VArr ms else VObj [(root_path U empty_conf, VArr ms)]) /\ same_data (@Permutation jval) (VArr rs) (VArr ms).
Proof. exact (text_any Wd F schema T t0 v0 ks rs docs tm). Qed.
Print Assumptions C66_text.
(** in the same order, when the file of the main sheet comes first in the directory *)
Theorem C66_ordered Wd F schema T t0 v0 ks rs docs tm : to_csv F -> schema_read Wd (f_local_off F) (f_schema F) (flatten_schema_opts Wd F) schema ->
  file_has Wd (f_input F) t0 -> document_says false t0 v0 -> keys_once v0 -> no_halves v0 -> place_of F (data_of v0) ks -> value_at v0 ks = Some (VArr rs) ->
  map data_of rs = map JO docs -> sget (f_term F) terminators = Some tm ->
  whole (Trip.flatten_opts Wd F schema) -> documents (Trip.flatten_opts Wd F schema) docs -> csv_ready (Trip.flatten_opts Wd F schema) (writer_opts F tm) (wd_wenv Wd) docs ->
  main_first (Trip.flatten_opts Wd F schema) (writer_opts F tm) docs -> roots_together (Trip.flatten_opts Wd F schema) docs -> short_names (Trip.flatten_opts Wd F schema) docs ->
  exists w, flatten_file Wd F = Ok tt w /\ forall Wd' U schema',
    from_csv U -> u_input U = output_dir F -> directory_has Wd' (u_input U) (texts_written w) ->
    schema_read Wd' (u_local_off U) (u_schema U) (unflatten_schema_opts Wd' U) schema' ->
    survive (Trip.flatten_opts Wd F schema) (Trip.unflatten_opts Wd' U schema') (csv_cell (wd_wenv Wd)) docs -> all_digits_kept T (VArr rs) ->
    exists w' t1 v1 ms, unflatten_file Wd' U = Ok tt w' /\ text_out T w' (u_output U) t1 /\ document_says false t1 v1 /\ loads t1 = Some v1 /\
      v1 = (if u_root_list U then VArr ms else VObj [(root_path U empty_conf, VArr ms)]) /\ same_data eq (VArr rs) (VArr ms).
Proof. exact (text_ordered Wd F schema T t0 v0 ks rs docs tm). Qed.
Print Assumptions C66_ordered.

(** *** The documents of C51, as a text *)
Definition j_text : str := u "{""version"": ""1"", ""data"": {""list"": [
  {""id"": 7, ""name"": ""Ann \""A\"", \u0042"", ""paid"": true, ""at"": {""town"": ""X""},
   ""orders"": [{""id"": ""a"", ""price"": 1.25, ""tags"": [""x"", ""y z""]}, {""id"": ""b"", ""price"": 3}]},
  {""id"": 8, ""orders"": [{""id"": ""a""}]}
]}}".
Definition j_records : list jval :=
  [VObj [(u "id", VInt 7); (u "name", VStr (u "Ann ""A"", B")); (u "paid", VBool true); (u "at", VObj [(u "town", VStr (u "X"))]);
         (u "orders", VArr [VObj [(u "id", VStr (u "a")); (u "price", VReal false 125 (-2)); (u "tags", VArr [VStr (u "x"); VStr (u "y z")])]; VObj [(u "id", VStr (u "b")); (u "price", VInt 3)]])];
   VObj [(u "id", VInt 8); (u "orders", VArr [VObj [(u "id", VStr (u "a"))]])]].
Definition j_doc : jval := VObj [(u "version", VStr (u "1")); (u "data", VObj [(u "list", VArr j_records)])].
Example j_says : document_says false j_text j_doc /\ data_of j_doc = JO [(u "version", et "1"); (u "data", JO [(u "list", JA (map JO e_docs))])] /\
  value_at j_doc [u "data"; u "list"] = Some (VArr j_records) /\ map data_of j_records = map JO e_docs.
Proof. split; [apply read_check; vm_compute; reflexivity|]. split; [reflexivity|]. split; reflexivity. Qed.
Lemma half_check s : forallb (fun c => (c <? 55296) || (57343 <? c))%N s = true -> no_half s.
Proof. intros H. apply Forall_forall. intros c Hc. rewrite forallb_forall in H. specialize (H c Hc). apply orb_true_iff in H as [H|H]; apply N.ltb_lt in H; auto. Qed.
Example j_fine : keys_once j_doc /\ no_halves j_doc /\ file_has (e_world e_docs) (u "in.json") j_text.
Proof.
  split; [|split].
  - unfold j_doc, j_records. repeat first [apply ko_object; [repeat (constructor; [cbn; intuition discriminate|]); constructor|repeat apply Forall_cons; try apply Forall_nil; cbn [snd]]
                 |apply ko_array; repeat apply Forall_cons; try apply Forall_nil|apply ko_other; exact I].
  - unfold j_doc, j_records. repeat first [apply nh_object; repeat apply Forall_cons; try apply Forall_nil; (split; [apply half_check; reflexivity|cbn [snd]])
                 |apply nh_array; repeat apply Forall_cons; try apply Forall_nil|apply nh_str; apply half_check; reflexivity|apply nh_other; exact I].
  - intros v H _ _. rewrite (one_meaning _ _ _ _ _ H (proj1 j_says)). reflexivity.
Qed.
Lemma j_found f p q : num_val (SFlt f) = Some (XFin p) -> (p == q)%Q -> forall s r, num_val s = Some (XFin r) -> py_eqb (SFlt f) s = Qeq_bool q r.
Proof. intros E H s r Es. unfold py_eqb. rewrite E, Es. cbn [xnum_eqb]. destruct (Qeq_bool p r) eqn:A, (Qeq_bool q r) eqn:B; try reflexivity; exfalso.
  - apply Qeq_bool_iff in A. apply Qeq_bool_neq in B. apply B. rewrite <- H. exact A.
  - apply Qeq_bool_iff in B. apply Qeq_bool_neq in A. apply A. rewrite H. exact B.
Qed.
Fixpoint values_of (v : jval) : list jval :=
  v :: match v with VArr l => flat_map values_of l | VObj d => flat_map (fun kx => values_of (snd kx)) d | _ => [] end.
Lemma values_all x v : value_in x v -> In x (values_of v).
Proof.
  induction 1 as [|l y Hy _ IH|d k y Hy _ IH]; [destruct x; left; reflexivity| |]; right; apply in_flat_map; [exists y|exists (k, y)]; split; assumption.
Qed.
Lemma j_kept v q t b : quantity v = Some q -> scan_number t = Some (b, []) -> same_number v b ->
  (forall f p, num_val (SFlt f) = Some (XFin p) -> (p == q)%Q -> j_float f = t) -> (forall d p, num_val (SDec d) = Some (XFin p) -> (p == q)%Q -> (forall z, ~ (q == inject_Z z)%Q) ->
     exists n m x, te_double j_tenv d = FFin n m x /\ j_float (FFin n m x) = t) -> digits_kept j_tenv v.
Proof.
  intros Eq Et Hs Hf Hd f (q' & E' & H). rewrite Eq in E'. injection E' as <-. destruct H as [(d & p & -> & Ep & Epq & Hz)|(p & Ep & Epq)].
  - destruct (Hd d p Ep Epq Hz) as (n & m & x & E & Ex). exists n, m, x, b. split; [exact E|]. split; [|exact Hs]. rewrite E. cbn [te_env j_tenv float_str]. rewrite Ex. apply j_number. exact Et.
  - destruct f as [n m x|n|]; try discriminate Ep. exists n, m, x, b. split; [reflexivity|]. split; [|exact Hs]. cbn [te_env j_tenv float_str]. rewrite (Hf _ p Ep Epq). apply j_number. exact Et.
Qed.
Example j_digits : all_digits_kept j_tenv (VArr j_records).
Proof.
  intros x Hx. apply values_all in Hx.
  assert (quantity x = None \/ In x [VInt 7; VInt 8; VInt 3; VReal false 125 (-2)]) as H.
  { cbn in Hx. repeat (destruct Hx as [<-|Hx]; [first [left; reflexivity|right; cbn; tauto]|]). destruct Hx. }
  assert (forall f p q, num_val (SFlt f) = Some (XFin p) -> (p == q)%Q -> j_float f = match find (fun x => Qeq_bool q (snd x)) (map (fun x => (snd x, match num_val (fst x) with Some (XFin r) => r | _ => 0%Q end)) j_floats) with Some x => fst x | None => u "0.0" end) as HF.
  { intros f p q E H0. unfold j_float, j_floats. cbn [find map fst snd]. rewrite (j_found f p q E H0 (SDec (DFin false 125 (-2))) _ eq_refl), !(fun z => j_found f p q E H0 (SInt z) _ eq_refl). cbn [num_val dec_Q].
    repeat (match goal with |- context [if Qeq_bool ?a ?b then _ else _] => destruct (Qeq_bool a b); [reflexivity|] end). reflexivity. }
  destruct H as [H|H]; [intros f (q & E & _); congruence|].
  cbn [In] in H. destruct H as [<-|[<-|[<-|[<-|[]]]]].
  - apply (j_kept (VInt 7) _ (u "7.0") (VReal false 70 (-1)) eq_refl eq_refl); [exists (inject_Z 7); eexists; split; [reflexivity|]; split; reflexivity|intros f p E H; rewrite (HF f p _ E H); reflexivity|].
    intros d p _ _ H. exfalso. apply (H 7%Z). reflexivity.
  - apply (j_kept (VInt 8) _ (u "8.0") (VReal false 80 (-1)) eq_refl eq_refl); [exists (inject_Z 8); eexists; split; [reflexivity|]; split; reflexivity|intros f p E H; rewrite (HF f p _ E H); reflexivity|].
    intros d p _ _ H. exfalso. apply (H 8%Z). reflexivity.
  - apply (j_kept (VInt 3) _ (u "3.0") (VReal false 30 (-1)) eq_refl eq_refl); [exists (inject_Z 3); eexists; split; [reflexivity|]; split; reflexivity|intros f p E H; rewrite (HF f p _ E H); reflexivity|].
    intros d p _ _ H. exfalso. apply (H 3%Z). reflexivity.
  - apply (j_kept (VReal false 125 (-2)) _ (u "1.25") (VReal false 125 (-2)) eq_refl eq_refl); [eexists; eexists; split; [reflexivity|]; split; reflexivity|intros f p E H; rewrite (HF f p _ E H); reflexivity|].
    intros d p E H _. exists false, 5%N, (-2)%Z. split; [|reflexivity]. cbn [te_double j_tenv]. assert (py_eqb (SDec d) (SDec (DFin false 125 (-2))) = true) as ->; [|reflexivity].
    unfold py_eqb. rewrite E. cbn [num_val dec_Q xnum_eqb]. apply Qeq_bool_iff. rewrite H. reflexivity.
Qed.
(** all conditions together, and the text that is written *)
Example C66_meets : exists w w' ms, flatten_file (e_world e_docs) e_opts = Ok tt w /\ unflatten_file (e_after e_docs e_opts) e_back = Ok tt w' /\
  text_out j_tenv w' (Some (u "out.json")) (u "{
    ""main"": [
        {
            ""id"": 7,
            ""name"": ""Ann \""A\"", B"",
            ""paid"": true,
            ""at"": {
                ""town"": ""X""
            },
            ""orders"": [
                {
                    ""id"": ""a"",
                    ""price"": 1.25,
                    ""tags"": [
                        ""x"",
                        ""y z""
                    ]
                },
                {
                    ""id"": ""b"",
                    ""price"": 3
                }
            ]
        },
        {
            ""id"": 8,
            ""orders"": [
                {
                    ""id"": ""a""
                }
            ]
        }
    ]
}") /\ same_data eq (VArr j_records) (VArr ms).
Proof.
  destruct j_says as (H1 & H2 & H3 & H4). destruct j_fine as (H5 & H6 & H7). destruct e_back_ok as (B1 & B2 & B3). destruct e_schema_read as [S1 S2].
  destruct e_in_order as (M1 & M2 & M3). destruct e_csv_ready as [C1 C2].
  destruct (C66_ordered (e_world e_docs) e_opts e_fschema j_tenv j_text j_doc [u "data"; u "list"] j_records e_docs LF e_to_csv S1 H7 H1 H5 H6) as (w & Hw & Hback); try assumption.
  { rewrite H2. exact e_place. }
  { exact e_whole. }
  { exact e_documents. }
  rewrite Hw in B3. cbn [warns] in B3.
  destruct (Hback (e_after e_docs e_opts) e_back e_uschema B1 B2 B3 S2 (proj1 e_survive) j_digits) as (w' & t1 & v1 & ms & Hu & Ho & _ & _ & _ & Hs).
  exists w, w', ms. split; [exact Hw|]. split; [exact Hu|]. split; [|exact Hs]. destruct e_result as (w2 & Hu2 & Hj). rewrite Hu in Hu2. injection Hu2 as <-.
  eexists. split; [exact Hj|]. vm_compute. reflexivity.
Qed.
