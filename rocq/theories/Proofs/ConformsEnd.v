(** Round trips of documents that conform to the schema. *)
From Coq Require Import Permutation.
From Verif.Base Require Import PyStr PyNum PyVal PyDict Outcome.
From Verif.Model Require Import Lib Convert Input Flatten Readers Csv Output Schema Commands.
From Verif.Spec Require Import Sites Paths SchemaFields Written Commands RoundTrip Typed Trip Conforms.
From Verif.Proofs Require Import RtTyped SchemaTotal TripEnd Conforms.

Section E.
  Variables (Wd : world) (F : flopts) (schema : option sps) (docs : list jobj).
  Variables (Wd' : world) (U : uopts) (S : sv).
  Notation SO := (unflatten_schema_opts Wd' U).
  Hypothesis HD : documents (flatten_opts Wd F schema) docs.
  Hypothesis HU : u_schema U <> [].
  Hypothesis HS : wd_schema Wd' (u_local_off U) (u_schema U) = inr S.
  Hypothesis HF : fine_schema SO S.
  Hypothesis HP : plain_schema SO S.
  Hypothesis HV : Forall (valid SO S) docs.
  Hypothesis Hi : f_id_name F = id_name_used U empty_conf.
  Hypothesis Hr : f_root_id F = u_root_id U.
  Hypothesis Hin : forall T, within SO S T -> not_typed SO T (f_id_name F) [u "number"].
  Hypothesis Hrn : not_typed SO S (f_root_id F) [u "number"; u "boolean"].
  Lemma conforming : exists st, schema_read Wd' (u_local_off U) (u_schema U) SO (Some st) /\
    survive (flatten_opts Wd F schema) (unflatten_opts Wd' U (Some st)) (csv_cell (wd_wenv Wd)) docs /\ Forall (fun d => numbers_finite (JO d)) docs.
  Proof.
    destruct (schema_fine SO S HF) as (st & w & Hst). destruct HP as (HN & HK & HA). exists st. split; [right; split; [exact HU|exists S, st, w; auto]|]. split.
    - apply (typed_survive (flatten_opts Wd F schema) (unflatten_opts Wd' U (Some st)) (we_env (wd_wenv Wd)) (csv_cell (wd_wenv Wd)) docs eq_refl (eq_sym Hi) (eq_sym Hr) HD).
      + eapply Forall_impl; [|exact HV]. intros d V. exact (valid_types SO S st w Hst HN HK HA d V).
      + intros d Q Hd Ha. change (po_id_name (flatten_opts Wd F schema)) with (f_id_name F) in *. change (o_types (unflatten_opts Wd' U (Some st))) with (types_of st).
        destruct (Paths.at_path (JO d) (Q ++ [(f_id_name F, None)])) as [y|] eqn:E; [|congruence]. rewrite Forall_forall in HV. intros Ht.
        destruct (valid_type_of SO S st w Hst HN HA Q d (f_id_name F) y (HV d Hd) E) as (T & v & W & Pr & K); [rewrite Ht; discriminate|]. rewrite Ht in K.
        inversion K as [ty L|X|i X]; subst. apply (Hin T W v (u "number") Pr L). left. reflexivity.
      + intros [| | | | | |]; try (intros _; right; reflexivity). intros []; reflexivity.
      + unfold root_key. change (po_root_id (flatten_opts Wd F schema)) with (f_root_id F). destruct (f_root_id F) as [|c r] eqn:Er; [left; discriminate|].
        exact (root_values SO S HK HA (c :: r) docs HV Hrn).
    - eapply Forall_impl; [|exact HV]. intros d V. exact (valid_finite SO S d V).
  Qed.
End E.

Section T.
  Variables (Wd : world) (F : flopts) (schema : option sps) (v : jv) (docs : list jobj) (t : term).
  Hypothesis HF : to_csv F.
  Hypothesis HS : schema_read Wd (f_local_off F) (f_schema F) (flatten_schema_opts Wd F) schema.
  Hypothesis Hv : wd_json Wd (f_input F) = inr v.
  Hypothesis Hl : records_at F v (map JO docs).
  Hypothesis Ht : sget (f_term F) terminators = Some t.
  Hypothesis HW : whole (flatten_opts Wd F schema).
  Hypothesis HD : documents (flatten_opts Wd F schema) docs.
  Hypothesis HC : csv_ready (flatten_opts Wd F schema) (writer_opts F t) (wd_wenv Wd) docs.
  Lemma json_one w o j j' : json_written w o j -> json_written w o j' -> j = j'.
  Proof. intros [A _] [_ B]. destruct (B _ _ A) as [_ E]. exact E. Qed.
  Lemma listed_inj U j j' : listed U j = listed U j' -> j = j'.
  Proof. unfold listed. destruct (u_root_list U); [auto|]. intros [= E]. exact E. Qed.
  Theorem conforming_trip : exists w, flatten_file Wd F = Ok tt w /\ forall Wd' U S,
    from_csv U -> u_input U = output_dir F -> directory_has Wd' (u_input U) (texts_written w) ->
    u_schema U <> [] -> wd_schema Wd' (u_local_off U) (u_schema U) = inr S ->
    let O := unflatten_schema_opts Wd' U in
    fine_schema O S -> plain_schema O S -> Forall (valid O S) docs ->
    f_id_name F = id_name_used U empty_conf -> f_root_id F = u_root_id U ->
    (forall T, within O S T -> not_typed O T (f_id_name F) [u "number"]) -> not_typed O S (f_root_id F) [u "number"; u "boolean"] ->
    exists w' j, unflatten_file Wd' U = Ok tt w' /\ json_written w' (u_output U) (listed U j) /\
      same_json (@Permutation jv) (JA (map JO docs)) j /\
      (main_first (flatten_opts Wd F schema) (writer_opts F t) docs -> roots_together (flatten_opts Wd F schema) docs -> short_names (flatten_opts Wd F schema) docs ->
       same_json eq (JA (map JO docs)) j).
  Proof.
    destruct (end_any Wd F schema v docs t HF HS Hv Hl Ht HW HD HC) as (w & Hw & G). exists w. split; [exact Hw|].
    intros Wd' U S H1 H2 H3 H4 H5 O H6 H7 H8 H9 H10 H11 H12.
    destruct (conforming Wd F schema docs Wd' U S HD H4 H5 H6 H7 H8 H9 H10 H11 H12) as (st & R & Sv & Fi).
    destruct (G Wd' U (Some st) H1 H2 H3 R Sv Fi) as (w' & j & E & J & Sm). exists w', j. split; [exact E|]. split; [exact J|]. split; [exact Sm|].
    intros M1 M2 M3. destruct (end_ordered Wd F schema v docs t HF HS Hv Hl Ht HW HD HC M1 M2 M3) as (w2 & Hw2 & G2). rewrite Hw in Hw2. injection Hw2 as <-.
    destruct (G2 Wd' U (Some st) H1 H2 H3 R Sv Fi) as (w3 & j3 & E3 & J3 & Sm3). rewrite E in E3. injection E3 as <-.
    rewrite (listed_inj U _ _ (json_one _ _ _ _ J J3)). exact Sm3.
  Qed.
End T.
