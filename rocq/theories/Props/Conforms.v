(** C55: documents that conform to a schema go through CSV files unchanged.  The notions
    used in the statements are in Spec/Conforms.v, Spec/SchemaFields.v, Spec/Typed.v and
    Spec/Trip.v. *)
From Coq Require Import String Permutation.
From Verif.Base Require Import PyStr PyNum PyVal PyDict Outcome.
From Verif.Model Require Import Warn Lib Convert Input Json Flatten Readers Csv Output Schema Commands.
From Verif.Tests Require Import TestLib FlattenLib CommandLib.
From Verif.Props Require Import EndToEnd.
From Verif.Spec Require Import Sites Paths Headings SchemaFields Written Commands RoundTrip Typed Trip Conforms.
From Verif.Proofs Require Import SchemaCheck TripEnd Conforms ConformsEnd.
Local Open Scope list_scope.

(** every field of a conforming document has the type that the parsed schema gives for
    its path; its numbers are finite *)
Theorem C55_types : forall O S st w d, parse_schema O S = Ok st w -> plain_schema O S -> valid O S d -> has_types (types_of st) d /\ numbers_finite (JO d).
Proof. intros O S st w d H (A & B & C) V. split; [exact (valid_types O S st w H A B C d V)|exact (valid_finite O S d V)]. Qed.
Print Assumptions C55_types.

(** flatten to CSV files, then unflatten with the schema, gives the documents back *)
Theorem C55_round_trip Wd F schema v docs t : to_csv F -> schema_read Wd (f_local_off F) (f_schema F) (flatten_schema_opts Wd F) schema ->
  wd_json Wd (f_input F) = inr v -> records_at F v (map JO docs) -> sget (f_term F) terminators = Some t ->
  whole (flatten_opts Wd F schema) -> documents (flatten_opts Wd F schema) docs -> csv_ready (flatten_opts Wd F schema) (writer_opts F t) (wd_wenv Wd) docs ->
  exists w, flatten_file Wd F = Ok tt w /\ forall Wd' U S,
    from_csv U -> u_input U = output_dir F -> directory_has Wd' (u_input U) (texts_written w) ->
    u_schema U <> [] -> wd_schema Wd' (u_local_off U) (u_schema U) = inr S ->
    let O := unflatten_schema_opts Wd' U in
    fine_schema O S -> plain_schema O S -> Forall (valid O S) docs ->
    (* the same names for ids; ids are not decimals *)
    f_id_name F = id_name_used U empty_conf -> f_root_id F = u_root_id U ->
    (forall T, within O S T -> not_typed O T (f_id_name F) [u "number"]) -> not_typed O S (f_root_id F) [u "number"; u "boolean"] ->
    exists w' j, unflatten_file Wd' U = Ok tt w' /\ json_written w' (u_output U) (listed U j) /\
      same_json (@Permutation jv) (JA (map JO docs)) j /\
      (main_first (flatten_opts Wd F schema) (writer_opts F t) docs -> roots_together (flatten_opts Wd F schema) docs -> short_names (flatten_opts Wd F schema) docs ->
       same_json eq (JA (map JO docs)) j).
Proof. exact (conforming_trip Wd F schema v docs t). Qed.
Print Assumptions C55_round_trip.

(** ** a case *)
Notation CO := (unflatten_schema_opts (e_after e_docs e_opts) e_back).
Ltac prop := exists None; eexists; split; [do 2 eexists; split; reflexivity|split; [cbn; tauto|discriminate]].
Ltac nottyped := let H := fresh in intros H; vm_compute in H; destruct H as [H|[]]; discriminate H.
Ltac istyped := left; reflexivity.
Ltac field := left; eexists; split; [prop|].
Ltac a_string := eapply value_leaf; [apply leaf_string; [nottyped|nottyped|left; istyped|let H := fresh in intros (? & ? & [= <- <-] & H); vm_compute in H; discriminate H]|apply of_text; [cbn; tauto|discriminate]].
Ltac an_object_ := split; [istyped|intros [H _]; vm_compute in H; discriminate H].
Ltac array_of := split; [nottyped|split; [istyped|do 2 eexists; split; reflexivity]].
Example C55_meets : fine_schema CO e_schema /\ plain_schema CO e_schema /\ Forall (valid CO e_schema) e_docs /\
  (forall T, within CO e_schema T -> not_typed CO T (f_id_name e_opts) [u "number"]) /\ not_typed CO e_schema (f_root_id e_opts) [u "number"; u "boolean"].
Proof.
  split; [apply (fine_ok _ _ 9); vm_compute; reflexivity|].
  split; [split; [apply plain_ok; vm_compute; reflexivity|split; [apply keys_ok; vm_compute; reflexivity|apply noaltb_ok; reflexivity]]|].
  assert (I : forall v z, v = e_prop "integer" [] -> valid_value CO v (JS (SInt z))).
  { intros v z ->. eapply value_leaf; [apply leaf_integer; [nottyped|nottyped|nottyped|nottyped|istyped]|apply of_integer]. }
  assert (N : forall v s, v = e_prop "number" [] -> finite s -> valid_value CO v (JS s)).
  { intros v s -> Hf. eapply value_leaf; [apply leaf_number; [nottyped|nottyped|nottyped|istyped]|apply of_number; exact Hf]. }
  split; [|split].
  - constructor; [|constructor; [|constructor]].
    + apply valid_object. intros k y H. cbn in H. repeat (destruct H as [[= <- <-]|H]); try (exfalso; exact H).
      * field. apply I. reflexivity.
      * field. a_string.
      * field. eapply value_leaf; [apply leaf_boolean; [nottyped|nottyped|nottyped|nottyped|nottyped|istyped]|apply of_boolean].
      * field. apply value_object; [an_object_|]. apply valid_object. intros k y H. cbn in H. destruct H as [[= <- <-]|[]]. field. a_string.
      * field. eapply value_objects; [split; [array_of|split; [istyped|split; [nottyped|split; nottyped]]]|].
        intros x [<-|[<-|[]]]; (eexists; split; [reflexivity|]); apply valid_object; intros k y H; cbn in H; repeat (destruct H as [[= <- <-]|H]); try (exfalso; exact H).
        -- field. a_string.
        -- field. apply N; [reflexivity|exact Logic.I].
        -- field. eapply value_leaf; [eapply leaf_strings; [array_of|left; istyped]|].
           apply (of_texts (u "string_array") [u "x"; u "y z"]); [left; reflexivity|discriminate|discriminate|repeat constructor; cbn; intuition discriminate].
        -- field. a_string.
        -- field. apply N; [reflexivity|exact Logic.I].
    + apply valid_object. intros k y H. cbn in H. repeat (destruct H as [[= <- <-]|H]); try (exfalso; exact H).
      * field. apply I. reflexivity.
      * field. eapply value_objects; [split; [array_of|split; [istyped|split; [nottyped|split; nottyped]]]|].
        intros x [<-|[]]; (eexists; split; [reflexivity|]); apply valid_object; intros k y H; cbn in H; destruct H as [[= <- <-]|[]]. field. a_string.
  - intros T W v ty Pr L Q. pose proof (all_props_ok CO e_schema (fun n v => negb (str_eqb n (u "id")) || negb (typedb (u "number") v)) eq_refl T (u "id") v W Pr) as H. cbv beta in H.
    destruct Q as [<-|[]]. assert (Tn : typed (u "number") v) by (inversion L; assumption). apply (typedb_ok (u "number") v) in Tn. rewrite Tn in H. discriminate H.
  - intros v ty (r & d & En & Hin & _) _ _. destruct En as (r0 & d0 & [= <- <-] & E). vm_compute in E. injection E as <- <-. cbn in Hin. repeat (destruct Hin as [[= Q _]|Hin]); try discriminate Q. exact Hin.
Qed.
