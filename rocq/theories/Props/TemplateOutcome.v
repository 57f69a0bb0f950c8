(** C76: when create_template succeeds.  [template_sopts], [template_tables],
    [template_writer] and [taken] are in Spec/FlattenOutcome.v, [fine_schema] and
    [named_fields] in Spec/SchemaFields.v. *)
From Coq Require Import String.
From Verif.Base Require Import PyStr PyNum PyVal PyDict Outcome.
From Verif.Model Require Import Warn Lib Convert Input Readers Flatten Csv Schema Output Commands.
From Verif.Spec Require Import Flat Paths Commands Trip Written SchemaFields FlattenOutcome.
From Verif.Tests Require Import TestLib CommandLib.
From Verif.Proofs Require Import FlattenOutcome.
From Verif.Props Require Import Schema FlattenRun.
Local Open Scope list_scope.

(** a schema that is as it should be is read, and the template is written if the
    libraries take its tables *)
Theorem C76_template : forall Wd C f t v, sget (c_term C) terminators = Some t -> sget (c_format C) formats = Some f ->
  wd_schema Wd (c_local_off C) (c_schema C) = inr v -> fine_schema (template_sopts Wd C) v -> named_fields (template_sopts Wd C) v ->
  exists s w, parse_schema (template_sopts Wd C) v = Ok s w /\
    ((forall x, In x (template_tables (c_main C) s) -> taken (wd_wenv Wd) (template_writer C f t) f x) -> exists w', create_template Wd C = Ok tt w').
Proof. exact template_succeeds. Qed.
Print Assumptions C76_template.
(** what that means for tables without rows: the CSV file can be opened, openpyxl
    takes the title and the headings, the headings can be written to ODS *)
Theorem C76_taken : forall E W f n h, taken E W f {| tb_name := n; tb_header := h; tb_rows := [] |} <->
  match f with
  | Csv => we_open E (path_join (w_output W) (w_prefix W ++ n ++ u ".csv")) = None
  | Xlsx => we_title E (firstn 31 (w_prefix W ++ n)) = None /\ forall x, In x h -> we_cell E (JS (SStr x)) = None
  | Ods => forall x, In x h -> ods_takes E (JS (SStr x))
  end.
Proof. exact template_taken. Qed.
Print Assumptions C76_taken.
(** if the schema cannot be read, the command raises that error and writes nothing *)
Theorem C76_fails : forall Wd C t v e w, sget (c_term C) terminators = Some t -> wd_schema Wd (c_local_off C) (c_schema C) = inr v ->
  parse_schema (template_sopts Wd C) v = Raise e w -> exists w', create_template Wd C = Raise e w' /\ silent w'.
Proof. exact template_fails. Qed.
Print Assumptions C76_fails.

(** ** cases *)
Local Open Scope string_scope.
Local Open Scope list_scope.
Definition world76 (S : sv) : world :=
  {| wd_schema := fun _ _ => inr S; wd_json := fun _ => inl EOther; wd_base := fun _ => inl EOther; wd_xml := fun _ _ => inl EOther;
     wd_lines := fun f => inl EOther; wd_isfile := fun f => false; wd_book := fun _ _ => inl EOther; wd_xsd := fun _ => inl EOther; wd_xsd_fuel := 0;
     wd_xenv := cmd_xenv; wd_wenv := cmd_wenv; wd_lower := lower; wd_shape := None; wd_set_order := fun l => l; wd_conv := fun _ _ => test_cenv |}.
Definition opts76 (format : string) : copts :=
  {| c_schema := u "schema.json"; c_output := None; c_format := u format; c_main := u "main"; c_rollup := true; c_root_id := u "ocid"; c_titles := false;
     c_local_off := false; c_trunc := 3; c_nodep := true; c_term := u "LF"; c_wkt := true |}.
Example C76_meets : fine_schema (template_sopts (world76 ex_schema) (opts76 "csv")) ex_schema /\ named_fields (template_sopts (world76 ex_schema) (opts76 "csv")) ex_schema /\
  (exists s w, parse_schema (template_sopts (world76 ex_schema) (opts76 "csv")) ex_schema = Ok s w /\ length (template_tables (u "main") s) = 3%nat /\
    forall f x, In x (template_tables (u "main") s) -> taken cmd_wenv (template_writer (opts76 "csv") f LF) f x) /\
  texts (create_template (world76 ex_schema) (opts76 "csv")) =
    Some [(u "template/main.csv", u "id,name,address/street,address/since,tags,items/0/cost" ++ [10%N]);
          (u "template/ite_parts.csv", u "ocid,id,items/0/id,items/0/parts/0/no,items/0/parts/0/made/by" ++ [10%N]);
          (u "template/items.csv", u "ocid,id,items/0/id,items/0/cost" ++ [10%N])].
Proof.
  destruct C38_meets as (H1 & H2 & _). split; [exact H2|]. split; [exact H1|]. split; [|vm_compute; reflexivity].
  eexists. eexists. split; [vm_compute; reflexivity|]. split; [reflexivity|]. intros f x Hx.
  assert (NR : forall s e, cmd_floats s <> FloatRaise e) by (intros s e; unfold cmd_floats; destruct s; try discriminate; repeat match goal with |- context [match ?m with _ => _ end] => destruct m end; discriminate).
  assert (N : tb_rows x = []) by (repeat destruct Hx as [<-|Hx]; try destruct Hx; reflexivity).
  destruct x as [n h rows]. cbn [tb_rows] in N. subst rows. apply template_taken. destruct f; [reflexivity|split; reflexivity|].
  intros y _. right. eexists. split; [reflexivity|apply NR].
Qed.
(** a schema with an array of integers is not read, and no template is written *)
Example C76_fails_meets : exists S e w, parse_schema (template_sopts (world76 S) (opts76 "csv")) S = Raise e w.
Proof. destruct C38_integers_refuted as (O0 & S0 & e0 & w0 & _ & E0). exists S0. rewrite E0. do 2 eexists. vm_compute. reflexivity. Qed.
