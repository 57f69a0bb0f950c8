(** C72: what the schema parser reports.  What it should report is defined in
    Spec/SchemaWarnings.v, what a schema says in Spec/SchemaFields.v. *)
From Coq Require Import String.
From Verif.Base Require Import PyStr PyNum PyVal PyDict Outcome.
From Verif.Model Require Import Flatten Titles Schema.
From Verif.Spec Require Import SchemaFields SchemaWarnings.
From Verif.Tests Require Import TestLib FlattenLib SchemaLib.
From Verif.Proofs Require Import SchemaCheck SchemaWarnings SchemaReports.
From Verif.Props Require Import Schema.
Local Open Scope list_scope.

(** every warning is about a part of the schema that is not used, and every such
    part has its warning *)
Theorem C72_reported O S st w : parse_schema O S = Ok st w -> named_fields O S ->
  (forall y, In y w -> reported O S y) /\ forall y, reported O S y -> exists y', In y' w /\ alike y y'.
Proof. exact (schema_warnings O S st w). Qed.
Print Assumptions C72_reported.
(** no property is left out silently: it is a value, an object or an array that is
    used, or it is named in a warning *)
Theorem C72_properties O S st w : parse_schema O S = Ok st w -> named_fields O S ->
  forall R T q n v, top S R -> objects_at O R whole T q -> property O T n v -> (exists t, kind O v t) \/ In (SUnrecognised n (at_path q)) w.
Proof. exact (properties_said O S st w). Qed.
Print Assumptions C72_properties.
(** with titles: no column is left out silently, on the main sheet or any other *)
Theorem C72_columns O S st w : parse_schema O S = Ok st w -> named_fields O S -> so_titles O = true ->
  (forall R f t, top S R -> gives O R f t -> (exists c, t = Some c /\ In c (header (sp_main st))) \/ In (SNoTitle f) w) /\
  (forall q ids n v i f t, array_in O S q ids n v i -> gives O i f t ->
     (exists c s, sub_heading O q n v f t c /\ sget (sheet_of O q n v) (sp_subs st) = Some s /\ In c (header s)) \/
     In (SMissingTitle (at_path q ++ n ++ u "/0/" ++ f)) w \/ In (SNoArrayTitle (at_path q ++ n)) w).
Proof. exact (columns_said O S st w). Qed.
Print Assumptions C72_columns.
(** a schema without such parts is read without a warning *)
Theorem C72_quiet O S st w : parse_schema O S = Ok st w -> named_fields O S -> (forall y, ~ reported O S y) -> w = [].
Proof. exact (quiet O S st w). Qed.
Print Assumptions C72_quiet.

(** ** A schema with all of them *)
Definition odd_item : sv := VO None ([(u "type", s_text "object")] ++ s_props [
  (u "id", s_prop "Item Identifier" "string" []); (u "cost", VO None [(u "type", s_text "number")])]).
Definition odd_schema : sv :=
  VO None [(u "type", s_text "object"); (u "properties", VO None [
    (u "id", s_prop "Id" "string" []);
    (u "plain", VO None [(u "type", s_text "string")]);
    (u "odd", s_prop "Odd" "null" []);
    (u "empty", s_prop "Empty" "object" []);
    (u "items", s_prop "Items" "array" [(u "rollUp", VA [s_text "id"; s_text "price"; s_text "tax"; s_text "price"]); (u "items", odd_item)]);
    (u "more", VO None [(u "type", s_text "array"); (u "items", odd_item)])])].
Example C72_meets : named_fields (sopts_of true true []) odd_schema /\ exists st, parse_schema (sopts_of true true []) odd_schema =
  Ok st [SNoTitle (u "plain"); SUnrecognised (u "odd") []; SNoProperties (u "empty/"); SMissingTitle (u "items/0/cost"); SNotRolledUp [u "price"; u "tax"];
         SNoArrayTitle (u "more"); SMissingTitle (u "more/0/cost")].
Proof. split; [apply named_ok; vm_compute; reflexivity|]. eexists. vm_compute. reflexivity. Qed.
Example C72_paths : exists st, parse_schema (sopts_of false false []) odd_schema = Ok st [SUnrecognised (u "odd") []; SNoProperties (u "empty/")].
Proof. eexists. vm_compute. reflexivity. Qed.
(** the fields listed but not there *)
Example C72_not_there : reported (sopts_of true false []) odd_schema (SNotRolledUp [u "price"; u "tax"]).
Proof.
  assert (P : forall r e d, sget (u "properties") e = Some (VO None d) -> forall n v, In (n, v) d -> property (sopts_of true false []) (VO r e) n v).
  { intros r e d He n v Hin. exists None, d. split; [exists r, e; auto|]. split; [exact Hin|]. intros Q. discriminate Q. }
  left. exists odd_schema, odd_schema, whole. split; [right; split; [apply noaltb_ok; reflexivity|reflexivity]|]. split; [apply oa_here|].
  right. exists (u "items"). eexists. split; [eapply P; [reflexivity|do 4 right; left; reflexivity]|]. right. exists odd_item. split.
  { split; [split; [|split; [left; reflexivity|do 2 eexists; split; reflexivity]]|]; [intros [Q|[]]; discriminate Q|]. split; [left; reflexivity|]. repeat split; intros [Q|[]]; discriminate Q. }
  right. split; [reflexivity|]. do 2 eexists. split; [do 2 eexists; split; reflexivity|]. split; [reflexivity|]. split; [discriminate|]. split.
  { repeat constructor; [intros [Q|[]]; discriminate Q|intros []]. }
  assert (G : forall f t, gives (sopts_of true false []) odd_item f t -> f = u "id" \/ f = u "cost").
  { intros f t H. inversion H as [S n v ty Pr L|S n v f' t' Pr Ob C|S n v i f' t' Pr Ob C Ru]; subst; destruct Pr as (r & d & (r' & d' & [= <- <-] & E) & Hin & _);
      vm_compute in E; injection E as <- <-; destruct Hin as [[= <- <-]|[[= <- <-]|[]]]; auto.
    1,2: destruct Ob as [[Q|[]] _]; discriminate Q. all: destruct Ob as ((_ & [Q|[]] & _) & _); discriminate Q. }
  intros f. split.
  - intros [<-|[<-|[]]]; (split; [cbn; auto|]); intros (t & Q); apply G in Q as [Q|Q]; discriminate Q.
  - intros (L & N). cbn in L. destruct L as [[= <-]|[[= <-]|[[= <-]|[[= <-]|[]]]]]; [|left; reflexivity|right; left; reflexivity|left; reflexivity].
    exfalso. apply N. eexists. eapply col_leaf; [eapply P; [reflexivity|left; reflexivity]|]. apply leaf_string; [intros [Q|[]]; discriminate Q|intros [Q|[]]; discriminate Q|left; left; reflexivity|].
    intros (r & d & [= <- <-] & Q). vm_compute in Q. discriminate Q.
Qed.
