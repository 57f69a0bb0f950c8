(** The titles that flattening with titles uses are those of the schema.
    (Spec/SchemaFields.v says what a schema gives: columns, arrays, sheets.) *)
From Verif.Base Require Import PyStr PyNum PyVal PyDict Outcome.
From Verif.Model Require Import Flatten Schema.
From Verif.Spec Require Import SchemaFields.

(** [found] is what the relation relates, or nothing if there is no such thing *)
Definition says {A} (rel : A -> Prop) (found : option A) : Prop :=
  match found with Some x => rel x | None => forall x, ~ rel x end.
(** what is used is what the relation relates, or [other] if there is no such thing *)
Definition given {A} (rel : A -> Prop) (used other : A) : Prop := rel used \/ ((forall x, ~ rel x) /\ used = other).
(** exactly one *)
Definition only {A} (rel : A -> Prop) (x : A) : Prop := rel x /\ forall y, rel y -> y = x.

Section SchemaTitled.
  Variable (SO : sopts) (S : sv).

  (** the title of a column of the main sheet: the titles of the fields on the way, with ":" between *)
  Definition main_title (c t : str) : Prop := exists R, top S R /\ gives SO R c (Some t).
  (** the title of a column of the sheet of an array of objects *)
  Definition item_title (sn c t : str) : Prop :=
    exists q ids n v i f x, array_in SO S q ids n v i /\ sn = sheet_of SO q n v /\ gives SO i f x /\
      c = at_path q ++ n ++ u "/0/" ++ f /\ sub_heading SO q n v f x t.
  (** the name of the sheet of the array [n] of the objects at a path, if these have titles *)
  Definition sheet_title (p n sn : str) : Prop :=
    exists q ids v i a, array_in SO S q ids n v i /\ at_path q = p /\ at_titles q = Some a /\ sn = sheet_of SO q n v.
  (** the columns the schema asks to roll up *)
  Definition rolled_column (c : str) : Prop :=
    exists q ids n v i f t, array_in SO S q ids n v i /\ gives SO i f t /\ rolled_up SO v f /\ c = at_path q ++ n ++ u "/0/" ++ f.

  (** Titles are words: no "/" or ":" in them, and none is the number 0; every
      object and array of objects has one.  No field is named "0" or has a "/" in
      its name. *)
  Definition word (t : str) : Prop := ~ In 47%N t /\ ~ In 58%N t /\ trim t <> u "0".
  Definition worded : Prop :=
    forall R T r d n v, top S R -> within SO R T -> entry (u "properties") T (VO r d) -> In (n, v) d ->
      ~ In 47%N n /\ n <> u "0" /\
      (forall t, title_of v = Some t -> word t) /\
      (forall r' e t, v = VO r' e -> sget (u "title") e = Some (VS (SStr t)) -> word t) /\
      (an_object SO v \/ (exists i, objects v i) -> title_of v <> None).

  (** the options of a run with titles whose schema is [S] *)
  Definition titled_by (O : popts) : Prop :=
    exists st w, parse_schema SO S = Ok st w /\ so_titles SO = true /\ po_titles O = true /\ po_schema O = Some (schema_info_of st).
End SchemaTitled.
