(** Flattening with a schema and titles, and then unflattening with the same
    schema and titles: the schemas, documents and options for which the result is
    the document. *)
From Coq Require Import Permutation.
From Verif.Base Require Import PyStr PyNum PyVal PyDict Outcome.
From Verif.Model Require Import Warn Convert Input Flatten Titles Schema.
From Verif.Spec Require Import Flat Sites Paths Headings SchemaFields SchemaTitled Titled RoundTrip.

Section TitledTrip.
  Variable (SO : sopts) (S : sv).
  (** every id of the schema is a column with a title of its own *)
  Definition titled_ids : Prop :=
    forall T r d i, within SO S T -> entry (u "properties") T (VO r d) -> sget (u "id") d = Some i ->
      property SO T (u "id") i /\ (exists ty, SchemaFields.leaf SO i ty) /\
      exists r' e t, i = VO r' e /\ sget (u "title") e = Some (VS (SStr t)) /\ title_of i = Some t.
  (** titles that can be read back: clear (no two fields of an object have the same,
      objects and arrays have one), words (see [worded]) that are not numbers *)
  Definition readable_titles : Prop :=
    clear_titles SO S /\ keys_once SO S /\ plain_names SO S /\ named_fields SO S /\ worded SO S /\ sheets_apart SO S /\ titled_ids /\
    forall T n v, within SO S T -> property SO T n v -> ~ In 58%N n /\ forall t, title_of v = Some t -> parse_int t = None.
  (** the title of the field [n] of the records is not the name of a field *)
  Definition own_words (n : str) : Prop :=
    n <> u "id" -> forall v t, property SO S n v -> title_of v = Some t -> forall T m w, within SO S T -> property SO T m w -> m <> t.
  (** every value of the documents is a field of the schema that has a title *)
  Definition all_titled (docs : list jobj) : Prop :=
    forall d Q k y, In d docs -> Paths.at_path (JO d) (Q ++ [(k, None)]) = Some y -> RoundTrip.leaf y ->
      exists v ty t, along SO S (heading_path (Q ++ [(k, None)])) v /\ SchemaFields.leaf SO v ty /\ title_of v = Some t.
  (** no roll-up, filter or preserved fields *)
  Definition titled_run (O : popts) : Prop :=
    titled_by SO S O /\ json_run O /\ (forall l, Permutation l (po_set_order O l)) /\
    po_rollup O = [] /\ po_filter O = None /\ po_preserve O = [] /\ own_words (po_root_id O) /\ own_words (po_id_name O).
  (** unflattening reads types and titles from the same schema, in the same way *)
  Definition reads_schema (P : opts) (T : Titles.table) : Prop :=
    exists SU st w, parse_schema SU S = Ok st w /\ so_nodep SU = so_nodep SO /\ so_wkt SU = so_wkt SO /\ so_lower SU = so_lower SO /\
      o_types P = types_of st /\ T = sp_table st.
End TitledTrip.
(** no sheet is read after one with items of arrays inside its own items *)
Definition outer_sheets_first (O : popts) (docs : list jobj) (names : list str) : Prop :=
  forall d x y r, In d docs -> In x (items_in (JO d)) -> In y (items_in (JO d)) -> it_path y = it_path x ++ r ->
    forall a b c, names <> a ++ array_sheet O (it_at y) (it_key y) :: b ++ array_sheet O (it_at x) (it_key x) :: c.
(** warnings about the headings alone: given twice, or with a number for a name *)
Definition about_headings (w : warning) : Prop :=
  match w with WDuplicateHeading _ _ _ | WNumberColumn _ => True | _ => False end.
