(** Flattening with titles to CSV files: what the headings, texts and names must be
    like to be read again.  (Spec/Trip.v has the same for runs without titles.) *)
From Coq Require Import Permutation.
From Verif.Base Require Import PyStr PyNum PyVal PyDict Outcome.
From Verif.Model Require Import Lib Convert Input Flatten Readers Csv Output Schema Commands.
From Verif.Spec Require Import Sites Paths Grids CsvText Written Titled RoundTrip Trip.

Section TitledFiles.
  Variables (O : popts) (W : wopts) (E : wenv) (docs : list jobj).
  (** the sheets have different file names, in one directory *)
  Definition titled_names : Prop :=
    ~ In 47%N (w_prefix W ++ w_main W) /\
    (forall d x, In d docs -> In x (items_in (JO d)) -> array_sheet O (it_at x) (it_key x) <> w_main W /\ ~ In 47%N (array_sheet O (it_at x) (it_key x))) /\
    (forall n, schema_sheet O n -> n <> w_main W /\ ~ In 47%N n).
  (** headings and texts are not changed by CSV; no heading starts a row of settings *)
  Definition titled_texts : Prop :=
    (forall d Q k y c, In d docs -> at_path (JO d) (Q ++ [(k, None)]) = Some y -> leaf_cell O y = Some (JS c) ->
       let h := heading O (sheet_of_place O Q) (pre Q ++ k) in survives h /\ h <> u "#" /\ survives (text_of E (JS c))) /\
    (forall h, schema_heading O h -> survives h /\ h <> u "#").
  Definition titled_ready : Prop := (forall file, we_open E file = None) /\ titled_names /\ titled_texts.
  (** the file of the main sheet comes first in the directory *)
  Definition titled_main_first : Prop :=
    (forall d x, In d docs -> In x (items_in (JO d)) -> not_after (w_main W) (array_sheet O (it_at x) (it_key x))) /\
    forall n, schema_sheet O n -> not_after (w_main W) n.
  (** the file of an array comes before those of the arrays in its items *)
  Definition inner_names_later : Prop :=
    forall d x y r, In d docs -> In x (items_in (JO d)) -> In y (items_in (JO d)) -> it_path y = it_path x ++ r ->
      not_after (array_sheet O (it_at x) (it_key x)) (array_sheet O (it_at y) (it_key y)).
End TitledFiles.
(** a schema is given, and it is [S] *)
Definition schema_file (Wd : world) (local_off : bool) (file : str) (S : sv) : Prop := file <> [] /\ wd_schema Wd local_off file = inr S.
(** unflatten is given the schema [S] that flatten was given *)
Definition reads_titles (Wd : world) (F : flopts) (S : sv) (Wd' : world) (U : uopts) (st' : sps) : Prop :=
  schema_file Wd' (u_local_off U) (u_schema U) S /\ (exists w, parse_schema (unflatten_schema_opts Wd' U) S = Ok st' w) /\ u_wkt U = f_wkt F /\ wd_lower Wd' = wd_lower Wd.
