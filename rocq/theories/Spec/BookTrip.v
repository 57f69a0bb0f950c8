(** Documents that can go through a workbook (XLSX) or an ODS document. *)
From Verif.Base Require Import PyStr PyNum PyVal PyDict Outcome.
From Verif.Model Require Import Lib Flatten Readers Ods Output Commands.
From Verif.Spec Require Import Sites Paths OdsCells Written RoundTrip Trip.

Section Book.
  Variables (O : popts) (W : wopts) (E : wenv) (docs : list jobj).
  (** the names of the sheets, and the titles under which they are written *)
  Definition sheet_named (n : str) : Prop :=
    n = w_main W \/ (exists d x, In d docs /\ In x (items_in (JO d)) /\ n = item_sheet O (JO d, x)) \/ schema_sheet O n.
  Definition sheet_title (n : str) : str := firstn 31 (w_prefix W ++ n).
  (** [c] is the cell for a field of a document, [h] its heading *)
  Definition cell_used (h : str) (c : scalar) : Prop :=
    exists d Q k y, In d docs /\ at_path (JO d) (Q ++ [(k, None)]) = Some y /\ leaf_cell O y = Some (JS c) /\ h = pre Q ++ k.
  Definition heading_used (h : str) : Prop := (exists c, cell_used h c) \/ schema_heading O h.

  (** [read v]: what openpyxl reads in a cell in which [v] was put.  Headings and
      values are taken by openpyxl, headings are read as they are, empty cells as
      None, the cell for [c] (its forbidden characters removed) as [back c] *)
  Definition xlsx_ready (read : jv -> scalar) (back : scalar -> scalar) : Prop :=
    (forall n, sheet_named n -> we_title E (sheet_title n) = None) /\
    (we_cell E (JS SNone) = None /\ read (JS SNone) = SNone) /\
    (forall h, heading_used h -> h <> [] /\ h <> u "#" /\ we_cell E (JS (SStr h)) = None /\ read (JS (SStr h)) = SStr h) /\
    (forall h c v, cell_used h c -> cleaned (JS c) v -> we_cell E v = None /\ read v = back c).

  (** an ODS cell written for [v] shows [x] *)
  Definition ods_reads (RE : ods_env) (v : jv) (x : scalar) : Prop := exists cell, ods_cell_for E v cell /\ shows RE cell x.
  (** the sheets have different titles; headings are read as they are, the cell for
      [c] as [back c] *)
  Definition ods_ready (RE : ods_env) (back : scalar -> scalar) : Prop :=
    ((forall d x, In d docs -> In x (items_in (JO d)) -> item_sheet O (JO d, x) <> w_main W) /\ (forall n, schema_sheet O n -> n <> w_main W)) /\
    (forall n m, sheet_named n -> sheet_named m -> sheet_title n = sheet_title m -> n = m) /\
    (forall h, heading_used h -> h <> [] /\ h <> u "#" /\ ods_reads RE (JS (SStr h)) (SStr h)) /\
    (forall h c v, cell_used h c -> cleaned (JS c) v -> ods_reads RE v (back c)).
End Book.

(** the run writes this file and no other *)
Definition only_written (w : list event) (file : str) (c : content) : Prop :=
  forall file' c', In (Wrote file' c') w <-> file' = Some file /\ c' = c.
Definition book_name (f : fmt) (F : flopts) : str := match f_output F with Some ((_ :: _) as n) => n | _ => u "flattened" ++ suffix f end.
(** openpyxl reads the sheets in order, under different names (the titles, where
    these are different), what was put in the cells as [read] says *)
Definition xlsx_file (read : jv -> scalar) (Wd : world) (file : str) (sheets : list worksheet) : Prop :=
  exists b, wd_book Wd Xlsx file = inr b /\ NoDup (map fst b) /\ map snd b = map (fun s => map (map read) (snd s)) sheets.
(** the ODS document is read by ODSReader *)
Definition ods_file (RE : ods_env) (Wd : world) (file : str) (sheets : list (str * list ods_row)) : Prop :=
  wd_book Wd Ods file = match read_ods RE false sheets [] with Ok b _ => inr b | Raise e _ => inl e end.
