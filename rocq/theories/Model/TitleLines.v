(** Titles instead of field names in the headings of a spreadsheet:
    /repo/flattentool/input.py 285-299 (convert_dict_titles), 336-348
    (get_sub_sheets_lines with convert_titles).

    SIMPLIFICATIONS.  Without a schema the code raises an AttributeError (341) as
    soon as there is a sheet; that is [None] for the table here. *)
From Verif.Base Require Import PyStr PyNum PyVal PyDict Outcome.
From Verif.Model Require Import Warn Lib Convert Input Readers Titles.
Local Open Scope res_scope.

Section TitleLines.
  (** [str.lower] *)
  Variable lw : str -> str.
  (** input.py:291-299: an empty table converts nothing; an OrderedDict keeps the
      last value of a repeated key *)
  Definition convert_line (T : Titles.table) (l : list (scalar * scalar)) : list (scalar * scalar) :=
    match tn_data (t_node T 0) with
    | [] => l
    | _ => make_line (map (fun hv => (lookup_heading lw T 0 (fst hv), snd hv)) l)
    end.
  (** input.py:336-348; the headings of the sheet (371) stay as they are *)
  Definition convert_sheets (T : option Titles.table) (sheets : list sheet_in) : R (list sheet_in) :=
    match T, sheets with
    | None, _ :: _ => Raise EAttributeError []
    | None, [] => ret []
    | Some T, _ => ret (map (fun s => {| si_name := si_name s; si_headings := si_headings s; si_lines := map (convert_line T) (si_lines s) |}) sheets)
    end.
  (** reading spreadsheets with convert_titles *)
  Definition unflatten_titled (O : opts) (T : option Titles.table) (sheets : list sheet_in) : R (list vdict) :=
    sheets' <- convert_sheets T sheets ;; unflatten O sheets'.
End TitleLines.
