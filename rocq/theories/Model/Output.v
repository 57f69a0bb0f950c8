(** Writing the tables to files.

    Modelled code: /repo/flattentool/output.py.  What is handed to openpyxl
    (a title and rows of values per worksheet) and to odf (a name and rows of cells
    per table) is the result; CSV files are texts, see Model/Csv.v.  [float(x)],
    [str(x)] of lists and dicts, and what openpyxl and the operating system refuse
    are oracles. *)
From Verif.Base Require Import PyStr PyNum PyVal PyDict Outcome.
From Verif.Model Require Import Flatten Csv Ods.
Local Open Scope res_scope.

Inductive owarning := OForbidden (value : str).
Notation OR := (res owarning).

(** output.py:22-37.  The output name is that of the directory for CSV. *)
Record wopts := { w_main : str; w_output : str; w_prefix : str; w_term : term }.
(** [float(x)] *)
Inductive float_result := FloatOk (f : flt) | FloatValueError | FloatRaise (e : exn).
Record wenv := {
  we_env : env;                        (** str(x) of a scalar *)
  we_str : jv -> str;                  (** str(x) of a list or dict *)
  we_float : scalar -> float_result;   (** float(x) *)
  we_cell : jv -> option exn;          (** openpyxl: a value (or heading) it refuses *)
  we_title : str -> option exn;        (** openpyxl: a title it refuses *)
  we_open : str -> option exn }.       (** a file name that cannot be opened for writing *)

(** openpyxl's ILLEGAL_CHARACTERS_RE = [\000-\010]|[\013-\014]|[\016-\037] (octal) *)
Definition illegal (c : N) : bool := (c <=? 8)%N || ((11 <=? c)%N && (c <=? 12)%N) || ((14 <=? c)%N && (c <=? 31)%N).
Definition remove_illegal (s : str) : str := filter (fun c => negb (illegal c)) s.

Fixpoint map_o {A B} (f : A -> OR B) (l : list A) : OR (list B) :=
  match l with [] => ret [] | x :: l' => y <- f x ;; r <- map_o f l' ;; ret (y :: r) end.
Definition refuse (o : option exn) : OR unit := match o with Some e => Raise e [] | None => ret tt end.

(** [sheet_line.get(header)] *)
Definition get_value (row : frow) (h : str) : jv := match sget h row with Some v => v | None => JS SNone end.
(** output.py:70-80, 150-160 *)
Definition clean_value (v : jv) : OR jv :=
  match v with
  | JS (SStr s) =>
    let s' := remove_illegal s in
    _ <- (if str_eqb s' s then ret tt else warn1 (OForbidden s)) ;; ret (JS (SStr s'))
  | _ => ret v
  end.

(** output.py:45-50: the main sheet, then [sorted(sub_sheets.items())] *)
Fixpoint insert_table (x : table) (l : list table) : list table :=
  match l with [] => [x] | y :: l' => if str_leb (tb_name x) (tb_name y) then x :: l else y :: insert_table x l' end.
Fixpoint sort_tables (l : list table) : list table := match l with [] => [] | x :: l' => insert_table x (sort_tables l') end.
Definition named (n : str) (x : table) : table := {| tb_name := n; tb_header := tb_header x; tb_rows := tb_rows x |}.
Definition in_order (W : wopts) (main : table) (subs : list table) : list table := named (w_main W) main :: sort_tables subs.

Section Writer.
  Variable W : wopts.
  Variable E : wenv.

  (** ** XLSXOutput, output.py:56-84 *)
  Definition worksheet : Type := str * list (list jv).
  Definition xlsx_value (v : jv) : OR jv := _ <- refuse (we_cell E v) ;; ret v.
  Definition xlsx_out_row (x : table) (row : frow) : OR (list jv) :=
    l <- map_o (fun h => clean_value (get_value row h)) (tb_header x) ;; map_o xlsx_value l.
  Definition xlsx_sheet (x : table) : OR worksheet :=
    let title := firstn 31 (w_prefix W ++ tb_name x) in
    _ <- refuse (we_title E title) ;;
    hs <- map_o xlsx_value (map (fun h => JS (SStr h)) (tb_header x)) ;;
    rows <- map_o (xlsx_out_row x) (tb_rows x) ;;
    ret (title, hs :: rows).
  Definition write_xlsx (main : table) (subs : list table) : OR (list worksheet) :=
    map_o xlsx_sheet (in_order W main subs).

  (** ** ODSOutput, output.py:111-164 *)
  Definition jfalsy (v : jv) : bool := match v with JS s => falsy s | JA [] => true | JO [] => true | _ => false end.
  (** [odf.text.P(text=value)]: no text for None, otherwise str(value) when written *)
  Definition out_text (v : jv) : str := match v with JS SNone => [] | JS s => py_str (we_env E) s | _ => we_str E v end.
  Definition out_cell (type : str) (value : option str) (v : jv) : ods_cell :=
    {| oc_covered := false; oc_repeat := None; oc_spanned := None; oc_text := out_text v; oc_type := Some type; oc_value := value; oc_date := None |}.
  (** output.py:115-130 _make_cell *)
  Definition make_cell (v : jv) : OR ods_cell :=
    if jfalsy v then ret (out_cell (u "Nonetype") None v)
    else match v with
         | JS s => match we_float E s with
                   | FloatOk f => ret (out_cell (u "float") (Some (float_str (we_env E) f)) v)
                   | FloatValueError => ret (out_cell (u "string") None v)
                   | FloatRaise e => Raise e []
                   end
         | _ => Raise ETypeError []                        (* float([...]) *)
         end.
  Definition ods_out_row (x : table) (row : frow) : OR ods_row :=
    l <- map_o (fun h => v <- clean_value (get_value row h) ;; make_cell v) (tb_header x) ;;
    ret {| or_repeat := None; or_cells := l |}.
  Definition ods_sheet (x : table) : OR (str * list ods_row) :=
    hs <- map_o (fun h => make_cell (JS (SStr h))) (tb_header x) ;;
    rows <- map_o (ods_out_row x) (tb_rows x) ;;
    ret (firstn 31 (w_prefix W ++ tb_name x), {| or_repeat := None; or_cells := hs |} :: rows).
  Definition write_ods (main : table) (subs : list table) : OR (list (str * list ods_row)) :=
    map_o ods_sheet (in_order W main subs).

  (** ** CSVOutput, output.py:87-108 *)
  (** [os.path.join(a, b)] *)
  Definition path_join (a b : str) : str :=
    if startswith b [slash] then b
    else dir_prefix a ++ b.
  Definition csv_path (x : table) : str := path_join (w_output W) (w_prefix W ++ tb_name x ++ u ".csv").
  (** csv.DictWriter.writerow: a key that is not a field name is an error, a
      missing value and None are written as "" *)
  Definition csv_out_row (x : table) (row : frow) : OR (list str) :=
    if forallb (fun kv => str_mem (fst kv) (tb_header x)) row
    then ret (map (fun h => out_text (get_value row h)) (tb_header x))
    else Raise EValueError [].
  (** the files, by path; an existing file is replaced *)
  Definition files := list (str * str).
  Definition csv_sheet (x : table) (fs : files) : OR files :=
    _ <- refuse (we_open E (csv_path x)) ;;
    rows <- map_o (csv_out_row x) (tb_rows x) ;;
    ret (sset (csv_path x) (write_csv (w_term W) (tb_header x :: rows)) fs).
  Fixpoint csv_sheets (l : list table) (fs : files) : OR files :=
    match l with [] => ret fs | x :: l' => fs' <- csv_sheet x fs ;; csv_sheets l' fs' end.
  Definition write_csv_files (main : table) (subs : list table) (fs : files) : OR files :=
    csv_sheets (in_order W main subs) fs.
End Writer.
