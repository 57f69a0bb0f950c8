(** What is in the files that are written. *)
From Coq Require Import Sorted Permutation.
From Verif.Base Require Import PyStr PyNum PyVal PyDict Outcome.
From Verif.Model Require Import Warn Lib Convert Input Flatten Readers Csv Ods Output.
From Verif.Spec Require Import Grids CsvText.

(** the order of the sheets: the main sheet, then the others by name *)
Definition sheets_in_order (main : table) (subs : list table) (l : list table) : Prop :=
  exists subs', l = main :: subs' /\ Permutation subs subs' /\ StronglySorted (fun a b => not_after (tb_name a) (tb_name b)) subs'.

(** the value of a row under a heading *)
Definition has_value (row : frow) (h : str) (v : jv) : Prop :=
  In (h, v) row \/ ~ In h (map fst row) /\ v = JS SNone.
(** characters that a spreadsheet cannot hold: the control characters other than
    tab, line feed and carriage return *)
Definition forbidden (c : N) : Prop := (c < 32)%N /\ c <> 9%N /\ c <> 10%N /\ c <> 13%N.
Inductive without_forbidden : str -> str -> Prop :=
| wf_nil : without_forbidden [] []
| wf_gone c s s' : forbidden c -> without_forbidden s s' -> without_forbidden (c :: s) s'
| wf_kept c s s' : ~ forbidden c -> without_forbidden s s' -> without_forbidden (c :: s) (c :: s').
(** [v'] is what is written for [v] *)
Definition cleaned (v v' : jv) : Prop :=
  match v with JS (SStr s) => exists s', without_forbidden s s' /\ v' = JS (SStr s') | _ => v' = v end.

(** [holds x P rows]: one row of cells per row of the table, one cell per heading,
    the cell under a heading satisfies [P] for the value of the row there *)
Definition holds {C} (P : jv -> C -> Prop) (x : table) (rows : list (list C)) : Prop :=
  Forall2 (fun row cells => Forall2 (fun h c => exists v, has_value row h v /\ P v c) (tb_header x) cells) (tb_rows x) rows.

(** the text of a value: nothing for None *)
Definition text_of (E : wenv) (v : jv) : str :=
  match v with JS SNone => [] | JS (SStr s) => s | JS s => py_str (we_env E) s | _ => we_str E v end.

(** the tables are those of well-formed rows: no key twice *)
Definition rows_ok (l : list table) : Prop := forall x row, In x l -> In row (tb_rows x) -> NoDup (map fst row).

(** a text that an ODS file keeps as it is: empty, or not readable as a number *)
Definition stays_text (E : wenv) (s : str) : Prop := s = [] \/ we_float E (SStr s) = FloatValueError.
(** a table of texts that stay texts *)
Definition ods_plain (E : wenv) (x : table) : Prop :=
  (forall h, In h (tb_header x) -> stays_text E h) /\
  forall row h v, In row (tb_rows x) -> In h (tb_header x) -> has_value row h v -> v = JS SNone \/ exists s, v = JS (SStr s) /\ forall s', without_forbidden s s' -> stays_text E s'.
(** the cell for a text *)
Definition text_cell_value (s : str) : scalar := match s with [] => SNone | _ => SStr s end.

(** texts with forbidden characters are warned about, and nothing else *)
Definition warned (l : list table) (w : list owarning) : Prop :=
  forall z, In z w <-> exists x row h s, In x l /\ In row (tb_rows x) /\ In h (tb_header x) /\ has_value row h (JS (SStr s)) /\ (exists c, In c s /\ forbidden c) /\ z = OForbidden s.

(** nothing, or a number zero *)
Definition is_nothing (v : jv) : Prop :=
  match v with JS s => s = SNone \/ s = SStr [] \/ py_eqb s (SInt 0) = true | JA l => l = [] | JO d => d = [] end.
(** the cell of an ODS file for a value: an ordinary cell with the text of the value;
    of type "float" if Python's float reads the value, else "string"; "Nonetype" for nothing *)
Definition ods_cell_for (E : wenv) (v : jv) (c : ods_cell) : Prop :=
  oc_text c = text_of E v /\ oc_covered c = false /\ oc_repeat c = None /\ oc_spanned c = None /\ oc_date c = None /\
  (is_nothing v /\ oc_type c = Some (u "Nonetype") /\ oc_value c = None \/
   ~ is_nothing v /\ exists s, v = JS s /\
     ((exists f, we_float E s = FloatOk f /\ oc_type c = Some (u "float") /\ oc_value c = Some (float_str (we_env E) f)) \/
      (we_float E s = FloatValueError /\ oc_type c = Some (u "string") /\ oc_value c = None))).
Definition ods_shows (E : wenv) (v : jv) (c : ods_cell) : Prop := exists v', cleaned v v' /\ ods_cell_for E v' c.


(** ** CSV files *)
(** every value is under a heading *)
Definition covered_rows (x : table) : Prop := forall row k v, In row (tb_rows x) -> In (k, v) row -> In k (tb_header x).

(** everything that a table writes can be read back *)
Definition readable (E : wenv) (x : table) : Prop :=
  Forall survives (tb_header x) /\ forall row h v, In row (tb_rows x) -> In h (tb_header x) -> has_value row h v -> survives (text_of E v).

(** the first heading does not make the sheet start with a configuration row *)
Definition no_hash (x : table) : Prop := hd_error (tb_header x) <> Some (u "#").

(** the lines of a sheet say what the rows of the table say *)
Definition same_lines (E : wenv) (x : table) (ls : list line) : Prop :=
  Forall2 (fun row l => Forall2 (fun h hv => exists v, has_value row h v /\ hv = (SStr h, SStr (text_of E v))) (tb_header x) l) (tb_rows x) ls.
(** a table that can be written as a file and read back *)
Definition fine (W : wopts) (E : wenv) (x : table) : Prop :=
  covered_rows x /\ NoDup (tb_header x) /\ no_hash x /\ readable E x /\ ~ In 47%N (w_prefix W ++ tb_name x) /\ forall n, we_open E n = None.

(** ** ODS files *)
(** what is read for a table *)
Definition comes_back (x : table) (g : grid) : Prop :=
  length g = S (length (tb_rows x)) /\
  (forall j, cell_at g 0 j = text_cell_value (nth j (tb_header x) [])) /\
  forall i row j h v, nth_error (tb_rows x) i = Some row -> nth_error (tb_header x) j = Some h -> has_value row h v ->
    exists s', cell_at g (S i) j = text_cell_value s' /\ (v = JS SNone /\ s' = [] \/ exists s, v = JS (SStr s) /\ without_forbidden s s').

