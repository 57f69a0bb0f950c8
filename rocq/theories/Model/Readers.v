(** Model of the spreadsheet readers, /repo/flattentool/input.py:341-365 and
    630-965 (CSVInput, XLSXInput, ODSInput), on top of the libraries that parse
    the files.

    What the libraries deliver is taken as a grid: the list of the rows of a
    sheet, each a list of cell values, [SNone] for an empty cell.
    - CSV: the rows given by [csv.reader] (an empty line is the row []); all
      cells are texts.  The text level is modelled in Model/Csv.v.
    - XLSX: openpyxl cells.  A row or column of a worksheet always extends over
      all used columns or rows; see [wide] below.
    - ODS: the rows built by ODSReader, Model/Ods.v. *)
From Verif.Base Require Import PyStr PyNum PyVal PyDict Outcome.
From Verif.Model Require Import Warn Lib Convert Input.
Local Open Scope res_scope.

Definition grid := list (list scalar).
Definition line := list (scalar * scalar).

Inductive fmt := Csv | Xlsx | Ods.

(** The reading options of SpreadsheetInput, input.py:301-334 *)
Record reader := {
  rd_base : sheet_conf;        (** base_configuration *)
  rd_use : bool;               (** use_configuration *)
  rd_vertical : bool;          (** vertical_orientation *)
  rd_include : list str;
  rd_exclude : list str }.

(** input.py:636-640, 693-697, 730-734, 754-758 and ODSInput 832-840: the
    configuration in force.  [c] is what [parse_sheet_configuration] gave for the
    sheet; an empty one counts as absent. *)
Definition conf_of (rd : reader) (c : sheet_conf) : sheet_conf :=
  if rd_use rd then (if sc_any c then c else rd_base rd) else empty_conf.
(** configuration_line, input.py:637, 694, 731, 755, 847-851 *)
Definition conf_line (c : sheet_conf) : nat := if sc_any c then 1 else 0.
(** [sheet_configuration.get("skipRows", 0)] and [.get("headerRows", 1)]; both
    are non-negative (lib.py:14-17) *)
Definition skip_of (c : sheet_conf) : nat := match sc_skip c with Some z => Z.to_nat z | None => 0 end.
Definition header_of (c : sheet_conf) : nat := match sc_header c with Some z => Z.to_nat z | None => 1 end.

(** an OrderedDict filled by assignments, one per column: a repeated heading
    keeps its first position and its last value *)
Definition make_line (cells : list (scalar * scalar)) : line :=
  fold_left (fun d hv => kset (fst hv) (snd hv) d) cells [].

(** ** CSVInput *)
(** input.py:705-713 get_sheet_configuration *)
Definition csv_conf (g : grid) : R (list scalar) :=
  match g with
  | [] => Raise EStopIteration []
  | (SStr h :: rest) :: _ => ret (if str_eqb h (u "#") then rest else [])
  | _ => ret []
  end.
(** input.py:635-654 get_sheet_headings; [None] (no such row) is [] as far as
    the caller is concerned (input.py:375) *)
Definition csv_headings (rd : reader) (c : sheet_conf) (g : grid) : list scalar :=
  let e := conf_of rd c in
  if sc_ignore e then []
  else match nth_error g (skip_of e + conf_line c) with Some r => r | None => [] end.
(** [csv.DictReader.__next__]: the cells of a row under the field names; missing
    ones are None, extra ones go under the key None, which is not a field name;
    input.py:702-703 copies the fields in order *)
Fixpoint csv_cells (hs : list scalar) (row : list scalar) : list (scalar * scalar) :=
  match hs with
  | [] => []
  | h :: hs' => match row with
                | [] => (h, SNone) :: csv_cells hs' []
                | v :: row' => (h, v) :: csv_cells hs' row'
                end
  end.
Definition is_nil {A} (l : list A) : bool := match l with [] => true | _ => false end.
(** input.py:687-703 generate_rows.  A StopIteration inside the generator becomes
    a RuntimeError; DictReader skips empty rows. *)
Definition csv_lines (rd : reader) (c : sheet_conf) (g : grid) : R (list line) :=
  let e := conf_of rd c in
  let n := (conf_line c + skip_of e)%nat in
  if (length g <? n)%nat then Raise ERuntimeError []
  else match skipn n g with
       | [] => if (header_of e - 1 =? 0)%nat then ret [] else Raise ERuntimeError []
       | hs :: rest =>
         if (length rest <? header_of e - 1)%nat then Raise ERuntimeError []
         else ret (map (fun row => make_line (csv_cells hs row))
                       (filter (fun row => negb (is_nil row)) (skipn (header_of e - 1) rest)))
       end.

(** ** XLSXInput *)
(** openpyxl: [ws[n]], [ws.iter_rows] give every row the width [max_column],
    which is at least 1, and there is always a row; [ws[n]] with [n] too large
    gives a row of empty cells. *)
Definition width (g : grid) : nat := fold_right (fun r w => Nat.max (length r) w) 1%nat g.
Definition pad (w : nat) (r : list scalar) : list scalar := r ++ repeat SNone (w - length r).
Definition wide (g : grid) : grid := map (pad (width g)) (match g with [] => [[]] | _ => g end).
Definition xlsx_row (g : grid) (n : nat) : list scalar :=
  match nth_error (wide g) n with Some r => r | None => repeat SNone (width g) end.
(** [ws["B"]], [ws.iter_cols]: column [n], over all rows *)
Definition column (g : grid) (n : nat) : list scalar := map (fun r => match nth_error r n with Some v => v | None => SNone end) g.
Definition columns_from (g : grid) (n : nat) : grid := map (column g) (seq n (width g - n)).

(** input.py:743-750 *)
Definition xlsx_conf (g : grid) : R (list scalar) :=
  match xlsx_row g 0 with
  | SStr h :: rest => ret (if str_eqb h (u "#") then filter (fun v => negb (falsy v)) rest else [])
  | _ => ret []
  end.
Definition hash_sheet (e : sheet_conf) (name : str) : bool := sc_hash e && startswith name (u "#").
(** input.py:728-741 (the IndexError branch is never taken: openpyxl creates the
    cells asked for) *)
Definition xlsx_headings (rd : reader) (c : sheet_conf) (name : str) (g : grid) : list scalar :=
  let e := conf_of rd c in
  if sc_ignore e || hash_sheet e name then []
  else if rd_vertical rd then skipn (conf_line c) (column (wide g) (skip_of e))
  else xlsx_row g (skip_of e + conf_line c).
(** input.py:783-798 *)
Definition xlsx_cells (e : sheet_conf) (hs row : list scalar) : list (scalar * scalar) :=
  map (fun hv : scalar * scalar =>
         let '(h, v) := hv in
         (h, if falsy h then SNone
             else if sc_hash e && (match h with SStr s => startswith s (u "#") | _ => false end) then SNone
             else v)) (combine hs row).
(** input.py:752-800 *)
Definition xlsx_lines (rd : reader) (c : sheet_conf) (g : grid) : list line :=
  let e := conf_of rd c in
  if rd_vertical rd then
    let hs := skipn (conf_line c) (column (wide g) (skip_of e)) in
    map (fun col => make_line (xlsx_cells e hs (skipn (conf_line c) col)))
        (columns_from (wide g) (skip_of e + header_of e))
  else
    map (fun row => make_line (xlsx_cells e (xlsx_row g (skip_of e + conf_line c)) row))
        (skipn (skip_of e + conf_line c + header_of e) (wide g)).

(** ** ODSInput *)
(** input.py:876-890: the whole row, "#" included *)
Definition ods_conf (g : grid) : R (list scalar) :=
  match g with
  | (SStr h :: rest) :: _ => ret (if str_eqb h (u "#") then SStr h :: rest else [])
  | _ => ret []
  end.
(** input.py:863-867, 906-910: [row[n] for row in rows if len(row) > n] *)
Definition ragged_column (n : nat) (g : grid) : list scalar :=
  flat_map (fun r => match nth_error r n with Some v => [v] | None => [] end) g.
Definition ods_headings (rd : reader) (c : sheet_conf) (name : str) (g : grid) : list scalar :=
  let e := conf_of rd c in
  if sc_ignore e || hash_sheet e name then []
  else if rd_vertical rd then ragged_column (skip_of e) (skipn (conf_line c) g)
  else match nth_error g (skip_of e + conf_line c) with Some r => r | None => [] end.
(** input.py:932-948; [header.startswith] raises on anything but a text *)
Fixpoint ods_cells (e : sheet_conf) (hs row : list scalar) : R (list (scalar * scalar)) :=
  match hs, row with
  | h :: hs', v :: row' =>
    v' <- (if falsy h then ret SNone
           else if sc_hash e then match h with
                                  | SStr s => ret (if startswith s (u "#") then SNone else v)
                                  | _ => Raise EAttributeError []
                                  end
           else ret v) ;;
    r <- ods_cells e hs' row' ;; ret ((h, v') :: r)
  | _, _ => ret []
  end.
Definition is_none (v : scalar) : bool := match v with SNone => true | _ => false end.
(** input.py:930-951.  (An exception here is raised when the row is reached; the
    model raises it before any row is used.) *)
Fixpoint ods_rows (e : sheet_conf) (hs : list scalar) (rows : grid) : R (list line) :=
  match rows with
  | [] => ret []
  | row :: rows' =>
    cells <- ods_cells e hs row ;;
    r <- ods_rows e hs rows' ;;
    let l := make_line cells in
    ret (if forallb (fun kv => is_none (snd kv)) l then r else l :: r)
  end.
(** input.py:892-928 *)
Definition ods_lines (rd : reader) (c : sheet_conf) (g : grid) : R (list line) :=
  let e := conf_of rd c in
  if rd_vertical rd then
    let g' := skipn (conf_line c) g in
    match g' with
    | [] => Raise EValueError []                       (* max() of nothing *)
    | _ =>
      let longest := fold_right (fun r w => Nat.max (length r) w) 0%nat g' in
      ods_rows e (ragged_column (skip_of e) g')
               (map (column (filter (fun r => negb (is_nil r)) g')) (seq 1 (longest - 1)))
    end
  else
    match nth_error g (skip_of e + conf_line c) with
    | None => Raise EIndexError []
    | Some hs => ods_rows e hs (skipn (skip_of e + conf_line c + header_of e) g)
    end.

(** ** All of them *)
Definition get_conf (f : fmt) : grid -> R (list scalar) := match f with Csv => csv_conf | Xlsx => xlsx_conf | Ods => ods_conf end.
Definition headings_of (f : fmt) (rd : reader) (c : sheet_conf) (name : str) (g : grid) : list scalar :=
  match f with Csv => csv_headings rd c g | Xlsx => xlsx_headings rd c name g | Ods => ods_headings rd c name g end.
Definition lines_in (f : fmt) (rd : reader) (c : sheet_conf) (g : grid) : R (list line) :=
  match f with Csv => csv_lines rd c g | Xlsx => ret (xlsx_lines rd c g) | Ods => ods_lines rd c g end.

(** [l.remove(x)] / [d.pop(x, None)] *)
Fixpoint remove1 (x : str) (l : list str) : list str :=
  match l with [] => [] | y :: l' => if str_eqb x y then l' else y :: remove1 x l' end.
(** input.py:661-671, 710-717, 804-811: include list, then exclude list *)
Definition select (rd : reader) (names : list str) : list str :=
  let inc := match rd_include rd with
             | [] => names
             | _ => fold_left (fun l n => if str_mem n (rd_include rd) then l else remove1 n l) names names
             end in
  fold_left (fun l n => remove1 n l) (rd_exclude rd) inc.

Fixpoint insert_str (x : str) (l : list str) : list str :=
  match l with [] => [x] | y :: l' => if str_leb x y then x :: l else y :: insert_str x l' end.
Fixpoint sort_str (l : list str) : list str := match l with [] => [] | x :: l' => insert_str x (sort_str l') end.
(** input.py:657-660: the sheets of a directory of CSV files *)
Definition csv_names (listing : list str) : list str :=
  sort_str (map (fun f => firstn (length f - 4) f) (filter (fun f => endswith f (u ".csv")) listing)).

(** A workbook: its sheets in order (CSV: the sheets of the directory; the
    order given does not matter).  Sheet names are distinct. *)
Definition book := list (str * grid).
Definition available (f : fmt) (b : book) : list str :=
  match f with Csv => sort_str (map fst b) | _ => map fst b end.

Fixpoint map_res {A B} (f : A -> R B) (l : list A) : R (list B) :=
  match l with [] => ret [] | x :: l' => y <- f x ;; r <- map_res f l' ;; ret (y :: r) end.

(** input.py:354-358 configure_sheets *)
Definition configure (f : fmt) (b : book) (name : str) : R (str * grid * sheet_conf) :=
  match sget name b with
  | None => Raise EKeyError []
  | Some g => l <- get_conf f g ;; c <- parse_sheet_configuration l empty_conf ;; ret (name, g, c)
  end.
(** input.py:341-352 and 370-376: a sheet without headings is not read any
    further.  No title conversion (see Model/Titles.v). *)
Definition read_sheet (f : fmt) (rd : reader) (x : str * grid * sheet_conf) : R sheet_in :=
  let '(name, g, c) := x in
  match headings_of f rd c name g with
  | [] => ret {| si_name := name; si_headings := Some []; si_lines := [] |}
  | hs => ls <- lines_in f rd c g ;; ret {| si_name := name; si_headings := Some hs; si_lines := ls |}
  end.
(** read_sheets followed by get_sub_sheets_lines.  (The code reads a sheet when
    the previous one has been processed; an exception while reading is raised
    before any processing here.) *)
Definition read_book (f : fmt) (rd : reader) (b : book) : R (list sheet_in) :=
  confs <- map_res (configure f b) (select rd (available f b)) ;;
  map_res (read_sheet f rd) confs.
