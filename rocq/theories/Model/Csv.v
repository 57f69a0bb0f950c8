(** CSV at the level of text.

    Modelled code: /repo/flattentool/output.py:92-108 (CSVOutput.write_sheet, the
    text it produces), input.py:55-67 (NullCharacterFilter), 644-650, 690-707 (the
    rows read from a file).  Python's csv module (writer and reader with the
    "excel" dialect: delimiter ",", quote character """", doubled quotes, minimal
    quoting, not strict) and text files opened with the default newline handling
    are modelled as in CPython 3.11, Modules/_csv.c.

    Files are texts (lists of code points) here; their bytes are in Model/Utf8.v. *)
From Verif.Base Require Import PyStr PyNum PyVal PyDict Outcome.
From Verif.Model Require Import Warn Lib Readers.
Local Open Scope res_scope.

Definition comma : N := 44%N.
Definition dquote : N := 34%N.
Definition lf : N := 10%N.
Definition cr : N := 13%N.
(** output.py:175 LINE_TERMINATORS *)
Inductive term := LF | CRLF.
Definition term_str (t : term) : str := match t with LF => [lf] | CRLF => [cr; lf] end.

(** ** csv.writer *)
(** QUOTE_MINIMAL: a field is quoted if it contains the delimiter, the quote
    character, "\r", "\n" or a character of the line terminator (CPython 3.11.10;
    earlier versions do not quote "\r" if the line terminator is "\n") *)
Definition special (c : N) : bool := (c =? comma)%N || (c =? dquote)%N || (c =? cr)%N || (c =? lf)%N.
Definition double_quotes (s : str) : str := flat_map (fun c => if (c =? dquote)%N then [c; c] else [c]) s.
Definition write_field (s : str) : str :=
  if existsb special s then [dquote] ++ double_quotes s ++ [dquote] else s.
(** a row that consists of one empty field is written as two quotes *)
Definition write_row (t : term) (row : list str) : str :=
  (match row with [ [] ] => [dquote; dquote] | _ => join [comma] (map write_field row) end) ++ term_str t.
Definition write_csv (t : term) (rows : list (list str)) : str := flat_map (write_row t) rows.

(** ** Reading a text file *)
(** universal newlines: open(name) translates "\r\n" and "\r" *)
Fixpoint newlines (s : str) : str :=
  match s with
  | [] => []
  | c :: s' =>
    if (c =? cr)%N then lf :: match s' with
                             | c' :: s'' => if (c' =? lf)%N then newlines s'' else newlines s'
                             | [] => []
                             end
    else c :: newlines s'
  end.
(** the lines of a file, each with its "\n" *)
Fixpoint text_lines (s : str) : list str :=
  match s with
  | [] => []
  | c :: s' => if (c =? lf)%N then [c] :: text_lines s'
               else match text_lines s' with [] => [[c]] | l :: ls => (c :: l) :: ls end
  end.
(** input.py:63-64: NullCharacterFilter.__next__ *)
Definition drop_nul (s : str) : str := filter (fun c => negb (c =? 0)%N) s.

(** ** csv.reader *)
Inductive cstate := StartRecord | StartField | InField | InQuoted | QuoteInQuoted | EatCrnl.
Record creader := {
  cr_state : cstate;
  cr_field : str;             (** the characters so far, last first *)
  cr_len : N;                 (** how many *)
  cr_fields : list str        (** the fields so far, last first *)
}.
Definition cr_start : creader := {| cr_state := StartRecord; cr_field := []; cr_len := 0; cr_fields := [] |}.
(** csv.field_size_limit() *)
Definition field_limit : N := 131072%N.
Definition goto (s : cstate) (r : creader) : creader :=
  {| cr_state := s; cr_field := cr_field r; cr_len := cr_len r; cr_fields := cr_fields r |}.
(** parse_save_field *)
Definition save_field (s : cstate) (r : creader) : creader :=
  {| cr_state := s; cr_field := []; cr_len := 0; cr_fields := rev (cr_field r) :: cr_fields r |}.
(** parse_add_char; _csv.Error is not one of the named exceptions *)
Definition add_char (c : N) (s : cstate) (r : creader) : R creader :=
  if (field_limit <=? cr_len r)%N then Raise EOther []
  else ret {| cr_state := s; cr_field := c :: cr_field r; cr_len := (cr_len r + 1)%N; cr_fields := cr_fields r |}.
Definition is_newline (c : N) : bool := (c =? lf)%N || (c =? cr)%N.
(** parse_process_char; [None] is the end of a line.  In the states StartField,
    InField and QuoteInQuoted: the end of the line ends the record, a newline
    character is followed by nothing else. *)
Definition end_state (e : option N) : option cstate :=
  match e with None => Some StartRecord | Some c => if is_newline c then Some EatCrnl else None end.
Definition in_field_start (e : option N) (r : creader) : R creader :=
  match end_state e, e with
  | Some s, _ => ret (save_field s r)
  | None, Some c => if (c =? dquote)%N then ret (goto InQuoted r)
                    else if (c =? comma)%N then ret (save_field StartField r)
                    else add_char c InField r
  | None, None => ret r
  end.
Definition process_char (e : option N) (r : creader) : R creader :=
  match cr_state r with
  | StartRecord =>
    match e with
    | None => ret r
    | Some c => if is_newline c then ret (goto EatCrnl r) else in_field_start e (goto StartField r)
    end
  | StartField => in_field_start e r
  | InField =>
    match end_state e, e with
    | Some s, _ => ret (save_field s r)
    | None, Some c => if (c =? comma)%N then ret (save_field StartField r) else add_char c InField r
    | None, None => ret r
    end
  | InQuoted =>
    match e with
    | None => ret r
    | Some c => if (c =? dquote)%N then ret (goto QuoteInQuoted r) else add_char c InQuoted r
    end
  | QuoteInQuoted =>
    match end_state e, e with
    | Some s, _ => ret (save_field s r)
    | None, Some c => if (c =? dquote)%N then add_char c InQuoted r
                      else if (c =? comma)%N then ret (save_field StartField r)
                      else add_char c InField r
    | None, None => ret r
    end
  | EatCrnl =>
    match e with
    | None => ret (goto StartRecord r)
    | Some c => if is_newline c then ret r else Raise EOther []
    end
  end.
Fixpoint process_line (l : str) (r : creader) : R creader :=
  match l with
  | [] => process_char None r
  | c :: l' => r' <- process_char (Some c) r ;; process_line l' r'
  end.
(** Reader.__next__, called until the lines are used up.  At the end of the file
    inside a quoted field what has been read is a row. *)
Fixpoint read_records (ls : list str) (r : creader) : R (list (list str)) :=
  match ls with
  | [] => ret (match cr_state r, cr_len r with
               | InQuoted, _ => [rev (rev (cr_field r) :: cr_fields r)]
               | _, 0%N => []
               | _, _ => [rev (rev (cr_field r) :: cr_fields r)]
               end)
  | l :: ls' =>
    r' <- process_line l r ;;
    match cr_state r' with
    | StartRecord => rows <- read_records ls' cr_start ;; ret (rev (cr_fields r') :: rows)
    | _ => read_records ls' r'
    end
  end.
(** the rows that csvreader(NullCharacterFilter(open(...))) gives *)
Definition read_csv (text : str) : R (list (list str)) :=
  read_records (map drop_nul (text_lines (newlines text))) cr_start.
(** the sheet read from a CSV file *)
Definition csv_grid (rows : list (list str)) : grid := map (map SStr) rows.

(** ** A directory of CSV files (input.py:652-661, os.listdir).
    Files are given by path.  [dir_prefix d ++ n] is [os.path.join(d, n)]. *)
Definition slash : N := 47%N.
Definition dir_prefix (d : str) : str := match d with [] => [] | _ => if endswith d [slash] then d else d ++ [slash] end.
Fixpoint strip_prefix (p s : str) : option str :=
  match p, s with
  | [], _ => Some s
  | x :: p', y :: s' => if (x =? y)%N then strip_prefix p' s' else None
  | _ :: _, [] => None
  end.
Definition in_dir (d path : str) : option str :=
  match strip_prefix (dir_prefix d) path with
  | Some n => if mem_c slash n then None else match n with [] => None | _ => Some n end
  | None => None
  end.
Definition listing (d : str) (fs : list (str * str)) : list (str * str) :=
  flat_map (fun f => match in_dir d (fst f) with Some n => [(n, snd f)] | None => [] end) fs.
(** the sheets of the directory *)
Definition csv_book (d : str) (fs : list (str * str)) : R book :=
  map_res (fun f => rows <- read_csv (snd f) ;; ret (firstn (length (fst f) - 4) (fst f), csv_grid rows))
          (filter (fun f => endswith (fst f) (u ".csv")) (listing d fs)).
