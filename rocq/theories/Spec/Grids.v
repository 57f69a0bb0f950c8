(** Sheets as grids of cells: where the headings and the data are, which sheets
    are read. *)
From Coq Require Import Sorted Permutation.
From Verif.Base Require Import PyStr PyNum PyVal PyDict Outcome.
From Verif.Model Require Import Warn Lib Convert Input Readers.

(** the cell in row [i], column [j] (from 0); outside the grid all cells are empty *)
Definition cell_at (g : grid) (i j : nat) : scalar :=
  match nth_error g i with Some r => nth j r SNone | None => SNone end.
Definition row_at (g : grid) (i : nat) : list scalar := match nth_error g i with Some r => r | None => [] end.

(** ** Configuration *)
(** the configuration in force for a sheet whose own configuration row says [c] *)
Inductive in_force (rd : reader) (c : sheet_conf) : sheet_conf -> Prop :=
| own_conf : rd_use rd = true -> c <> empty_conf -> in_force rd c c
| base_conf : rd_use rd = true -> c = empty_conf -> in_force rd c (rd_base rd)
| no_conf : rd_use rd = false -> in_force rd c empty_conf.
Definition says (o : option Z) (default n : nat) : Prop :=
  match o with None => n = default | Some z => n = Z.to_nat z end.

(** where things are: configuration row (if it says something), skipped rows,
    heading row, further header rows, data rows *)
Record layout := { ly_conf : sheet_conf; ly_heading : nat; ly_first : nat }.
Definition laid_out (rd : reader) (c : sheet_conf) (L : layout) : Prop :=
  in_force rd c (ly_conf L) /\
  exists n s h, (c = empty_conf /\ n = 0%nat \/ c <> empty_conf /\ n = 1%nat) /\
    says (sc_skip (ly_conf L)) 0 s /\ says (sc_header (ly_conf L)) 1 h /\
    ly_heading L = (n + s)%nat /\ ly_first L = (n + s + h)%nat.

(** ** Data *)
(** whether the cells under a heading are data: not under a blank heading or,
    with hashcomments, a heading starting with "#"; in CSV files always *)
Definition heading_counts (f : fmt) (e : sheet_conf) (h : scalar) : bool :=
  match f with
  | Csv => true
  | _ => negb (falsy h) && negb (sc_hash e && match h with SStr (c :: _) => (c =? 35)%N | _ => false end)
  end.
(** the (heading, value) pairs of a row *)
Definition row_values (f : fmt) (e : sheet_conf) (hs row : list scalar) : list (scalar * scalar) :=
  filter (fun hv => heading_counts f e (fst hv) && negb (blank (snd hv))) (combine hs row).
Definition line_values (l : line) : list (scalar * scalar) := filter (fun hv => negb (blank (snd hv))) l.
Definition non_empty {A} (l : list (list A)) : list (list A) := filter (fun x => negb (is_nil x)) l.
(** no heading that counts is repeated *)
Definition once_headings (f : fmt) (e : sheet_conf) (hs : list scalar) : Prop :=
  ForallOrdPairs (fun a b => py_eqb b a = true -> heading_counts f e a = false /\ heading_counts f e b = false) hs.
(** a sheet that is read at all *)
Definition is_read (f : fmt) (e : sheet_conf) (name : str) : Prop :=
  sc_ignore e = false /\ (f = Csv \/ sc_hash e = false \/ match name with c :: _ => c <> 35%N | [] => True end).
(** ODS files cannot have headings other than texts next to hashcomments *)
Definition hash_ok (f : fmt) (e : sheet_conf) (hs : list scalar) : Prop :=
  f = Ods -> sc_hash e = true -> forall h, In h hs -> falsy h = true \/ exists s, h = SStr s.

(** ** Sheets *)
Definition wanted (rd : reader) (n : str) : bool :=
  (is_nil (rd_include rd) || str_mem n (rd_include rd)) && negb (str_mem n (rd_exclude rd)).
(** texts in alphabetical (code point) order *)
Inductive not_after : str -> str -> Prop :=
| na_nil t : not_after [] t
| na_lt a b s t : (a < b)%N -> not_after (a :: s) (b :: t)
| na_eq a s t : not_after s t -> not_after (a :: s) (a :: t).
(** [sheet_order f names l]: [l] is [names] in the order in which the sheets are read *)
Definition sheet_order (f : fmt) (names l : list str) : Prop :=
  match f with Csv => Permutation names l /\ StronglySorted not_after l | _ => l = names end.

(** ** The same sheet in different formats *)
(** the same cells, blank cells being all the same *)
Definition alike (g g' : grid) : Prop :=
  forall i j, cell_at g i j = cell_at g' i j \/ (blank (cell_at g i j) = true /\ blank (cell_at g' i j) = true).
(** [tidy f e g hrow first A]: the headings of the sheet are the different texts
    [A], in the first columns of row [hrow] (none of them a hash comment), and
    there is nothing else in that row and no data outside these columns *)
Definition tidy (e : sheet_conf) (g : grid) (L : layout) (A : list str) : Prop :=
  NoDup A /\ (forall s, In s A -> s <> [] /\ (sc_hash e = true -> hd 0%N s <> 35%N)) /\
  (forall j, (j < length A)%nat -> cell_at g (ly_heading L) j = SStr (nth j A [])) /\
  (forall i j, (length A <= j)%nat -> i = ly_heading L \/ (ly_first L <= i)%nat -> blank (cell_at g i j) = true).
(** every row with data has a root id, or there is no root id column *)
Definition rooted (O : opts) (g : grid) (L : layout) (A : list str) : Prop :=
  o_root_id O = [] \/ ~ In (o_root_id O) A \/
  exists k, nth_error A k = Some (o_root_id O) /\
    forall i j, (ly_first L <= i)%nat -> blank (cell_at g i j) = false -> blank (cell_at g i k) = false.

(** ** Sheets whose rows and columns can be told from the lines read *)
(** the sheet [name] of the workbook is [g], and its configuration says [c] *)
Definition sheet_of (f : fmt) (b : book) (name : str) (g : grid) (c : sheet_conf) : Prop :=
  sget name b = Some g /\ bind (get_conf f g) (fun l => parse_sheet_configuration l empty_conf) = Ok c [].
(** all headings are different (at most one is empty), all header rows exist,
    there are no empty lines in CSV files and no rows without data in ODS files *)
Definition locatable (f : fmt) (g : grid) (L : layout) : Prop :=
  (ly_heading L < ly_first L)%nat /\ (ly_first L <= length g)%nat /\
  ForallOrdPairs (fun a b => py_eqb b a = false) (row_at g (ly_heading L)) /\
  hash_ok f (ly_conf L) (row_at g (ly_heading L)) /\
  forall i row, (ly_first L <= i)%nat -> nth_error g i = Some row ->
    match f with Csv => row <> [] | Xlsx => True | Ods => row_values f (ly_conf L) (row_at g (ly_heading L)) row <> [] end.

(** the commands in a configuration row *)
Definition commands_in (row : list scalar) : list str := flat_map (fun v => match v with SStr (c :: s) => [c :: s] | _ => [] end) row.

(** [same_books O f f' rd b b']: the two workbooks have the same sheets, which
    are read in the same order; each sheet shows the same cells in both, and what
    is read of it is tidy, whatever its configuration *)
Definition same_books (O : opts) (f f' : fmt) (rd : reader) (b b' : book) : Prop :=
  available f b = available f' b' /\
  forall name g g', sget name b = Some g -> sget name b' = Some g' -> alike g g' /\
    forall c L, laid_out rd c L -> sheet_of f b name g c ->
      (ly_heading L < ly_first L)%nat /\ (sc_hash (ly_conf L) = true -> hd 0%N name <> 35%N) /\
      exists A, tidy (ly_conf L) g L A /\ rooted O g L A.
