(** ODSReader: the cells of an ODS file.

    Modelled code: flattentool/ODSReader.py:35-113.  The odf library gives the
    rows of a sheet and the elements of a row; a document is modelled as those.
    [float(text)] and [datetime.fromisoformat(text)] are oracles. *)
From Verif.Base Require Import PyStr PyNum PyVal PyDict Outcome.
From Verif.Model Require Import Warn Lib Readers.
Local Open Scope res_scope.

(** A cell element of a row.  [oc_covered]: it is a table:covered-table-cell
    (a cell hidden by a merged one), which [getElementsByType(TableCell)] does
    not return.  Attributes are texts, or absent. *)
Record ods_cell := {
  oc_covered : bool;
  oc_repeat : option str;       (** table:number-columns-repeated *)
  oc_spanned : option str;      (** table:number-columns-spanned *)
  oc_text : str;                (** str(cell) *)
  oc_type : option str;         (** office:value-type *)
  oc_value : option str;        (** office:value *)
  oc_date : option str          (** office:date-value *)
}.
(** A row element; table:number-rows-repeated is never looked at. *)
Record ods_row := { or_repeat : option str; or_cells : list ods_cell }.

Record ods_env := {
  oe_float : str -> option scalar;    (** float(text); None: ValueError *)
  oe_date : str -> option scalar      (** datetime.fromisoformat(text) *)
}.

(** ODSReader.py:34-38 GrowingList.__setitem__ *)
Definition grow_set (l : list scalar) (i : nat) (v : scalar) : list scalar :=
  let l' := l ++ repeat SNone (i + 1 - length l) in
  firstn i l' ++ v :: skipn (S i) l'.

(** [if not x] on an attribute *)
Definition attr_text (a : option str) : option str := match a with Some [] => None | _ => a end.
Definition int_of (s : str) : R Z := match parse_int s with Some z => ret z | None => Raise EValueError [] end.

(** ODSReader.py:66-74: how many columns a cell takes *)
Definition cell_repeat (clone : bool) (c : ods_cell) : R nat :=
  match attr_text (oc_repeat c) with
  | Some s => z <- int_of s ;; ret (Z.to_nat z)
  | None =>
    sp <- (match attr_text (oc_spanned c) with Some s => int_of s | None => ret 0%Z end) ;;
    ret (if clone && (1 <? sp)%Z then Z.to_nat sp else 1%nat)
  end.

(** ODSReader.py:78-108: the value of a cell with some text *)
Definition ljust0 (n : nat) (s : str) : str := s ++ repeat 48%N (n - length s).
Definition cell_value (E : ods_env) (c : ods_cell) : R scalar :=
  match oc_type c with
  | Some t =>
    if str_eqb t (u "float") then
      match oc_value c with
      | None => Raise ETypeError []                       (* int(None) *)
      | Some v => if str_mem [46%N] (map (fun x => [x]) v)      (* "." in value *)
                  then match oe_float E v with Some x => ret x | None => Raise EValueError [] end
                  else z <- int_of v ;; ret (SInt z)
      end
    else if str_eqb t (u "date") then
      match oc_date c with
      | None => Raise ETypeError []                       (* "." in None *)
      | Some d => let d' := if str_mem [46%N] (map (fun x => [x]) d) then ljust0 26 d else d in
                  match oe_date E d' with Some x => ret x | None => Raise EValueError [] end
      end
    else ret (SStr (oc_text c))
  | None => ret (SStr (oc_text c))
  end.

(** ODSReader.py:76-110: the loop [for rr in range(int(repeat))] *)
Fixpoint put_cell (E : ods_env) (c : ods_cell) (n : nat) (st : list scalar * nat) : R (list scalar * nat) :=
  match n with
  | 0%nat => ret st
  | S n' =>
    let '(arr, count) := st in
    arr' <- (match oc_text c with [] => ret arr | _ => v <- cell_value E c ;; ret (grow_set arr count v) end) ;;
    put_cell E c n' (arr', S count)
  end.
Fixpoint put_cells (E : ods_env) (clone : bool) (cs : list ods_cell) (st : list scalar * nat) : R (list scalar * nat) :=
  match cs with
  | [] => ret st
  | c :: cs' => n <- cell_repeat clone c ;; st' <- put_cell E c n st ;; put_cells E clone cs' st'
  end.
(** ODSReader.py:57-112: a row; [row.getElementsByType(TableCell)] *)
Definition read_row (E : ods_env) (clone : bool) (r : ods_row) : R (list scalar) :=
  st <- put_cells E clone (filter (fun c => negb (oc_covered c)) (or_cells r)) ([], 0%nat) ;; ret (fst st).
(** ODSReader.py:50-114 readSheet; 42-46: all sheets.  [self.SHEETS[name] = ...] *)
Definition read_ods_sheet (E : ods_env) (clone : bool) (rows : list ods_row) : R grid := map_res (read_row E clone) rows.
Fixpoint read_ods (E : ods_env) (clone : bool) (doc : list (str * list ods_row)) (b : book) : R book :=
  match doc with
  | [] => ret b
  | (name, rows) :: doc' => g <- read_ods_sheet E clone rows ;; read_ods E clone doc' (sset name g b)
  end.
