(** Model of the unflattening core of /repo/flattentool/input.py: one row
    ([unflatten_main_with_parser]), [TemporaryDict], [merge], [do_unflatten],
    value extraction.

    SIMPLIFICATIONS (whole file).
    - Value semantics.  Python mutates shared objects; the only sharing that can
      be observed is a [Cell] stored at two places of one row, which needs a
      heading with an empty path segment (or an XML array column), see
      DESIGN.md.
    - Trees are typed by stage: [rnode] while a row is being built (Cell,
      OrderedDict, ListAsDict), [tnode] afterwards (Cell, OrderedDict,
      TemporaryDict), [jnode] at the end (Cell, OrderedDict, list).  The code
      keeps to these stages too. *)
From Verif.Base Require Import PyStr PyNum PyVal PyDict Outcome.
From Verif.Model Require Import Warn Lib Convert.
Local Open Scope res_scope.

(** input.py:48-52 *)
Record cell := { c_val : cellval; c_loc : loc; c_sub : list (cellval * loc) }.
Definition mk_cell (v : cellval) (l : loc) : cell := {| c_val := v; c_loc := l; c_sub := [] |}.
(** input.py:269 [base[key].sub_cells.append(v)].  The sub cells of [v] itself are
    dropped (they are empty: [v] comes straight from one row). *)
Definition add_sub (b v : cell) : cell :=
  {| c_val := c_val b; c_loc := c_loc b; c_sub := c_sub b ++ [(c_val v, c_loc v)] |}.

Inductive rnode :=
| RCell (c : cell)
| RDict (d : list (str * rnode))
| RLad (l : list (Z * list (str * rnode))).
Definition rdict := list (str * rnode).

Inductive tnode :=
| TCell (c : cell)
| TDict (d : list (str * tnode))
| TTemp (data : list (scalar * list (str * tnode))) (nokey : list (list (str * tnode))).
Definition tdict := list (str * tnode).
Definition ttemp := (list (scalar * tdict) * list tdict)%type.

Inductive jnode :=
| JCell (c : cell)
| JDict (d : list (str * jnode))
| JList (l : list (list (str * jnode))).
Definition jdict := list (str * jnode).

(** Dicts keyed by Python values / by int *)
Definition kget {V} : scalar -> list (scalar * V) -> option V := aget py_eqb.
Definition kset {V} : scalar -> V -> list (scalar * V) -> list (scalar * V) := aset py_eqb.
Definition zget {V} : Z -> list (Z * V) -> option V := aget Z.eqb.
Definition zset {V} : Z -> V -> list (Z * V) -> list (Z * V) := aset Z.eqb.

Definition slash : N := 47%N.
Definition is_bracket (c : N) : bool := ((c =? 91) || (c =? 93))%N.
(** input.py:994 [[item.rstrip("[]") for item in str(path).split("/")]] *)
Definition path_items (E : env) (h : scalar) : list str :=
  map (rstrip is_bracket) (split_on slash (py_str E h)).
(** input.py:1006-1008 *)
Definition path_till (seen : list str) : str := join [slash] (filter (fun i => negb (isint i)) seen).

Definition is_empty (s : str) : bool := match s with [] => true | _ => false end.
Definition text_key : str := u "text()".

Section Row.
  Variable E : conv_env.
  (** [parser.flattened.get]; no parser, or no entry, is the empty string *)
  Variable types : str -> str.
  Variable xml : bool.
  Variable id_name : str.

  Section Column.
    Variable header : scalar.   (** [path] in the code: the column's dict key *)
    Variable location : loc.

    Definition is_datetime (v : cellval) : bool := match v with CV (SDt _) => true | _ => false end.

    (** The loop over path items, input.py:995-1133, for the rest of the path.
        [cur] is the dict that [current_path] points at; the result is its new
        contents.  [v] is the cell's current value. *)
    Fixpoint walk (seen rest : list str) (v : cellval) (cur : rdict) {struct rest} : R rdict :=
      match rest with
      | [] => ret cur
      | item :: rest' =>
        let seen' := seen ++ [item] in
        if isint item then                                                       (* 996-1004 *)
          _ <- (match seen with [] => warn1 (WNumberColumn header) | _ => ret tt end) ;;
          walk seen' rest' v cur
        else
          let till := path_till seen' in
          let next := match rest' with [] => [] | n :: _ => n end in             (* 1011-1014 *)
          let ct :=                                                              (* 1005-1020 *)
            if xml && is_datetime v && is_empty next && negb (contains (py_str E header) (u "datetime"))
            then u "date" else types till in
          let cell_of conv := RCell (mk_cell conv location) in
          (* 1033-1055 *)
          let array (idx : Z) : R rdict :=
            match (match sget item cur with
                   | None => Some []
                   | Some (RLad l) => Some l
                   | Some _ => None
                   end) with
            | None => _ <- warn1 (WColumnArray header till) ;; ret cur           (* break *)
            | Some l =>
              let sub := match zget idx l with Some d => d | None => [] end in
              if negb xml || (2 <=? Datatypes.length rest')%nat then
                sub' <- walk seen' rest' v sub ;;
                ret (sset item (RLad (zset idx sub' l)) cur)
              else                                                               (* 1102-1105, 1124-1127 *)
                conv <- convert_type E [] v ;;
                let sub1 := if cv_blank conv then sub
                            else if startswith item (u "@") then sset item (cell_of conv) sub
                            else sset text_key (cell_of conv) sub in
                sub' <- walk seen' rest' conv sub1 ;;
                ret (sset item (RLad (zset idx sub' l)) cur)
            end in
          match parse_int next with
          | Some idx =>                                                          (* 1024-1032 *)
            if negb (is_empty ct) && negb (str_eqb ct (u "array")) then Raise (EFlattenToolValueError till) []
            else array idx
          | None =>
            if str_eqb ct (u "array") then array (-1)%Z
            else if str_eqb ct (u "object") || (is_empty ct && negb (is_empty next)) then  (* 1057-1073 *)
              match (match sget item cur with
                     | None => Some []
                     | Some (RDict d) => Some d
                     | Some _ => None
                     end) with
              | None => _ <- warn1 (WColumnObject header till) ;; ret cur        (* break *)
              | Some sub =>
                sub' <- walk seen' rest' v sub ;;
                ret (sset item (RDict sub') cur)
              end
            else if negb (is_empty ct) && negb (is_empty next) then              (* 1074-1082 *)
              Raise (EFlattenToolValueError till) []
            else                                                                 (* 1084-1133 *)
              match xml, sget item cur with
              | false, Some (RLad _) | false, Some (RDict _) =>
                _ <- warn1 (WColumnValue till) ;; walk seen' rest' v cur
              | _, old =>
                conv <- convert_type E ct v ;;
                cur' <- (if cv_blank conv then ret cur
                         else if negb xml || startswith item (u "@") then ret (sset item (cell_of conv) cur)
                         else match old with
                              | None => ret (sset item (RDict [(text_key, cell_of conv)]) cur)
                              | Some (RDict d) => ret (sset item (RDict (sset text_key (cell_of conv) d)) cur)
                              | Some (RCell _) => Raise ETypeError []
                              (* a str key in a ListAsDict: [sorted] raises TypeError at the end of the row *)
                              | Some (RLad _) => Raise ETypeError []
                              end) ;;
                walk seen' rest' conv cur'
              end
          end
      end.
  End Column.

  (** input.py:989-1133: all columns of a row; blank cells are skipped (991-992) *)
  Fixpoint build_row (line : list (scalar * cell)) (cur : rdict) : R rdict :=
    match line with
    | [] => ret cur
    | (h, c) :: line' =>
      if cv_blank (c_val c) then build_row line' cur
      else cur' <- walk h (c_loc c) [] (path_items E h) (c_val c) cur ;; build_row line' cur'
    end.

  (** input.py:1189-1205: the key of an item; [None] when it has none *)
  Definition item_key (item : tdict) : R (option scalar) :=
    let hashed (c : cell) := match c_val c with
                             | CV s => if hashable (CV s) then ret (Some s) else Raise ETypeError []
                             | _ => Raise ETypeError []
                             end in
    match sget id_name item with
    | None => ret None
    | Some (TCell c) => hashed c
    | Some (TDict d) =>
      if xml then match sget text_key d with
                  | Some (TCell c) => hashed c
                  | Some _ => Raise ETypeError []
                  | None => Raise EKeyError []
                  end
      else Raise ETypeError []
    | Some (TTemp _ _) => if xml then Raise EKeyError [] else Raise ETypeError []
    end.

  (** input.py:1189-1210 TemporaryDict.append *)
  Definition temp_append (t : ttemp) (item : tdict) : R ttemp :=
    let '(data, nokey) := t in
    k <- item_key item ;;
    match k with
    | None => ret (data, nokey ++ [item])
    | Some k => match kget k data with
                | None => ret (kset k item data, nokey)
                | Some old => ret (kset k (aupdate str_eqb old item) data, nokey)
                end
    end.
  Fixpoint temp_of_list (t : ttemp) (l : list tdict) : R ttemp :=
    match l with
    | [] => ret t
    | d :: l' => t' <- temp_append t d ;; temp_of_list t' l'
    end.

  Fixpoint insert_z {V} (x : Z * V) (l : list (Z * V)) : list (Z * V) :=
    match l with
    | [] => [x]
    | y :: l' => if (fst x <=? fst y)%Z then x :: l else y :: insert_z x l'
    end.
  (** [sorted(value.keys())] *)
  Fixpoint sort_z {V} (l : list (Z * V)) : list (Z * V) :=
    match l with [] => [] | x :: l' => insert_z x (sort_z l') end.

  (** input.py:971-984 list_as_dicts_to_temporary_dicts.  [fin_dict] is the loop
      over the entries of a dict: an empty dict is popped, others are rewritten
      in place.  (A ListAsDict is never empty here, it is created together with
      its first entry.) *)
  Section Fin.
    Variable fin : rnode -> R tnode.
    Fixpoint fin_dict (d : rdict) : R tdict :=
      match d with
      | [] => ret []
      | (k, RDict []) :: d' => fin_dict d'
      | (k, n) :: d' => n' <- fin n ;; r <- fin_dict d' ;; ret ((k, n') :: r)
      end.
    (** the entries of a ListAsDict; an empty item is popped *)
    Fixpoint fin_items (l : list (Z * rdict)) : R (list (Z * tdict)) :=
      match l with
      | [] => ret []
      | (i, []) :: l' => fin_items l'
      | (i, d) :: l' => d' <- fin_dict d ;; r <- fin_items l' ;; ret ((i, d') :: r)
      end.
  End Fin.
  Fixpoint fin (n : rnode) : R tnode :=
    match n with
    | RCell c => ret (TCell c)
    | RDict d => d' <- fin_dict fin d ;; ret (TDict d')
    | RLad l =>
      l' <- fin_items fin l ;;
      t <- temp_of_list ([], []) (map snd (sort_z l')) ;;
      ret (TTemp (fst t) (snd t))
    end.

  (** input.py:987-1134 unflatten_main_with_parser *)
  Definition unflatten_row (line : list (scalar * cell)) : R tdict :=
    d <- build_row line [] ;; fin_dict fin d.
End Row.

(** input.py:168-181 warnings_for_ignored_columns: one warning per cell *)
Fixpoint node_cells (n : tnode) : list cell :=
  match n with
  | TCell c => [c]
  | TDict d => (fix go (d : tdict) := match d with [] => [] | (_, n) :: d' => node_cells n ++ go d' end) d
  | TTemp data nokey =>
    (fix god (l : list (scalar * tdict)) :=
       match l with
       | [] => []
       | (_, d) :: l' => (fix go (d : tdict) := match d with [] => [] | (_, n) :: d' => node_cells n ++ go d' end) d ++ god l'
       end) data ++
    (fix gon (l : list tdict) :=
       match l with
       | [] => []
       | d :: l' => (fix go (d : tdict) := match d with [] => [] | (_, n) :: d' => node_cells n ++ go d' end) d ++ gon l'
       end) nokey
  end.
Definition ignored (n : tnode) (y : why) : list warning :=
  map (fun c => WIgnored (l_heading (c_loc c)) y) (node_cells n).

(** the [debug_info] of input.py:498-504 *)
Record debug := { dbg_sheet : str; dbg_root_id : str; dbg_root : scalar; dbg_id_name : str; dbg_id : cellval }.

(** input.py:184-274 merge.  [merge_item k v base] is one iteration of the loop
    over [mergee.items()]. *)
Section Merge.
  Variable dbg : debug.
  Section Rec.
    Variable rec : str -> tnode -> tdict -> R tdict.
    Fixpoint merge_list (m : tdict) (base : tdict) : R tdict :=
      match m with
      | [] => ret base
      | (k, v) :: m' => base' <- rec k v base ;; merge_list m' base'
      end.
    (** input.py:203-215 *)
    Fixpoint merge_data (data : list (scalar * tdict)) (bdata : list (scalar * tdict)) : R (list (scalar * tdict)) :=
      match data with
      | [] => ret bdata
      | (k, d) :: data' =>
        match kget k bdata with
        | Some b => b' <- merge_list d b ;; merge_data data' (kset k b' bdata)
        | None => merge_data data' (kset k d bdata)
        end
      end.
  End Rec.
  Fixpoint merge_item (k : str) (v : tnode) (base : tdict) {struct v} : R tdict :=
    match sget k base with
    | None => ret (sset k v base)                                                  (* 272-274 *)
    | Some b =>
      match v with
      | TTemp data nokey =>                                                        (* 193-217 *)
        match b with
        | TTemp bdata bnokey =>
          bdata' <- merge_data merge_item data bdata ;;
          ret (sset k (TTemp bdata' (bnokey ++ nokey)) base)
        | _ => Ok base (ignored v (WhyArray k))
        end
      | TDict d =>                                                                 (* 218-227 *)
        match b with
        | TDict bd => bd' <- merge_list merge_item d bd ;; ret (sset k (TDict bd') base)
        | _ => Ok base (ignored v (WhyObject k))
        end
      | TCell c =>
        match c_val c, b with
        | CGeo _, _ => Ok base (ignored v (WhyObject k))      (* a geometry is a dict, 218-227 *)
        | cv, TCell bc =>                                                          (* 243-270 *)
          if cv_eqb (c_val bc) cv then ret (sset k (TCell (add_sub bc c)) base)
          else Ok base [WDuplicate (dbg_root_id dbg) (dbg_root dbg) (dbg_id_name dbg) (dbg_id dbg)
                                   k (dbg_sheet dbg) (c_val bc) cv]
        | _, _ => Ok base (ignored v WhyContainer)                                 (* 229-242 *)
        end
      end
    end.
  Definition merge (base mergee : tdict) : R tdict := merge_list merge_item mergee base.
End Merge.

(** openpyxl.utils.cell.get_column_letter, for n >= 1 (bijective base 26).
    SIMPLIFICATION: the upper limit 18278 (ValueError) is not modelled. *)
Fixpoint column_letter_fuel (fuel : nat) (n : N) (acc : str) : str :=
  match fuel with
  | O => acc
  | S f => if (n =? 0)%N then acc
           else let r := ((n - 1) mod 26)%N in
                column_letter_fuel f ((n - 1) / 26)%N ((65 + r)%N :: acc)
  end.
Definition column_letter (n : N) : str := column_letter_fuel (N.to_nat (N.size n)) n [].

Definition main_state := list (scalar * ttemp).

(** The options of SpreadsheetInput used by do_unflatten, input.py:301-334. *)
Record opts := {
  o_conv : conv_env;
  o_types : str -> str;
  o_root_id : str;        (** "" when falsy *)
  o_id_name : str;
  o_xml : bool;
  o_vertical : bool }.

Section Unflatten.
  Variable O : opts.

  (** input.py:450-463: the cells of a line with their locations *)
  Fixpoint line_cells (sheet : str) (headings : option (list scalar)) (j : N) (k : N) (line : list (scalar * scalar))
    : R (list (scalar * cell)) :=
    match line with
    | [] => ret []
    | (h, v) :: line' =>
      heading <- (match headings with
                  | None => ret h
                  | Some hs => match nth_error hs (N.to_nat k) with
                               | Some x => ret x
                               | None => Raise EIndexError []
                               end
                  end) ;;
      let col := if o_vertical O then N_str (k + 1)%N else column_letter (k + 1)%N in
      r <- line_cells sheet headings j (k + 1)%N line' ;;
      ret ((h, mk_cell (CV v) {| l_sheet := sheet; l_col := col; l_row := (j + 2)%N; l_heading := heading |}) :: r)
    end.

  (** input.py:448 [line.get(self.root_id) if self.root_id else None] *)
  Definition line_root (line : list (scalar * scalar)) : scalar :=
    match o_root_id O with
    | [] => SNone
    | _ => match kget (SStr (o_root_id O)) line with Some v => v | None => SNone end
    end.

  (** input.py:477-483 inthere *)
  Definition main_id (d : tdict) : R (option scalar) :=
    let hashed (c : cell) := match c_val c with
                             | CV s => if hashable (CV s) then ret (Some s) else Raise ETypeError []
                             | _ => Raise ETypeError []
                             end in
    match sget (o_id_name O) d with
    | None => ret None
    | Some (TCell c) => hashed c
    | Some (TDict e) =>
      if o_xml O then match sget text_key e with
                      | Some (TCell c) => hashed c
                      | Some _ => Raise EAttributeError []
                      | None => Raise EKeyError []
                      end
      else Raise EAttributeError []
    | Some (TTemp _ _) => if o_xml O then Raise EKeyError [] else Raise EAttributeError []
    end.

  (** input.py:472-508: place one unflattened row in the main sheet *)
  Definition place (sheet : str) (root : scalar) (d : tdict) (st : main_state) : R main_state :=
    let t := match kget root st with Some t => t | None => ([], []) end in
    k <- main_id d ;;
    match match k with Some k => match kget k (fst t) with Some old => Some (k, old) | None => None end | None => None end with
    | Some (k, old) =>
      new <- merge {| dbg_sheet := sheet; dbg_root_id := o_root_id O; dbg_root := root;
                      dbg_id_name := o_id_name O; dbg_id := CV k |} old d ;;
      ret (kset root (kset k new (fst t), snd t) st)
    | None =>
      t' <- temp_append (o_xml O) (o_id_name O) t d ;;
      ret (kset root t' st)
    end.

  (** input.py:444-508: one line *)
  Definition do_line (sheet : str) (headings : option (list scalar)) (j : N) (line : list (scalar * scalar)) (st : main_state)
    : R main_state :=
    if forallb (fun kv => blank (snd kv)) line then ret st
    else
      cells <- line_cells sheet headings j 0%N line ;;
      d <- unflatten_row (o_conv O) (o_types O) (o_xml O) (o_id_name O) cells ;;
      place sheet (line_root line) d st.

  Fixpoint do_lines (sheet : str) (headings : option (list scalar)) (j : N) (lines : list (list (scalar * scalar))) (st : main_state)
    : R main_state :=
    match lines with
    | [] => ret st
    | l :: lines' => st' <- do_line sheet headings j l st ;; do_lines sheet headings (j + 1)%N lines' st'
    end.

  (** input.py:380-392: headings that occur more than once.  [found] maps a
      heading to the list of its columns, read from the right; the first entry
      (the kept one) is not a column number in the code, only its presence
      matters. *)
  Fixpoint found_rev (n : N) (rev_headings : list scalar) (found : list (scalar * list N)) : list (scalar * list N) :=
    match rev_headings with
    | [] => found
    | SNone :: r => found_rev (n - 1)%N r found
    | h :: r =>
      match kget h found with
      | Some cols => found_rev (n - 1)%N r (kset h (cols ++ [(n - 1)%N]) found)
      | None => found_rev (n - 1)%N r (kset h [] found)
      end
    end.
  (** input.py:393-439 *)
  Definition heading_warnings (sheet : str) (hs : list scalar) : list warning :=
    let found := found_rev (N.of_nat (Datatypes.length hs)) (rev hs) [] in
    flat_map (fun hc : scalar * list N =>
                match snd hc with
                | [] => []
                | ignoring => [WDuplicateHeading (fst hc) (map (fun x => column_letter (x + 1)%N) (rev ignoring)) sheet]
                end) (rev found).

  (** A sheet as do_unflatten sees it: name, headings ([None]: the class does
      not implement get_sheet_headings), lines. *)
  Record sheet_in := { si_name : str; si_headings : option (list scalar); si_lines : list (list (scalar * scalar)) }.

  (** input.py:369-508: one sheet *)
  Definition do_sheet (s : sheet_in) (st : main_state) : R main_state :=
    match si_headings s with
    | Some [] => ret st
    | Some hs => _ <- Ok tt (heading_warnings (si_name s) hs) ;; do_lines (si_name s) (Some hs) 0%N (si_lines s) st
    | None => do_lines (si_name s) None 0%N (si_lines s) st
    end.
  Fixpoint do_sheets (l : list sheet_in) (st : main_state) : R main_state :=
    match l with
    | [] => ret st
    | s :: l' => st' <- do_sheet s st ;; do_sheets l' st'
    end.
End Unflatten.

(** input.py:1216-1228 temporarydicts_to_lists and 1212-1213 to_list *)
Fixpoint to_j (n : tnode) : jnode :=
  match n with
  | TCell c => JCell c
  | TDict d => JDict (map (fun kv => (fst kv, to_j (snd kv))) d)
  | TTemp data nokey =>
    JList (map (fun kd => map (fun kv => (fst kv, to_j (snd kv))) (snd kd)) data
           ++ map (fun d => map (fun kv => (fst kv, to_j (snd kv))) d) nokey)
  end.
Definition dict_to_j (d : tdict) : jdict := map (fun kv => (fst kv, to_j (snd kv))) d.
Definition temp_items (t : ttemp) : list tdict := map snd (fst t) ++ snd t.

(** input.py:366-510 do_unflatten: the cell tree *)
Definition do_unflatten (O : opts) (sheets : list sheet_in) : R (list jdict) :=
  st <- do_sheets O sheets [] ;;
  ret (flat_map (fun rt => map dict_to_j (temp_items (snd rt))) st).

(** ** Values, input.py:606-627 *)
Inductive vnode :=
| VLeaf (v : cellval)
| VDict (d : list (str * vnode))
| VList (l : list (list (str * vnode))).
Definition vdict := list (str * vnode).
Fixpoint to_v (n : jnode) : vnode :=
  match n with
  | JCell c => VLeaf (c_val c)
  | JDict d => VDict (map (fun kv => (fst kv, to_v (snd kv))) d)
  | JList l => VList (map (fun d => map (fun kv => (fst kv, to_v (snd kv))) d) l)
  end.
Definition dict_to_v (d : jdict) : vdict := map (fun kv => (fst kv, to_v (snd kv))) d.

(** input.py:512-515 unflatten *)
Definition unflatten (O : opts) (sheets : list sheet_in) : R (list vdict) :=
  t <- do_unflatten O sheets ;; ret (map dict_to_v t).
