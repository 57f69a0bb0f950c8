(** Model of /repo/flattentool/sheet.py and of the flattening part of
    /repo/flattentool/json_input.py (JSONParser.parse and parse_json_dict).

    SIMPLIFICATIONS (whole file).
    - A Python set is a list without repetitions; where the code iterates over a
      set ([set(sum(...))], json_input.py:582) the order is an argument of the
      model ([po_set_order]).
    - The ZODB store is modelled as the mapping it presents to the code
      (name -> ordered integer-keyed tree); [transaction.commit] and
      [cacheMinimize] do not change it and are left out.
    - Texts of warnings are constructors. *)
From Verif.Base Require Import PyStr PyNum PyVal PyDict Outcome.
Local Open Scope res_scope.

(** JSON values.  [JS] with None, bool, int, Decimal, str are the BASIC_TYPES of
    json_input.py:49; a float (possible when a dict is passed in by a Python
    program) is none of the supported types. *)
Inductive jv :=
| JS (s : scalar)
| JA (l : list jv)
| JO (d : list (str * jv)).
Definition jobj := list (str * jv).
Definition basic (s : scalar) : bool := match s with SFlt _ | SDt _ => false | _ => true end.
Definition jbasic (v : jv) : bool := match v with JS s => basic s | _ => false end.

(** a row of a sheet: the [flattened_dict] *)
Definition frow := list (str * jv).

Inductive fwarning :=
| FNotObject (index : N)                     (* json_input.py:328-333 *)
| FInvalidGeoJSON                            (* 405-409 *)
| FGeoDependencies                           (* 414-417 *)
| FRollupMany (path : str)                   (* 599-605, 612-618 *)
| FPreserveNotInData (paths : list str).     (* 356-367 *)
Notation FR := (res fwarning).

(** ** sheet.py *)
(** Where the lines of a sheet are: in the object (class Sheet) or in the store
    under the sheet's name (PersistentSheet; the schema's main sheet has name
    None) together with the next index. *)
Inductive lines_ref := LMem (l : list frow) | LStore (name : option str) (index : N).
(** sheet.py:6-19, 47-54 *)
Record sheet := {
  sh_root : str;              (** root_id; "" when falsy *)
  sh_idcols : list str;
  sh_cols : list str;
  sh_titles : list (str * str);
  sh_lines : lines_ref }.
(** sheet.py:33-39 __iter__: the header of the sheet *)
Definition header (s : sheet) : list str :=
  (match sh_root s with [] => [] | r => [r] end) ++ sh_idcols s ++ sh_cols s.
(** sheet.py:25-31 append = add_field(id_field=False) *)
Definition add_col (f : str) (s : sheet) : sheet :=
  if str_mem f (sh_cols s) then s
  else {| sh_root := sh_root s; sh_idcols := sh_idcols s; sh_cols := sh_cols s ++ [f];
          sh_titles := sh_titles s; sh_lines := sh_lines s |}.

(** BTrees.IOBTree: integer keys in increasing order *)
Fixpoint bt_set {V} (i : N) (v : V) (t : list (N * V)) : list (N * V) :=
  match t with
  | [] => [(i, v)]
  | (j, w) :: t' => if (i <? j)%N then (i, v) :: t
                    else if (i =? j)%N then (i, v) :: t'
                    else (j, w) :: bt_set i v t'
  end.
Definition oname_eqb (a b : option str) : bool :=
  match a, b with Some x, Some y => str_eqb x y | None, None => true | _, _ => false end.
(** connection.root.sheet_store *)
Definition store := list (option str * list (N * frow)).
Definition st_get (n : option str) (s : store) : list (N * frow) :=
  match aget oname_eqb n s with Some t => t | None => [] end.
Definition st_set (n : option str) (t : list (N * frow)) (s : store) : store := aset oname_eqb n t s.

(** sheet.py:21-23, 56-65 the lines of a sheet *)
Definition lines_of (st : store) (s : sheet) : list frow :=
  match sh_lines s with
  | LMem l => l
  | LStore n _ => map snd (st_get n st)
  end.
(** sheet.py:41-42, 67-69 append_line *)
Definition append_line (r : frow) (s : sheet) (st : store) : sheet * store :=
  let with_lines l := {| sh_root := sh_root s; sh_idcols := sh_idcols s; sh_cols := sh_cols s;
                         sh_titles := sh_titles s; sh_lines := l |} in
  match sh_lines s with
  | LMem l => (with_lines (LMem (l ++ [r])), st)
  | LStore n i => (with_lines (LStore n (i + 1)%N), st_set n (bt_set i r (st_get n st)) st)
  end.
(** sheet.py:47-54 a new PersistentSheet: its (empty) tree replaces whatever the
    store has under that name *)
Definition new_persistent (name : option str) (st : store) : sheet * store :=
  ({| sh_root := []; sh_idcols := []; sh_cols := []; sh_titles := []; sh_lines := LStore name 0%N |},
   st_set name [] st).

(** ** The parser *)
(** What the parser uses of a SchemaParser: its main sheet, its sub-sheets,
    its table of sub-sheet titles, its set of roll-up paths. *)
Record schema_info := {
  sci_main : sheet;
  sci_subs : list (str * sheet);
  sci_sub_titles : list ((str * str) * str) }.

(** json_input.py:115-271: the options *)
Record popts := {
  po_str : env;                        (** str() *)
  po_titles : bool;
  po_schema : option schema_info;
  po_root_id : str;                    (** "" when falsy *)
  po_id_name : str;
  po_xml : bool;
  po_filter : option (str * str);      (** field and value, both non-empty *)
  po_preserve : list str;              (** self.preserve_fields; [] when falsy *)
  po_rollup : list str;                (** self.rollup; [] when falsy *)
  po_trunc : nat;
  po_wkt : bool;                       (** convert_flags.get("wkt") *)
  po_shape : option (jobj -> option str);
      (** shapely.geometry.shape(d).wkt; outer None: shapely missing, inner None: a caught exception *)
  po_set_order : list str -> list str }.

Record pst := { p_main : sheet; p_subs : list (str * sheet); p_store : store; p_seen : list str }.

(** [sheet] arguments: the main sheet or the sub-sheet of a name *)
Definition sref := option str.
Definition sheet_at (r : sref) (s : pst) : option sheet :=
  match r with None => Some (p_main s) | Some n => sget n (p_subs s) end.
Definition put_sheet (r : sref) (x : sheet) (s : pst) : pst :=
  match r with
  | None => {| p_main := x; p_subs := p_subs s; p_store := p_store s; p_seen := p_seen s |}
  | Some n => {| p_main := p_main s; p_subs := sset n x (p_subs s); p_store := p_store s; p_seen := p_seen s |}
  end.
Definition put_store (x : store) (s : pst) : pst :=
  {| p_main := p_main s; p_subs := p_subs s; p_store := x; p_seen := p_seen s |}.
Definition see_path (p : str) (s : pst) : pst :=
  {| p_main := p_main s; p_subs := p_subs s; p_store := p_store s;
     p_seen := if str_mem p (p_seen s) then p_seen s else p_seen s ++ [p] |}.

(** json_input.py:64-67 sheet_key_field and 70-84 sheet_key_title *)
Definition sheet_key (titles : bool) (key : str) (s : sheet) : str * sheet :=
  let name := if titles then match sget key (sh_titles s) with Some t => t | None => key end else key in
  (name, if str_mem name (header s) then s else add_col name s).

(** schema.py:36-44 make_sub_sheet_name.  SIMPLIFICATION: a negative truncation
    length is not modelled. *)
Definition zero_seg : str := [48%N].
Definition make_sub_sheet_name (parent name : str) (trunc : nat) (sep : N) : str :=
  replace_c 58%N 45%N
    (join [95%N] (map (firstn trunc) (filter (fun x => negb (str_eqb x zero_seg)) (split_on sep parent))) ++ name).

Definition slash_c : N := 47%N.
Definition is_slash (c : N) : bool := (c =? slash_c)%N.
Definition strip_slash (s : str) : str := strip is_slash s.
Definition cdata_key : str := u "#text".

Section Parser.
  Variable O : popts.

  Definition use_key (r : sref) (key : str) (s : pst) : str * pst :=
    match sheet_at r s with
    | Some x => let (k, x') := sheet_key (po_titles O) key x in (k, put_sheet r x' s)
    | None => (key, s)
    end.
  (** [flattened_dict[sheet_key(sheet, key)] = value] *)
  Definition set_cell (r : sref) (key : str) (v : jv) (row : frow) (s : pst) : pst * frow :=
    let (k, s') := use_key r key s in (s', sset k v row).

  (** json_input.py:431-437: the ids of the enclosing objects *)
  Fixpoint add_parent_ids (r : sref) (ids : list (str * jv)) (row : frow) (s : pst) : FR (pst * frow) :=
    match ids with
    | [] => ret (s, row)
    | (k, v) :: ids' =>
      let (k', s') := use_key r k s in
      v' <- (if po_xml O then match v with
                              | JO d => match sget cdata_key d with Some x => ret x | None => Raise EKeyError [] end
                              | _ => Raise ETypeError []
                              end
             else ret v) ;;
      add_parent_ids r ids' (sset k' v' row) s'
    end.

  (** json_input.py:439-445 *)
  Definition own_ids (r : sref) (d : jobj) (parent : str) (ids : list (str * jv)) (s : pst) : list (str * jv) * pst :=
    let (ids1, s1) :=
      match po_root_id O with
      | [] => (ids, s)
      | rid => match sget rid d with
               | Some v => let (k, s1) := use_key r rid s in (sset k v ids, s1)
               | None => (ids, s)
               end
      end in
    match sget (po_id_name O) d with
    | Some v => let (k, s2) := use_key r (parent ++ po_id_name O) s1 in (sset k v ids1, s2)
    | None => (ids1, s1)
    end.

  (** json_input.py:457-464 *)
  Definition preserve_skips (parent_path full_path : str) : bool :=
    existsb (fun f => contains f parent_path) (po_preserve O) && negb (str_mem full_path (po_preserve O)).

  (** json_input.py:487-490 *)
  Definition join_basic (l : list jv) : str :=
    join [59%N] (map (fun v => match v with JS s => py_str (po_str O) s | _ => [] end) l).
  (** json_input.py:492-498: an array of arrays; texts count as arrays of characters *)
  Definition inner_array (v : jv) : bool :=
    match v with
    | JS (SStr _) => true
    | JS _ => false
    | JA l => forallb jbasic l
    | JO _ => false
    end.
  Definition join_inner (v : jv) : str :=
    match v with
    | JS (SStr s) => join [44%N] (map (fun c => [c]) s)
    | JA l => join [44%N] (map (fun v => match v with JS s => py_str (po_str O) s | _ => [] end) l)
    | _ => []
    end.
  Definition join_arrays (l : list jv) : str := join [59%N] (map join_inner l).

  (** json_input.py:503-618: rolling an array up into the main row ([parent] = "") *)
  Definition rollup_text : str :=
    u "WARNING: More than one value supplied, consult the relevant sub-sheet for the data.".
  Definition roll_path (key k : str) : str := key ++ u "/0/" ++ k.
  Definition in_rollup (key : str) : bool := str_mem key (po_rollup O).
  (** 511-515 and 584-589 *)
  Definition roll_dropped (key k : str) : bool :=
    match po_preserve O with [] => false | l => negb (str_mem (key ++ [slash_c] ++ k) l) end.
  Definition pair_eqb (a b : str * str) : bool := str_eqb (fst a) (fst b) && str_eqb (snd a) (snd b).
  (** the column a rolled up value gets, 523-580; [None]: not rolled up *)
  Definition roll_column (key k : str) : option str :=
    let path := roll_path key k in
    match po_schema O with
    | Some sc =>
      if po_titles O then
        if ahas str_eqb path (sh_titles (sci_main sc)) then Some path
        else if in_rollup key then
          match aget pair_eqb ([], key) (sci_sub_titles sc) with
          | Some sub => match sget sub (sci_subs sc) with
                        | Some x => Some (match sget path (sh_titles x) with Some t => t | None => path end)
                        | None => None
                        end
          | None => None
          end
        else None
      else if str_mem path (header (sci_main sc)) || in_rollup key then Some path else None
    | None => if in_rollup key then Some path else None
    end.
  (** 509-580: exactly one item *)
  Fixpoint roll_single (r : sref) (key : str) (item : jobj) (row : frow) (s : pst) : FR (pst * frow) :=
    match item with
    | [] => ret (s, row)
    | (k, v) :: item' =>
      if roll_dropped key k then roll_single r key item' row s
      else if negb (jbasic v) then Raise (EFlattenToolValueError []) []
      else match roll_column key k with
           | Some col => let (s', row') := set_cell r col v row s in roll_single r key item' row' s'
           | None => roll_single r key item' row s
           end
    end.
  (** 582-618: several items; the keys of all of them *)
  Fixpoint all_keys (l : list jv) : FR (list str) :=
    match l with
    | [] => ret []
    | JO d :: l' => r <- all_keys l' ;; ret (map fst d ++ r)
    | _ :: _ => Raise EAttributeError []
    end.
  Fixpoint nub_str (l : list str) : list str :=
    match l with [] => [] | x :: l' => x :: filter (fun y => negb (str_eqb x y)) (nub_str l') end.
  Definition roll_many_wanted (key k : str) : bool :=
    (match po_schema O with Some sc => str_mem (roll_path key k) (header (sci_main sc)) | None => false end) || in_rollup key.
  Fixpoint roll_many (r : sref) (key : str) (ks : list str) (row : frow) (s : pst) : FR (pst * frow) :=
    match ks with
    | [] => ret (s, row)
    | k :: ks' =>
      if roll_dropped key k then roll_many r key ks' row s
      else if roll_many_wanted key k then
        _ <- warn1 (FRollupMany key) ;;
        let (s', row') := set_cell r (roll_path key k) (JS (SStr rollup_text)) row s in roll_many r key ks' row' s'
      else roll_many r key ks' row s
    end.
  (** json_input.py:501-618.  The warning of 504-511 calls the translation
      function with two arguments, which is a TypeError. *)
  Definition rollup (r : sref) (parent key : str) (l : list jv) (row : frow) (s : pst) : FR (pst * frow) :=
    match po_rollup O, parent with
    | _ :: _, [] =>
      _ <- (if po_titles O && match po_schema O with None => true | Some _ => false end
            then Raise ETypeError [] else ret tt) ;;
      match l with
      | [] => ret (s, row)
      | [v] => match v with JO d => roll_single r key d row s | _ => Raise EAttributeError [] end
      | _ => ks <- all_keys l ;; roll_many r key (po_set_order O (nub_str ks)) row s
      end
    | _, _ => ret (s, row)
    end.

  (** json_input.py:631-655 *)
  Definition sub_sheet_name (parent key : str) : str :=
    let plain := make_sub_sheet_name parent key (po_trunc O) slash_c in
    if po_titles O then
      match po_schema O with
      | Some sc => match aget pair_eqb (parent, key) (sci_sub_titles sc) with Some n => n | None => plain end
      | None => plain
      end
    else plain.
  Definition ensure_sub (name : str) (s : pst) : pst :=
    match sget name (p_subs s) with
    | Some _ => s
    | None => let (x, st) := new_persistent (Some name) (p_store s) in
              {| p_main := p_main s; p_subs := sset name x (p_subs s); p_store := st; p_seen := p_seen s |}
    end.

  (** parse_json_dict on something that is not a dict (an array item): some
      exception.  [in] on a text is a substring test, on a list membership.
      SIMPLIFICATION: with the wkt flag the class of the exception may differ. *)
  Definition not_a_dict (v : jv) : exn :=
    let has (x : str) := match v with
                         | JS (SStr t) => contains t x
                         | JA l => existsb (fun y => match y with JS (SStr t) => str_eqb t x | _ => false end) l
                         | _ => true
                         end in
    if (negb (match po_root_id O with [] => true | _ => false end) && has (po_root_id O)) || has (po_id_name O)
    then ETypeError else EAttributeError.

  (** parse_json_dict, json_input.py:369-664, on a JSON value.  [row]: [None] at
      the top of a main row or of an array item.  The result is the new state and
      the new contents of the row (irrelevant when [row] is [None]: the row has
      been appended to its sheet). *)
  Section Rec.
    Variable rec : jv -> sref -> str -> option frow -> list (str * jv) -> bool -> pst -> FR (pst * frow).

    (** 650-664 *)
    Fixpoint items (name : str) (path : str) (ids : list (str * jv)) (l : list jv) (s : pst) : FR pst :=
      match l with
      | [] => ret s
      | JS SNone :: l' => items name path ids l' s
      | v :: l' => r <- rec v (Some name) path None ids true s ;; items name path ids l' (fst r)
      end.
    (** the loop 447-664; [parent] is the variable parent_name, which an XML text
        entry changes for the entries after it *)
    Fixpoint entries (r : sref) (skip_geo : bool) (ids : list (str * jv)) (d : jobj) (parent : str) (row : frow) (s : pst)
      : FR (pst * frow) :=
      match d with
      | [] => ret (s, row)
      | (key, value) :: d' =>
        if skip_geo && (str_eqb key (u "type") || str_eqb key (u "coordinates")) then entries r skip_geo ids d' parent row s
        else
          let parent_path := replace (u "/0") [] parent in
          let full_path := parent_path ++ key in
          let s := see_path full_path s in
          if preserve_skips parent_path full_path then entries r skip_geo ids d' parent row s
          else
            match value with
            | JS v =>
              if basic v then
                if po_xml O && str_eqb key cdata_key then
                  let parent := strip_slash parent in
                  let (s', row') := set_cell r parent value row s in entries r skip_geo ids d' parent row' s'
                else
                  let (s', row') := set_cell r (parent ++ key) value row s in entries r skip_geo ids d' parent row' s'
              else Raise (EFlattenToolValueError []) []
            | JO _ =>
              x <- rec value r (parent ++ key ++ [slash_c]) (Some row) ids false s ;;
              entries r skip_geo ids d' parent (snd x) (fst x)
            | JA l =>
              if forallb jbasic l then
                let (s', row') := set_cell r (parent ++ key) (JS (SStr (join_basic l))) row s in
                entries r skip_geo ids d' parent row' s'
              else if forallb inner_array l then
                let (s', row') := set_cell r (parent ++ key) (JS (SStr (join_arrays l))) row s in
                entries r skip_geo ids d' parent row' s'
              else
                x <- rollup r parent key l row s ;;
                let name := sub_sheet_name parent key in
                s' <- items name (parent ++ key ++ u "/0/") ids l (ensure_sub name (fst x)) ;;
                entries r skip_geo ids d' parent (snd x) s'
            end
      end.

    (** 391-417: [inl]: go on (skip flag, row, state); [inr]: return at once *)
    Definition geo (r : sref) (d : jobj) (parent : str) (row : option frow) (s : pst)
      : FR ((bool * option frow * pst) + (pst * frow)) :=
      if po_wkt O && shas (u "type") d && shas (u "coordinates") d then
        match po_shape O with
        | Some shape =>
          let (k, s') := use_key r (strip_slash parent) s in
          match shape d with
          | None => _ <- warn1 FInvalidGeoJSON ;; ret (inr (s', match row with Some x => x | None => [] end))
          | Some wkt =>
            match row with
            | Some x => ret (inl (true, Some (sset k (JS (SStr wkt)) x), s'))
            | None => Raise ETypeError []
            end
          end
        | None => _ <- warn1 FGeoDependencies ;; ret (inl (false, row, s))
        end
      else ret (inl (false, row, s)).

    (** 426-429 *)
    Definition filtered_out (parent : str) (d : jobj) : bool :=
      match parent, po_filter O with
      | [], Some (f, v) => match sget f d with
                           | Some (JS (SStr t)) => negb (str_eqb t v)
                           | _ => true
                           end
      | _, _ => false
      end.

    Definition dict (d : jobj) (r : sref) (parent : str) (row : option frow) (ids : list (str * jv)) (top_sub : bool) (s : pst)
      : FR (pst * frow) :=
      g <- geo r d parent row s ;;
      match g with
      | inr x => ret x
      | inl (skip, row1, s1) =>
        let row2 := match row1 with Some x => x | None => [] end in
        if filtered_out parent d then ret (s1, row2)
        else
          x <- (if top_sub then add_parent_ids r ids row2 s1 else ret (s1, row2)) ;;
          let (ids', s3) := own_ids r d parent ids (fst x) in
          y <- entries r skip ids' d parent (snd x) s3 ;;
          match row1 with
          | Some _ => ret y
          | None =>
            match sheet_at r (fst y) with
            | Some sh => let (sh', st) := append_line (snd y) sh (p_store (fst y)) in
                         ret (put_store st (put_sheet r sh' (fst y)), snd y)
            | None => ret y
            end
          end
      end.
  End Rec.
  Fixpoint parse_value (v : jv) (r : sref) (parent : str) (row : option frow) (ids : list (str * jv)) (top_sub : bool) (s : pst)
    {struct v} : FR (pst * frow) :=
    match v with
    | JO d => dict parse_value d r parent row ids top_sub s
    | _ => Raise (not_a_dict v) []
    end.

  (** json_input.py:320-342 parse: the root list *)
  Fixpoint parse_list (num : N) (l : list jv) (s : pst) : FR pst :=
    match l with
    | [] => ret s
    | JS SNone :: l' => parse_list (num + 1)%N l' s
    | JO d :: l' => x <- parse_value (JO d) None [] None [] false s ;; parse_list (num + 1)%N l' (fst x)
    | _ :: l' => _ <- warn1 (FNotObject num) ;; parse_list (num + 1)%N l' s
    end.
End Parser.

(** json_input.py:156-197: the initial state.  With a schema the main sheet is
    stored under the schema sheet's name (None), sub-sheets are plain copies;
    [drop]: remove_empty_schema_columns. *)
Definition drop_cols (drop : bool) (x : sheet) : sheet :=
  if drop then {| sh_root := sh_root x; sh_idcols := sh_idcols x; sh_cols := []; sh_titles := sh_titles x; sh_lines := sh_lines x |}
  else x.
Definition start (O : popts) (drop : bool) : pst :=
  let (m0, st0) := new_persistent (Some []) [] in
  match po_schema O with
  | None => {| p_main := m0; p_subs := []; p_store := st0; p_seen := [] |}
  | Some sc =>
    let (m1, st1) := new_persistent None st0 in
    let m := sci_main sc in
    {| p_main := drop_cols drop {| sh_root := sh_root m; sh_idcols := sh_idcols m; sh_cols := sh_cols m;
                                   sh_titles := sh_titles m; sh_lines := sh_lines m1 |};
       p_subs := map (fun nx => (fst nx, drop_cols drop (snd nx))) (sci_subs sc);
       p_store := st1; p_seen := [] |}
  end.
(** json_input.py:344-351: with remove_empty_schema_columns sub-sheets whose
    [lines] is an empty list are removed; the [lines] of a PersistentSheet is a
    generator, which is never falsy. *)
Definition drop_empty (drop : bool) (s : pst) : pst :=
  if drop then
    {| p_main := p_main s; p_store := p_store s; p_seen := p_seen s;
       p_subs := filter (fun nx => match sh_lines (snd nx) with LMem [] => false | _ => true end) (p_subs s) |}
  else s.
(** JSONParser(...) on a list of records *)
Definition flatten (O : popts) (drop : bool) (preserve_input : list str) (l : list jv) : FR pst :=
  s <- parse_list O 0%N l (start O drop) ;;
  let s' := drop_empty drop s in
  let missing := filter (fun f => negb (str_mem f (p_seen s'))) preserve_input in
  _ <- (match missing with [] => ret tt | _ => warn1 (FPreserveNotInData missing) end) ;;
  ret s'.

(** the tables: header and rows of each sheet, main sheet first *)
Record table := { tb_name : str; tb_header : list str; tb_rows : list frow }.
Definition table_of (st : store) (name : str) (x : sheet) : table :=
  {| tb_name := name; tb_header := header x; tb_rows := lines_of st x |}.
Definition main_table (s : pst) : table := table_of (p_store s) [] (p_main s).
Definition sub_tables (s : pst) : list table := map (fun nx => table_of (p_store s) (fst nx) (snd nx)) (p_subs s).

(** json_input.py:271-290: the lines of the preserve-fields file give
    [preserve_fields] and [preserve_fields_input].  [rsplit1]: str.rsplit(sep, 1). *)
Definition rsplit1 (c : N) (s : str) : list str :=
  match rev (split_on c s) with
  | last :: x :: l => [join [c] (rev (x :: l)); last]
  | l => l
  end.
Definition preserve_line (line : str) : list str :=
  let line := strip is_ws line in rsplit1 slash_c line ++ [rstrip is_slash line].
Definition preserve_fields (lines : list str) : list str := flat_map preserve_line lines.
Definition preserve_fields_input (lines : list str) : list str := map (fun line => rstrip is_slash (strip is_ws line)) lines.
