(** The schema parser: /repo/flattentool/schema.py (29-44, 99-111, 114-147, 189-481).

    SIMPLIFICATIONS.
    - A schema is the finite tree that one gets by following the references
      (jsonref); for a reference the object that held it ([__reference__]) is kept
      beside what it refers to.  Schemas that refer to themselves are not
      modelled.
    - Reading the schema file and following references is not modelled, except
      for the decision which references may be followed ([is_ref_local]).
    - The generator [parse_schema_dict] is a function with a consumer: [emit] is
      called at each [yield], so that effects happen in the order of the code.
      The local variables of the consumer's loop are the argument [x].
    - [sub_sheet.title_lookup] (371) is left out: it is only used in
      input.py:341, where it is overwritten in 292.
    - A truthy title that is not a text raises in 272, as here. *)
From Verif.Base Require Import PyStr PyNum PyVal PyDict Outcome.
From Verif.Model Require Import Flatten Titles.
Local Open Scope res_scope.

Inductive sv :=
| VS (s : scalar)
| VA (l : list sv)
| VO (ref : option (list (str * sv))) (d : list (str * sv)).

Inductive swarning :=
| SNoTitle (field : str)                              (* 196 *)
| SMissingTitle (path : str)                          (* 394-399 *)
| SNoArrayTitle (path : str)                          (* 401-406 *)
| SNotRolledUp (fields : list str)                    (* 436-441 *)
| SUnrecognised (name context : str)                  (* 476-482 *)
| SNoProperties (path : str).                         (* 485-490 *)
Notation SR := (res swarning).

(** ** Python operations on parsed JSON *)
Definition vfalsy (v : sv) : bool := match v with VS s => falsy s | VA [] | VO _ [] => true | _ => false end.
Definition is_str (k : str) (v : sv) : bool := match v with VS (SStr s) => str_eqb k s | _ => false end.
(** [k in v] *)
Definition has (k : str) (v : sv) : SR bool :=
  match v with
  | VO _ d => ret (shas k d)
  | VA l => ret (existsb (is_str k) l)
  | VS (SStr s) => ret (contains s k)
  | VS _ => Raise ETypeError []
  end.
(** [v[k]] *)
Definition idx (k : str) (v : sv) : SR sv :=
  match v with
  | VO _ d => match sget k d with Some x => ret x | None => Raise EKeyError [] end
  | _ => Raise ETypeError []
  end.
(** [v.get(k, default)] *)
Definition get (k : str) (default v : sv) : SR sv :=
  match v with
  | VO _ d => match sget k d with Some x => ret x | None => ret default end
  | _ => Raise EAttributeError []
  end.
(** [for x in v] *)
Definition iter_of (v : sv) : SR (list sv) :=
  match v with
  | VA l => ret l
  | VO _ d => ret (map (fun kv => VS (SStr (fst kv))) d)
  | VS (SStr s) => ret (map (fun c => VS (SStr [c])) s)
  | VS _ => Raise ETypeError []
  end.
Definition vhashable (v : sv) : bool := match v with VS _ => true | _ => false end.

(** schema.py:29-34 get_property_type_set *)
Definition type_set (v : sv) : SR (list sv) :=
  t <- get (u "type") (VA []) v ;;
  match t with
  | VA l => if forallb vhashable l then ret l else Raise ETypeError []
  | VS _ => ret [t]
  | VO _ _ => Raise ETypeError []
  end.
(** [k in type_set] *)
Definition inset (k : str) (l : list sv) : bool := existsb (is_str k) l.
Definition isnil {A} (l : list A) : bool := match l with [] => true | _ => false end.

(** schema.py:110-111 is_ref_local *)
Definition is_ref_local (uri : str) : bool :=
  negb (str_eqb (lower (firstn 7 uri)) (u "http://")) && negb (str_eqb (lower (firstn 8 uri)) (u "https://")).
(** schema.py:102-107 jsonloader_local_refs_disabled; [loader] is jsonref.jsonloader *)
Definition load_remote_only {A} (loader : str -> SR A) (uri : str) : SR A :=
  if is_ref_local uri then Raise EFlattenToolError [] else loader uri.

(** ** The parser *)
(** schema.py:117-140: the options *)
Record sopts := {
  so_rollup : bool;
  so_root_id : str;             (** "" when falsy *)
  so_titles : bool;
  so_trunc : nat;
  so_nodep : bool;              (** exclude_deprecated_fields *)
  so_wkt : bool;
  so_lower : str -> str }.      (** str.lower *)
(** schema.py:128-137: what it fills in *)
Record sps := {
  sp_main : sheet;
  sp_subs : list (str * sheet);
  sp_sub_titles : list ((str * str) * str);
  sp_rollup : list str;
  sp_flat : list (str * str);
  sp_table : Titles.table }.
Definition upd_main f s := {| sp_main := f (sp_main s); sp_subs := sp_subs s; sp_sub_titles := sp_sub_titles s; sp_rollup := sp_rollup s; sp_flat := sp_flat s; sp_table := sp_table s |}.
Definition upd_subs f s := {| sp_main := sp_main s; sp_subs := f (sp_subs s); sp_sub_titles := sp_sub_titles s; sp_rollup := sp_rollup s; sp_flat := sp_flat s; sp_table := sp_table s |}.
Definition upd_sub_titles f s := {| sp_main := sp_main s; sp_subs := sp_subs s; sp_sub_titles := f (sp_sub_titles s); sp_rollup := sp_rollup s; sp_flat := sp_flat s; sp_table := sp_table s |}.
Definition upd_rollup f s := {| sp_main := sp_main s; sp_subs := sp_subs s; sp_sub_titles := sp_sub_titles s; sp_rollup := f (sp_rollup s); sp_flat := sp_flat s; sp_table := sp_table s |}.
Definition upd_flat f s := {| sp_main := sp_main s; sp_subs := sp_subs s; sp_sub_titles := sp_sub_titles s; sp_rollup := sp_rollup s; sp_flat := f (sp_flat s); sp_table := sp_table s |}.
Definition upd_table f s := {| sp_main := sp_main s; sp_subs := sp_subs s; sp_sub_titles := sp_sub_titles s; sp_rollup := sp_rollup s; sp_flat := sp_flat s; sp_table := f (sp_table s) |}.

(** a Python set as a list *)
Definition set_add (x : str) (l : list str) : list str := if str_mem x l then l else l ++ [x].
Definition pair_eqb (a b : str * str) : bool := str_eqb (fst a) (fst b) && str_eqb (snd a) (snd b).

(** sheet.py:6-19 a new Sheet, 25-28 add_field(id_field=True), [sheet.titles[k] = t] *)
Definition new_sheet (root : str) : sheet :=
  {| sh_root := root; sh_idcols := []; sh_cols := []; sh_titles := []; sh_lines := LMem [] |}.
Definition add_idcol (f : str) (s : sheet) : sheet :=
  if str_mem f (sh_idcols s) then s
  else {| sh_root := sh_root s; sh_idcols := sh_idcols s ++ [f]; sh_cols := sh_cols s; sh_titles := sh_titles s; sh_lines := sh_lines s |}.
Definition set_title (k t : str) (s : sheet) : sheet :=
  {| sh_root := sh_root s; sh_idcols := sh_idcols s; sh_cols := sh_cols s; sh_titles := sset k t (sh_titles s); sh_lines := sh_lines s |}.
Definition on_sub (n : str) (f : sheet -> sheet) (s : sps) : sps :=
  upd_subs (fun subs => match sget n subs with Some x => sset n (f x) subs | None => subs end) s.

Definition sl : str := [47%N].
Definition zero_sl : str := u "/0/".
Definition emit_t (X : Type) := X -> str -> option str -> sps -> SR (X * sps).

Section Parser.
  Variable O : sopts.

  (** schema.py:263-270: the title of a property *)
  Definition raw_title (v : sv) : SR sv :=
    match v with
    | VO (Some r) _ => match sget (u "title") r with Some t => ret t | None => get (u "title") (VS SNone) v end
    | _ => get (u "title") (VS SNone) v
    end.
  Definition title_text (raw : sv) : SR (option str) :=
    match raw with
    | VS (SStr ((_ :: _) as t)) => ret (Some t)
    | _ => if vfalsy raw then ret None else Raise EAttributeError []
    end.
  (** [title_lookup.get(title)], and 213 for None *)
  Definition child_table (lk : nat) (raw : sv) (st : sps) : SR nat :=
    match raw with
    | VS SNone => ret 0
    | VS (SStr t) => ret (match t_find (so_lower O) (sp_table st) lk t with Some j => j | None => 0 end)
    | _ => Raise EAttributeError []
    end.
  (** [parent_title + title + ":" if parent_title is not None and title else None] *)
  Definition sub_title (ptitle title : option str) : option str :=
    match ptitle, title with Some p, Some t => Some (p ++ t ++ [colon]) | _, _ => None end.
  (** [title + ":" + child_title if title and child_title else None] *)
  Definition join_title (title child : option str) : option str :=
    match title, child with Some t, Some c => Some (t ++ [colon] ++ c) | _, _ => None end.
  Definition set_type (k t : str) : sps -> sps := upd_flat (sset k t).

  (** schema.py:245-261: whether the property is left out *)
  Definition deprecated (v : sv) : SR bool :=
    if so_nodep O then
      a <- get (u "deprecated") (VS SNone) v ;;
      if negb (vfalsy a) then ret true
      else match v with
           | VO (Some r) _ => ret (match sget (u "deprecated") r with Some b => negb (vfalsy b) | None => false end)
           | _ => ret false
           end
    else ret false.

  (** schema.py:231-241 id_fields *)
  Definition id_fields (ppath : str) (ids : list str) (ptitle : option str) (props : sv) : SR (list str) :=
    b <- has (u "id") props ;;
    if b then
      if so_titles O then
        i <- idx (u "id") props ;; t <- get (u "title") (VS SNone) i ;;
        let pre := match ptitle with Some p => p | None => ppath end in
        if vfalsy t then ret (ids ++ [pre ++ u "id"])
        else match t with VS (SStr t) => ret (ids ++ [pre ++ t]) | _ => Raise ETypeError [] end
      else ret (ids ++ [ppath ++ u "id"])
    else ret ids.

  (** schema.py:434-441 *)
  Definition missed (rolled : list str) (r : sv) : SR (list str) :=
    l <- iter_of r ;;
    if negb (forallb vhashable l) then Raise ETypeError []
    else
      let left := filter (fun x => match x with VS (SStr s) => negb (str_mem s rolled) | _ => true end) l in
      if forallb (fun x => match x with VS (SStr _) => true | _ => false end) left
      then ret (fold_left (fun acc x => match x with VS (SStr s) => set_add s acc | _ => acc end) left [])
      else Raise ETypeError [].

  Definition parser := forall X : Type, emit_t X -> X -> str -> sv -> list str -> nat -> option str -> sps -> SR (X * sps).

  Section Step.
    Variable rec : parser.
    Context {X : Type}.
    Variable emit : emit_t X.
    Variable ppath : str.                (** with its "/" *)
    Variable ids : list str.
    Variable lk : nat.
    Variable ptitle : option str.

    (** schema.py:275-307: an object *)
    Definition parse_object (name : str) (v raw : sv) (title : option str) (x : X) (st : sps) : SR (X * sps) :=
      geo <- (if so_wkt O
              then p <- get (u "properties") (VO None []) v ;;
                   a <- has (u "type") p ;;
                   if a then has (u "coordinates") p else ret false
              else ret false) ;;
      if geo then emit x name title (set_type (replace zero_sl sl ppath ++ name) (u "geojson") st)
      else
        let st := set_type (ppath ++ name) (u "object") st in
        child <- child_table lk raw st ;;
        rec X (fun x field ct st => emit x (name ++ sl ++ field) (join_title title ct) st) x
            (ppath ++ name) v ids child (sub_title ptitle title) st.

    (** schema.py:334-441: an array of objects *)
    Definition sub_name (name : str) (title : option str) : str :=
      match so_titles O, ptitle with
      | true, Some p => make_sub_sheet_name p (match title with Some t => t | None => name end) (so_trunc O) colon
      | _, _ => make_sub_sheet_name ppath name (so_trunc O) slash_c
      end.
    Definition parse_objects (name : str) (v : sv) (raw : sv) (title : option str) (x : X) (st : sps) : SR (X * sps) :=
      let sn := sub_name name title in
      let st := match so_titles O, ptitle with
                | true, Some _ => upd_sub_titles (aset pair_eqb (ppath, name) sn) st
                | _, _ => st
                end in
      let st := upd_subs (fun subs => if shas sn subs then subs else sset sn (new_sheet (so_root_id O)) subs) st in
      child <- child_table lk raw st ;;
      let st := fold_left (fun st f => on_sub sn (fun s => set_title (lookup_header (so_lower O) (sp_table st) lk f) f (add_idcol f s)) st) ids st in
      items <- idx (u "items") v ;;
      let consume (y : X * list str) field ct st : SR ((X * list str) * sps) :=
        let (x, rolled) := y in
        let full := ppath ++ name ++ zero_sl ++ field in
        st <- (if so_titles O then
                 match ct, ptitle, title with
                 | None, _, _ | _, None, _ => _ <- warn1 (SMissingTitle full) ;; ret st
                 | _, _, None => _ <- warn1 (SNoArrayTitle (ppath ++ name)) ;; ret st
                 | Some c, Some p, Some t =>
                   let ft := p ++ t ++ [colon] ++ c in
                   ret (on_sub sn (fun s => set_title full ft (add_col ft s)) st)
                 end
               else ret (on_sub sn (add_col full) st)) ;;
        up <- (if so_rollup O then h <- has (u "rollUp") v ;; if h then r <- idx (u "rollUp") v ;; has field r else ret false else ret false) ;;
        if up then
          xs <- emit x (name ++ zero_sl ++ field) (join_title title ct) (upd_rollup (set_add full) st) ;;
          let (x, st) := xs : X * sps in ret ((x, set_add field rolled), st)
        else ret ((x, rolled), st) in
      ys <- rec (X * list str)%type consume (x, []) (ppath ++ name ++ sl ++ [48%N]) items ids child (sub_title ptitle title) st ;;
      let '((x, rolled), st) := ys : (X * list str) * sps in
      _ <- (if so_rollup O
            then h <- has (u "rollUp") v ;;
                 if h then r <- idx (u "rollUp") v ;; m <- missed rolled r ;;
                           match m with [] => ret tt | _ => warn1 (SNotRolledUp m) end
                 else ret tt
            else ret tt) ;;
      ret (x, st).

    (** schema.py:309-333, 442-447: an array *)
    Definition parse_array (name : str) (v : sv) (raw : sv) (title : option str) (x : X) (st : sps) : SR (X * sps) :=
      let key := replace zero_sl sl ppath ++ name in
      let st := set_type key (u "array") st in
      items <- idx (u "items") v ;;
      ts <- type_set items ;;
      if inset (u "string") ts || isnil ts then emit x name title (set_type key (u "string_array") st)
      else if inset (u "number") ts then emit x name title (set_type key (u "number_array") st)
      else if inset (u "array") ts then
        let st := set_type key (u "array_array") st in
        inner <- idx (u "items") items ;;
        ns <- type_set inner ;;
        if inset (u "string") ns || inset (u "number") ns then emit x name title st
        else Raise (EFlattenToolValueError []) []
      else if inset (u "object") ts then parse_objects name v raw title x st
      else Raise (EFlattenToolValueError []) [].

    (** schema.py:242-482: one property *)
    Definition parse_prop (name : str) (v : sv) (x : X) (st : sps) : SR (X * sps) :=
      skip <- deprecated v ;;
      if skip then ret (x, st) else
      ts <- type_set v ;;
      raw <- raw_title v ;;
      title <- title_text raw ;;
      let st := match title with Some t => upd_table (t_add (so_lower O) lk t name) st | None => st end in
      let basic t := emit x name title (set_type (replace zero_sl sl ppath ++ name) t st) in
      if inset (u "object") ts then parse_object name v raw title x st
      else if inset (u "array") ts then parse_array name v raw title x st
      else if inset (u "string") ts || isnil ts then
        f <- get (u "format") (VS SNone) v ;;
        basic (if is_str (u "date") f then u "date" else u "string")
      else if inset (u "number") ts then basic (u "number")
      else if inset (u "integer") ts then basic (u "integer")
      else if inset (u "boolean") ts then basic (u "boolean")
      else _ <- warn1 (SUnrecognised name ppath) ;; ret (x, st).
    Fixpoint parse_props (l : list (str * sv)) (x : X) (st : sps) : SR (X * sps) :=
      match l with
      | [] => ret (x, st)
      | (name, v) :: l' => xs <- parse_prop name v x st ;; let (x, st) := xs : X * sps in parse_props l' x st
      end.
    (** schema.py:214-229: the alternatives of an array of alternatives *)
    Fixpoint parse_alts (l : list sv) (x : X) (st : sps) : SR (X * sps) :=
      match l with
      | [] => ret (x, st)
      | v :: l' =>
        b <- (h <- has (u "type") v ;; if h then t <- idx (u "type") v ;; ret (is_str (u "object") t) else ret false) ;;
        xs <- (if b then rec X emit x ppath v ids lk ptitle st else ret (x, st)) ;;
        let (x, st) := xs : X * sps in parse_alts l' x st
      end.
  End Step.

  (** schema.py:214-220 *)
  Definition has_alts (v : sv) : SR bool :=
    h <- has (u "type") v ;;
    if h then
      t <- idx (u "type") v ;;
      if is_str (u "array") t then
        i <- has (u "items") v ;;
        if i then items <- idx (u "items") v ;; has (u "oneOf") items else ret false
      else ret false
    else ret false.
  (** schema.py:203-490 parse_schema_dict.  The depth is bounded by [fuel]
      (RecursionError beyond it); [parse_schema] gives enough. *)
  Fixpoint parse_dict (fuel : nat) : parser := fun X emit x ppath v ids lk ptitle st =>
    match fuel with
    | 0%nat => Raise ERuntimeError []
    | S fuel' =>
      let ppath := match ppath with [] => [] | _ => ppath ++ sl end in
      alts <- has_alts v ;;
      if alts then
        items <- idx (u "items") v ;; o <- idx (u "oneOf") items ;; l <- iter_of o ;;
        parse_alts (parse_dict fuel') emit ppath ids lk ptitle l x st
      else
        p <- has (u "properties") v ;;
        if p then
          props <- idx (u "properties") v ;;
          ids' <- id_fields ppath ids ptitle props ;;
          match props with
          | VO _ d => parse_props (parse_dict fuel') emit ppath ids' lk ptitle d x st
          | _ => Raise EAttributeError []
          end
        else _ <- warn1 (SNoProperties ppath) ;; ret (x, st)
    end.

  Fixpoint sv_size (v : sv) : nat :=
    match v with
    | VS _ => 1
    | VA l => S (list_sum (map sv_size l))
    | VO r d => S (list_sum (map (fun kv => sv_size (snd kv)) d))
    end.

  (** schema.py:189-201 parse: the consumer of the fields of the whole schema *)
  Definition main_emit : emit_t unit := fun x field title st =>
    if so_titles O then
      match title with
      | None => _ <- warn1 (SNoTitle field) ;; ret (x, st)
      | Some t => ret (x, upd_main (fun s => set_title field t (add_col t s)) st)
      end
    else ret (x, upd_main (add_col field) st).
  (** schema.py:128-140: the state before *)
  Definition sps_start : sps :=
    {| sp_main := new_sheet []; sp_subs := []; sp_sub_titles := []; sp_rollup := []; sp_flat := []; sp_table := [tn_empty] |}.
  Definition parse_schema (schema : sv) : SR sps :=
    xs <- parse_dict (S (sv_size schema)) unit main_emit tt [] schema [] 0 (Some []) sps_start ;;
    ret (snd (xs : unit * sps)).
End Parser.

(** what the flattener uses of it (json_input.py:177-203) *)
Definition schema_info_of (s : sps) : schema_info :=
  {| sci_main := sp_main s; sci_subs := sp_subs s; sci_sub_titles := sp_sub_titles s |}.
(** [parser.flattened.get] as the unflattener uses it (input.py:1009-1010) *)
Definition types_of (s : sps) (k : str) : str := match sget k (sp_flat s) with Some t => t | None => [] end.
