(** What flattening should give, written down without reference to the parser:
    which objects get a row, on which sheet, and what is in the row.  For runs
    without titles, XML and WKT (and with a schema, without roll-up). *)
From Verif.Base Require Import PyStr PyNum PyVal PyDict Outcome.
From Verif.Model Require Import Flatten.
From Verif.Spec Require Import Flat.

Definition simple (O : popts) : Prop :=
  (po_schema O = None \/ (schema_ready O /\ po_rollup O = [])) /\ po_titles O = false /\ po_xml O = false /\ po_wkt O = false.
(** the name is that of a sheet of the schema *)
Definition schema_sheet (O : popts) (n : str) : Prop := match po_schema O with Some sc => In n (map fst (sci_subs sc)) | None => False end.

Section Sites.
  Variable O : popts.

  (** the cell a value gets in the row of its object, if it is not an object or
      an array of objects *)
  Definition texts_of (l : list jv) : list str := map (fun v => match v with JS s => py_str (po_str O) s | _ => [] end) l.
  Definition leaf_cell (v : jv) : option jv :=
    match v with
    | JS _ => Some v
    | JO _ => None
    | JA l =>
      if forallb jbasic l then Some (JS (SStr (join (u ";") (texts_of l))))
      else if forallb inner_array l
      then Some (JS (SStr (join (u ";") (map (fun x => join (u ",") (match x with JA l' => texts_of l' | JS (SStr t) => map (fun c => [c]) t | _ => [] end)) l))))
      else None
    end.

  (** Preserved fields.  The path of a field is its column without the array
      positions.  A field is kept if its path was asked for, or if no requested
      path contains the path of its object. *)
  Definition object_path (p : str) : str := replace (u "/0") [] p.
  Definition kept (p k : str) : bool :=
    match po_preserve O with
    | [] => true
    | F => str_mem (object_path p ++ k) F || negb (existsb (fun f => contains f (object_path p)) F)
    end.
  (** Roll-up: the cells an array of objects adds to its main row *)
  Definition roll_kept (k f : str) : bool :=
    match po_preserve O with [] => true | F => str_mem (k ++ u "/" ++ f) F end.
  Definition rolled (k : str) (l : list jv) : list (str * jv) :=
    if str_mem k (po_rollup O) then
      match l with
      | [] => []
      | [JO d] => map (fun fv => (k ++ u "/0/" ++ fst fv, snd fv)) (filter (fun fv => roll_kept k (fst fv)) d)
      | [_] => []
      | _ => map (fun f => (k ++ u "/0/" ++ f, JS (SStr rollup_text)))
               (filter (roll_kept k) (po_set_order O (nub_str (flat_map (fun v => match v with JO d => map fst d | _ => [] end) l))))
      end
    else [].

  (** the cells of an object whose keys are prefixed by [p]: its leaves and
      those of the objects directly inside it *)
  Fixpoint cells (p : str) (v : jv) : list (str * jv) :=
    match v with
    | JO d => (fix go (d : jobj) : list (str * jv) :=
        match d with
        | [] => []
        | (k, x) :: d' =>
          (if kept p k then
             match x with
             | JO _ => cells (p ++ k ++ u "/") x
             | JS _ => [(p ++ k, x)]
             | JA l => match leaf_cell x with
                       | Some t => [(p ++ k, t)]
                       | None => match p with [] => rolled k l | _ => [] end
                       end
             end
           else []) ++ go d'
        end) d
    | _ => []
    end.

  (** the ids known inside an object: those of the enclosing objects and its own *)
  Definition scope (p : str) (d : jobj) (ids : list (str * jv)) : list (str * jv) :=
    let ids1 := match po_root_id O with
                | [] => ids
                | rid => match sget rid d with Some v => sset rid v ids | None => ids end
                end in
    match sget (po_id_name O) d with Some v => sset (p ++ po_id_name O) v ids1 | None => ids1 end.

  (** an object with a row of its own: the sheet ([None]: main), the prefix of
      its columns, the ids of the enclosing objects, the object *)
  Record site := { si_sheet : option str; si_prefix : str; si_ids : list (str * jv); si_obj : jobj }.

  (** the items of the arrays of objects inside an object, at any depth; an item
      comes after those inside it *)
  Fixpoint inner_sites (p : str) (ids : list (str * jv)) (v : jv) : list site :=
    match v with
    | JO d =>
      let ids' := scope p d ids in
      (fix go (d : jobj) : list site :=
        match d with
        | [] => []
        | (k, x) :: d' =>
          (if kept p k then
          match x with
          | JS _ => []
          | JO _ => inner_sites (p ++ k ++ u "/") ids' x
          | JA l =>
            match leaf_cell x with
            | Some _ => []
            | None => (fix each (l : list jv) : list site :=
                match l with
                | [] => []
                | y :: l' =>
                  match y with
                  | JO e => inner_sites (p ++ k ++ u "/0/") ids' y ++
                            [{| si_sheet := Some (sub_sheet_name O p k); si_prefix := p ++ k ++ u "/0/"; si_ids := ids'; si_obj := e |}]
                  | _ => []
                  end ++ each l'
                end) l
            end
          end
          else []) ++ go d'
        end) d
    | _ => []
    end.
  Definition record_sites (v : jv) : list site :=
    match v with
    | JO d => inner_sites [] [] v ++ [{| si_sheet := None; si_prefix := []; si_ids := []; si_obj := d |}]
    | _ => []
    end.
  Definition sites (l : list jv) : list site := flat_map record_sites l.
  Definition on_sheet (r : option str) (l : list site) : list site := filter (fun s => oname_eqb r (si_sheet s)) l.

  (** the row: a dict that is given the ids, then the cells *)
  Definition fill (l : list (str * jv)) (row : frow) : frow := fold_left (fun r kv => sset (fst kv) (snd kv) r) l row.
  Definition row_of (s : site) : frow := fill (cells (si_prefix s) (JO (si_obj s))) (fill (si_ids s) []).
End Sites.
