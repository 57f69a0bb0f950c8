(** Vocabulary for statements about flattening. *)
From Verif.Base Require Import PyStr PyNum PyVal PyDict Outcome.
From Verif.Model Require Import Flatten.

(** what the writers get: the main sheet and the sub-sheets *)
Definition tables (s : pst) : list table := main_table s :: sub_tables s.

(** The sheets a schema provides: distinct names, no lines yet, no column twice. *)
Definition schema_ready (O : popts) : Prop :=
  match po_schema O with
  | None => True
  | Some sc => NoDup (map fst (sci_subs sc)) /\ NoDup (header (sci_main sc)) /\
               Forall (fun nx => sh_lines (snd nx) = LMem [] /\ NoDup (header (snd nx))) (sci_subs sc)
  end.
(** Without a schema the main sheet is stored under the name "": no array of
    objects may have that name. *)
Definition name_free (O : popts) (s : pst) : Prop := po_schema O = None -> ~ In [] (map tb_name (sub_tables s)).

(** [t'] is [t] with columns and rows added at the end *)
Definition extends (t t' : table) : Prop :=
  tb_name t' = tb_name t /\ (exists e, tb_header t' = tb_header t ++ e) /\ (exists e, tb_rows t' = tb_rows t ++ e).

(** ** A record passes a filter *)
Definition passes (field value : str) (v : jv) : bool :=
  match v with
  | JO d => match sget field d with Some (JS (SStr t)) => str_eqb t value | _ => false end
  | _ => false
  end.
Definition without_filter (O : popts) : popts :=
  {| po_str := po_str O; po_titles := po_titles O; po_schema := po_schema O; po_root_id := po_root_id O; po_id_name := po_id_name O;
     po_xml := po_xml O; po_filter := None; po_preserve := po_preserve O; po_rollup := po_rollup O; po_trunc := po_trunc O;
     po_wkt := po_wkt O; po_shape := po_shape O; po_set_order := po_set_order O |}.
(** the result of a run, its warnings left aside *)
Definition outcome {W A} (r : res W A) : A + exn := match r with Ok a _ => inl a | Raise e _ => inr e end.

(** ** JSON whose arrays flatten: every array holds only basic values, or only
    arrays of basic values (or texts), or only objects (or nulls) *)
Fixpoint regular (v : jv) : Prop :=
  match v with
  | JS s => basic s = true
  | JO d => (fix all (d : jobj) : Prop := match d with [] => True | (_, v) :: d' => regular v /\ all d' end) d
  | JA l => (forall v, In v l -> jbasic v = true) \/
            (forall v, In v l -> exists l', (v = JA l' /\ forall x, In x l' -> jbasic x = true) \/ exists t, v = JS (SStr t)) \/
            ((forall v, In v l -> v = JS SNone \/ exists d, v = JO d) /\
             (fix all (l : list jv) : Prop := match l with [] => True | v :: l' => regular v /\ all l' end) l)
  end.

(** ** A history of uses of the row store: sheets (known by their names) are
    created and get rows, in any interleaving *)
Inductive store_op := SNew (n : option str) | SAdd (n : option str) (r : frow).
Definition sheets_by_name := list (option str * sheet).
Definition do_op (st : sheets_by_name * store) (o : store_op) : sheets_by_name * store :=
  match o with
  | SNew n => let (x, t) := new_persistent n (snd st) in (aset oname_eqb n x (fst st), t)
  | SAdd n r => match aget oname_eqb n (fst st) with
                | Some x => let (x', t) := append_line r x (snd st) in (aset oname_eqb n x' (fst st), t)
                | None => st
                end
  end.
Definition run_ops (l : list store_op) : sheets_by_name * store := fold_left do_op l ([], []).
(** the rows added under a name *)
Definition added (n : option str) (l : list store_op) : list frow :=
  flat_map (fun o => match o with SAdd m r => if oname_eqb n m then [r] else [] | SNew _ => [] end) l.
Definition created (l : list store_op) : list (option str) :=
  flat_map (fun o => match o with SNew n => [n] | SAdd _ _ => [] end) l.
(** every sheet is created once, and before it gets rows *)
Fixpoint proper (made : list (option str)) (l : list store_op) : Prop :=
  match l with
  | [] => True
  | SNew n :: l' => ~ In n made /\ proper (n :: made) l'
  | SAdd n _ :: l' => In n made /\ proper made l'
  end.

(** the records a run looks at: those that pass the filter, if there is one *)
Definition chosen (O : popts) (l : list jv) : list jv :=
  match po_filter O with None => l | Some (field, value) => filter (passes field value) l end.
