(** Flattening with any mix of a schema, titles and roll-up: under which headings
    the values of a record and of its items are found.  (Spec/Paths.v has the
    vocabulary: places, items, the columns that spell places.) *)
From Verif.Base Require Import PyStr PyNum PyVal PyDict Outcome.
From Verif.Model Require Import Flatten.
From Verif.Spec Require Import Flat Sites Paths.

(** runs on JSON without WKT *)
Definition json_run (O : popts) : Prop := schema_ready O /\ po_xml O = false /\ po_wkt O = false.

Section Titled.
  Variable O : popts.

  (** the titles the schema gives the columns of a sheet ([None]: the main sheet) *)
  Definition titles_of (r : option str) : list (str * str) :=
    match po_schema O with
    | None => []
    | Some sc => match r with
                 | None => sh_titles (sci_main sc)
                 | Some n => match sget n (sci_subs sc) with Some x => sh_titles x | None => [] end
                 end
    end.
  (** the heading of a column: with titles, its title on that sheet if it has one *)
  Definition heading (r : option str) (c : str) : str :=
    if po_titles O then match sget c (titles_of r) with Some t => t | None => c end else c.

  (** the name of the sheet of an array: with titles the one the schema gives it,
      if any, otherwise the shortened keys on the way to it and its own key *)
  Definition short_name (q : jpath) (k : str) : str :=
    replace_c 58%N 45%N (flat_map (fun x => firstn (po_trunc O) x ++ u "_") (filter (fun x => negb (str_eqb x (u "0"))) (map fst q)) ++ k).
  Definition array_sheet (q : jpath) (k : str) : str :=
    match (if po_titles O then po_schema O else None) with
    | Some sc => match aget pair_eqb (pre q, k) (sci_sub_titles sc) with Some n => n | None => short_name q k end
    | None => short_name q k
    end.
  (** the sheet of the row a place belongs to: that of the last array on the way *)
  Fixpoint sheet_after (r : option str) (q0 q : jpath) : option str :=
    match q with
    | [] => r
    | (k, o) :: q' => sheet_after (match o with Some _ => Some (array_sheet q0 k) | None => r end) (q0 ++ [(k, o)]) q'
    end.
  Definition sheet_of_place (q : jpath) : option str := sheet_after None [] q.

  (** a leaf of an object at place [Q], in the rows of sheet [r] *)
  Definition leaf_value (r : option str) (Q : jpath) (e : jobj) (h : str) (val : jv) : Prop :=
    exists ks k y, at_path (JO e) (down (ks ++ [k])) = Some y /\ leaf_cell O y = Some val /\ keeps O (Q ++ down (ks ++ [k])) = true /\
      h = heading r (pre Q ++ pre (down ks) ++ k).
  (** the id, or the root id, of an object around the place [Q].  It is carried
      along under the heading it has on the sheet of that object. *)
  Definition id_value (r : option str) (v : jv) (Q : jpath) (h : str) (val : jv) : Prop :=
    exists Q1 Q2 d, Q = Q1 ++ Q2 /\ Q2 <> [] /\ at_path v Q1 = Some (JO d) /\
      ((sget (po_id_name O) d = Some val /\ h = heading r (heading (sheet_of_place Q1) (pre Q1 ++ po_id_name O))) \/
       (po_root_id O <> [] /\ sget (po_root_id O) d = Some val /\ h = heading r (heading (sheet_of_place Q1) (po_root_id O)))).
  Definition item_value (v : jv) (x : item) (h : str) (val : jv) : Prop :=
    let r := Some (array_sheet (it_at x) (it_key x)) in
    leaf_value r (it_path x) (it_obj x) h val \/ id_value r v (it_path x) h val.

  (** ** Roll-up *)
  (** The heading of the field [f] of the only item of the array [k], if it is
      rolled up: without a schema if [k] was asked for; with a schema also if its
      main sheet has that column.  With titles a column of the schema's main
      sheet has its title there, otherwise the field has its title on the array's
      sheet (if the schema has one). *)
  Definition rolled_heading (k f : str) : option str :=
    let c := k ++ u "/0/" ++ f in
    match po_schema O with
    | None => if str_mem k (po_rollup O) then Some c else None
    | Some sc =>
      if po_titles O then
        match sget c (sh_titles (sci_main sc)) with
        | Some t => Some t
        | None =>
          if str_mem k (po_rollup O) then
            match aget pair_eqb ([], k) (sci_sub_titles sc) with
            | Some n => if ahas str_eqb n (sci_subs sc) then Some (heading None (heading (Some n) c)) else None
            | None => None
            end
          else None
        end
      else if str_mem c (header (sci_main sc)) || str_mem k (po_rollup O) then Some c else None
    end.
  (** the same when there are several items *)
  Definition many_heading (k f : str) : option str :=
    let c := k ++ u "/0/" ++ f in
    if match po_schema O with Some sc => str_mem c (header (sci_main sc)) | None => false end || str_mem k (po_rollup O)
    then Some (heading None c) else None.
  Definition rolled_value (d : jobj) (h : str) (val : jv) : Prop :=
    po_rollup O <> [] /\
    exists k l f, sget k d = Some (JA l) /\ leaf_cell O (JA l) = None /\ keeps O [(k, None)] = true /\
      (po_preserve O = [] \/ In (k ++ u "/" ++ f) (po_preserve O)) /\
      ((exists e, l = [JO e] /\ sget f e = Some val /\ rolled_heading k f = Some h) \/
       ((2 <= length l)%nat /\ (exists e, In (JO e) l /\ In f (map fst e)) /\ val = JS (SStr rollup_text) /\ many_heading k f = Some h)).
  Definition record_value (d : jobj) (h : str) (val : jv) : Prop := leaf_value None [] d h val \/ rolled_value d h val.

  (** ** A row tells the values: nothing else is in it, and a value is in it
      under its heading unless another value has the same heading *)
  Definition tells (value : str -> jv -> Prop) (row : frow) : Prop :=
    (forall h val, sget h row = Some val -> value h val) /\
    (forall h val, value h val -> (forall val', value h val' -> val' = val) -> sget h row = Some val) /\
    (forall h val, value h val -> In h (map fst row)).
  (** the items whose rows are on a sheet *)
  Definition items_on (n : str) (l : list jv) : list (jv * item) :=
    filter (fun vx => str_eqb n (array_sheet (it_at (snd vx)) (it_key (snd vx)))) (filter (fun vx => keeps O (it_path (snd vx))) (all_items l)).
End Titled.
