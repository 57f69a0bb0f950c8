(** Places inside JSON values, and the columns that spell them. *)
From Verif.Base Require Import PyStr PyNum PyVal PyDict Outcome.
From Verif.Model Require Import Flatten.
From Verif.Spec Require Import Sites.

(** A step goes to the value of a key, or to an item of the array there. *)
Definition jstep := (str * option nat)%type.
Definition jpath := list jstep.
Fixpoint at_path (v : jv) (q : jpath) : option jv :=
  match q with
  | [] => Some v
  | (k, o) :: q' =>
    match v with
    | JO d =>
      match o with
      | None => match sget k d with Some x => at_path x q' | None => None end
      | Some i => match sget k d with
                  | Some (JA l) => match nth_error l i with Some y => at_path y q' | None => None end
                  | _ => None
                  end
      end
    | _ => None
    end
  end.
(** The columns of what is inside a place: "key/" for a key, "key/0/" for any item
    of an array. *)
Definition step_text (s : jstep) : str := fst s ++ u "/" ++ match snd s with Some _ => u "0/" | None => [] end.
Definition pre (q : jpath) : str := flat_map step_text q.
(** steps through objects only *)
Definition down (ks : list str) : jpath := map (fun k => (k, None)) ks.

(** No key is given twice in an object, no key contains the separator "/". *)
Definition key_ok (k : str) : Prop := ~ In 47%N k.
Fixpoint clean (v : jv) : Prop :=
  match v with
  | JS _ => True
  | JA l => (fix all (l : list jv) : Prop := match l with [] => True | x :: l' => clean x /\ all l' end) l
  | JO d => NoDup (map fst d) /\
            (fix all (d : jobj) : Prop := match d with [] => True | (k, x) :: d' => key_ok k /\ clean x /\ all d' end) d
  end.

(** ** What a row has to say about an item of an array *)
Section Rows.
  Variable O : popts.
  Variables (cell : jv -> option jv) (keep : jpath -> bool).

  (** its own leaves (those to be kept), under the columns that spell their places *)
  Definition shows_leaves (Q : jpath) (e : jobj) (row : frow) : Prop :=
    forall ks k x c, at_path (JO e) (down (ks ++ [k])) = Some x -> cell x = Some c -> keep (Q ++ down (ks ++ [k])) = true ->
      sget (pre Q ++ pre (down ks) ++ k) row = Some c.
  (** the id of every object around it *)
  Definition shows_ids (v : jv) (Q : jpath) (row : frow) : Prop :=
    forall Q1 Q2 d x, Q = Q1 ++ Q2 -> Q2 <> [] -> at_path v Q1 = Some (JO d) -> sget (po_id_name O) d = Some x ->
      sget (pre Q1 ++ po_id_name O) row = Some x.
  (** the root id of the record *)
  Definition shows_root (v : jv) (row : frow) : Prop :=
    forall d x, v = JO d -> po_root_id O <> [] -> sget (po_root_id O) d = Some x -> sget (po_root_id O) row = Some x.
  (** and nothing else *)
  Definition shows_only (v : jv) (Q : jpath) (e : jobj) (row : frow) : Prop :=
    forall c x, sget c row = Some x ->
      (exists ks k y, at_path (JO e) (down (ks ++ [k])) = Some y /\ cell y = Some x /\ keep (Q ++ down (ks ++ [k])) = true /\ c = pre Q ++ pre (down ks) ++ k) \/
      (exists Q1 Q2 d, Q = Q1 ++ Q2 /\ Q2 <> [] /\ at_path v Q1 = Some (JO d) /\
         ((c = pre Q1 ++ po_id_name O /\ sget (po_id_name O) d = Some x) \/
          (po_root_id O <> [] /\ c = po_root_id O /\ sget (po_root_id O) d = Some x))).
End Rows.
(** with preserved fields: every field on the way is kept *)
Section Keeps.
  Variable O : popts.
  Fixpoint keeps_from (p : str) (q : jpath) : bool :=
    match q with
    | [] => true
    | (k, o) :: q' => kept O p k && keeps_from (p ++ step_text (k, o)) q'
    end.
  Definition keeps : jpath -> bool := keeps_from [].
End Keeps.
(** the root id field is not used again inside the record *)
Definition root_id_once (O : popts) (v : jv) : Prop :=
  forall Q d, Q <> [] -> at_path v Q = Some (JO d) -> po_root_id O <> [] -> sget (po_root_id O) d = None.

(** ** Places up to array positions *)
Definition shape (q : jpath) : list (str * bool) := map (fun st : jstep => (fst st, match snd st with Some _ => true | None => false end)) q.

(** ** The items of the arrays of objects inside a value, at any depth: the place
    of the object that has the array, the key of the array, the position in it,
    and the item.  An item comes after those inside it. *)
Record item := { it_at : jpath; it_key : str; it_pos : nat; it_obj : jobj }.
Definition it_path (x : item) : jpath := it_at x ++ [(it_key x, Some (it_pos x))].
Definition under (st : jstep) (x : item) : item :=
  {| it_at := st :: it_at x; it_key := it_key x; it_pos := it_pos x; it_obj := it_obj x |}.
Fixpoint items_in (v : jv) : list item :=
  match v with
  | JO d => (fix go (d : jobj) : list item :=
      match d with
      | [] => []
      | (k, x) :: d' =>
        match x with
        | JS _ => []
        | JO _ => map (under (k, None)) (items_in x)
        | JA l => (fix each (i : nat) (l : list jv) : list item :=
            match l with
            | [] => []
            | y :: l' =>
              match y with
              | JO e => map (under (k, Some i)) (items_in y) ++ [{| it_at := []; it_key := k; it_pos := i; it_obj := e |}]
              | _ => []
              end ++ each (S i) l'
            end) 0%nat l
        end ++ go d'
      end) d
  | _ => []
  end.
(** the items of all records of a list, each with its record *)
Definition all_items (l : list jv) : list (jv * item) := flat_map (fun v => map (pair v) (items_in v)) l.
(** what the row of an item says *)
Definition item_shown (O : popts) (vx : jv * item) (row : frow) : Prop :=
  let (v, x) := vx in
  shows_leaves (leaf_cell O) (keeps O) (it_path x) (it_obj x) row /\
  (root_id_once O v -> shows_ids O v (it_path x) row /\ shows_root O v row) /\
  shows_only O (leaf_cell O) (keeps O) v (it_path x) (it_obj x) row.
(** the sheet of an item; the items with a row there *)
Definition item_sheet (O : popts) (vx : jv * item) : str := sub_sheet_name O (pre (it_at (snd vx))) (it_key (snd vx)).
Definition kept_item (O : popts) (vx : jv * item) : bool := keeps O (it_path (snd vx)).
Definition sheet_items (O : popts) (n : str) (l : list jv) : list (jv * item) :=
  filter (fun vx => str_eqb n (item_sheet O vx)) (filter (kept_item O) (all_items l)).
(** what a main row says *)
Definition record_shown (O : popts) (d : jobj) (row : frow) : Prop :=
  shows_leaves (leaf_cell O) (keeps O) [] d row /\ shows_only O (leaf_cell O) (keeps O) (JO d) [] d row.
Definition records (l : list jv) : list jobj := flat_map (fun v => match v with JO d => [d] | _ => [] end) l.
