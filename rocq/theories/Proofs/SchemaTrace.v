(** The schema parser as a sequence of actions. *)
From Verif.Base Require Import PyStr PyNum PyVal PyDict Outcome.
From Verif.Model Require Import Flatten Titles Schema.
From Verif.Spec Require Import SchemaFields.
Local Open Scope res_scope.

Inductive act :=
| ASheet (sn : str)
| ASubTitle (k : str * str) (sn : str)
| AId (sn f : str) (lk : nat)
| ACol (sn c : str) (title : option str)      (* with the path when there is a title *)
| AType (k t : str)
| ATitle (lk : nat) (t n : str)
| ARoll (p : str)
| AYield (f : str) (t : option str).

Section Trace.
  Variable O : sopts.

  Definition do_act (a : act) (st : sps) : sps :=
    match a with
    | ASheet sn => upd_subs (fun subs => if shas sn subs then subs else sset sn (new_sheet (so_root_id O)) subs) st
    | ASubTitle k sn => upd_sub_titles (aset pair_eqb k sn) st
    | AId sn f lk => on_sub sn (fun s => set_title (lookup_header (so_lower O) (sp_table st) lk f) f (add_idcol f s)) st
    | ACol sn c None => on_sub sn (add_col c) st
    | ACol sn c (Some full) => on_sub sn (fun s => set_title full c (add_col c s)) st
    | AType k t => set_type k t st
    | ATitle lk t n => upd_table (t_add (so_lower O) lk t n) st
    | ARoll p => upd_rollup (set_add p) st
    | AYield _ _ => st
    end.
  Fixpoint runs {X} (emit : emit_t X) (tr : list act) (x : X) (st : sps) (x' : X) (st' : sps) : Prop :=
    match tr with
    | [] => x' = x /\ st' = st
    | AYield f t :: tr' => exists x1 st1 w, emit x f t st = Ok (x1, st1) w /\ runs emit tr' x1 st1 x' st'
    | a :: tr' => runs emit tr' x (do_act a st) x' st'
    end.
  Lemma runs_app {X} (emit : emit_t X) a b : forall x st x1 st1 x2 st2,
    runs emit a x st x1 st1 -> runs emit b x1 st1 x2 st2 -> runs emit (a ++ b) x st x2 st2.
  Proof.
    induction a as [|y a IH]; intros x st x1 st1 x2 st2 H1 H2; [destruct H1; subst; exact H2|].
    destruct y; try (apply (IH _ _ _ _ _ _ H1 H2)).
    destruct H1 as (x3 & st3 & w & E & H1). exists x3, st3, w. split; [exact E|]. exact (IH _ _ _ _ _ _ H1 H2).
  Qed.

  (** what an object passes on to its parent *)
  Definition lift_object (n : str) (t : option str) (a : act) : list act :=
    match a with AYield f c => [AYield (n ++ sl ++ f) (join_title t c)] | _ => [a] end.
  Definition sub_col (sn pp n : str) (pt t : option str) (f : str) (c : option str) : list act :=
    let full := pp ++ n ++ zero_sl ++ f in
    if so_titles O then match c, pt, t with
                        | Some c, Some p, Some t => [ACol sn (p ++ t ++ [colon] ++ c) (Some full)]
                        | _, _, _ => []
                        end
    else [ACol sn full None].
  Definition roll_act (pp n : str) (t : option str) (up : str -> bool) (f : str) (c : option str) : list act :=
    if up f then [ARoll (pp ++ n ++ zero_sl ++ f); AYield (n ++ zero_sl ++ f) (join_title t c)] else [].
  Definition lift_objects (sn pp n : str) (pt t : option str) (up : str -> bool) (a : act) : list act :=
    match a with AYield f c => sub_col sn pp n pt t f c ++ roll_act pp n t up f c | _ => [a] end.

  Lemma runs_object {X} (emit : emit_t X) n t tr : forall x st x' st',
    runs (fun x f c st => emit x (n ++ sl ++ f) (join_title t c) st) tr x st x' st' -> runs emit (flat_map (lift_object n t) tr) x st x' st'.
  Proof.
    induction tr as [|a tr IH]; intros x st x' st' H; [exact H|]. cbn [flat_map].
    destruct a; try (cbn [lift_object app runs] in *; apply IH; exact H).
    cbn [lift_object app runs] in *. destruct H as (x1 & st1 & w & E & H). exists x1, st1, w. split; [exact E|]. apply IH. exact H.
  Qed.

  Definition in_table (lk : nat) (title : option str) (n : str) : list act :=
    match title with Some t => [ATitle lk t n] | None => [] end.
  Definition titles_in (tr : list act) : nat := length (filter (fun a => match a with ATitle _ _ _ => true | _ => false end) tr).

  (** [k] is the size of the title table before.  The table of the children is the
      new one, or the table of the whole schema without a title. *)
  Definition child_ok (k child : nat) (v : sv) : Prop :=
    match title_of v with Some _ => child = k | None => own_title v = None \/ own_title v = Some (VS SNone) -> child = 0 end.

  Definition slashed (pp : str) : str := match pp with [] => [] | _ => pp ++ sl end.

  (** the types an array or object is given besides that of a leaf *)
  Inductive dict_tr : str -> list str -> option str -> nat -> nat -> sv -> list act -> Prop :=
  | DT_alts pp ids pt lk k v l tr : alternatives v (VA l) -> alts_tr (slashed pp) ids pt lk k l tr -> dict_tr pp ids pt lk k v tr
  | DT_alts_none pp ids pt lk k v o : alternatives v o -> (forall l, o <> VA l) -> dict_tr pp ids pt lk k v []
  | DT_props pp ids pt lk k v r d tr : (forall o, ~ alternatives v o) -> entry (u "properties") v (VO r d) ->
      props_tr (slashed pp) (ids_at O v {| at_path := slashed pp; at_titles := pt; at_ids := ids |}) pt lk k d tr -> dict_tr pp ids pt lk k v tr
  | DT_none pp ids pt lk k v : (forall o, ~ alternatives v o) -> (forall p, ~ entry (u "properties") v p) -> dict_tr pp ids pt lk k v []
  with alts_tr : str -> list str -> option str -> nat -> nat -> list sv -> list act -> Prop :=
  | LT_nil pp ids pt lk k : alts_tr pp ids pt lk k [] []
  | LT_skip pp ids pt lk k v l tr : ~ entry (u "type") v (VS (SStr (u "object"))) -> alts_tr pp ids pt lk k l tr -> alts_tr pp ids pt lk k (v :: l) tr
  | LT_take pp ids pt lk k v l t1 t2 : entry (u "type") v (VS (SStr (u "object"))) -> dict_tr pp ids pt lk k v t1 ->
      alts_tr pp ids pt lk (k + titles_in t1) l t2 -> alts_tr pp ids pt lk k (v :: l) (t1 ++ t2)
  with props_tr : str -> list str -> option str -> nat -> nat -> list (str * sv) -> list act -> Prop :=
  | ST_nil pp ids pt lk k : props_tr pp ids pt lk k [] []
  | ST_cons pp ids pt lk k n v l t1 t2 : prop_tr pp ids pt lk k n v t1 -> props_tr pp ids pt lk (k + titles_in t1) l t2 ->
      props_tr pp ids pt lk k ((n, v) :: l) (t1 ++ t2)
  with prop_tr : str -> list str -> option str -> nat -> nat -> str -> sv -> list act -> Prop :=
  | PT_skip pp ids pt lk k n v : so_nodep O = true -> is_deprecated v -> prop_tr pp ids pt lk k n v []
  | PT_none pp ids pt lk k n v : (so_nodep O = true -> ~ is_deprecated v) -> (forall ty, ~ leaf O v ty) -> ~ an_object O v -> (forall i, ~ objects v i) ->
      prop_tr pp ids pt lk k n v (in_table lk (title_of v) n)
  | PT_leaf pp ids pt lk k n v ty pre : (so_nodep O = true -> ~ is_deprecated v) -> leaf O v ty ->
      (pre = [] \/ pre = [AType (replace zero_sl sl pp ++ n) (u "array")]) ->
      prop_tr pp ids pt lk k n v (in_table lk (title_of v) n ++ pre ++ [AType (replace zero_sl sl pp ++ n) ty; AYield n (title_of v)])
  | PT_object pp ids pt lk k n v child tr : (so_nodep O = true -> ~ is_deprecated v) -> an_object O v -> child_ok k child v ->
      dict_tr (pp ++ n) ids (sub_title pt (title_of v)) child (k + titles_in (in_table lk (title_of v) n)) v tr ->
      prop_tr pp ids pt lk k n v (in_table lk (title_of v) n ++ AType (pp ++ n) (u "object") :: flat_map (lift_object n (title_of v)) tr)
  | PT_objects pp ids pt lk k n v i child up sn tr : (so_nodep O = true -> ~ is_deprecated v) -> objects v i -> child_ok k child v ->
      (forall f, up f = true <-> rolled_up O v f) -> sn = sub_name O pp pt n (title_of v) ->
      dict_tr (pp ++ n ++ sl ++ [48%N]) ids (sub_title pt (title_of v)) child (k + titles_in (in_table lk (title_of v) n)) i tr ->
      prop_tr pp ids pt lk k n v
        (in_table lk (title_of v) n ++ AType (replace zero_sl sl pp ++ n) (u "array") ::
         (if so_titles O then match pt with Some _ => [ASubTitle (pp, n) sn] | None => [] end else []) ++ ASheet sn ::
         map (fun f => AId sn f lk) ids ++ flat_map (lift_objects sn pp n pt (title_of v) up) tr).
End Trace.
