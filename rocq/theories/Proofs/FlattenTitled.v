(** The rows of a run with any mix of schema, titles and roll-up. *)
From Verif.Base Require Import PyStr PyNum PyVal PyDict Outcome.
From Verif.Model Require Import Flatten.
From Verif.Spec Require Import Flat Sites Titled.
From Verif.Proofs Require Import JvInd FlattenTrace FlattenRows FlattenRun FlattenPlain.

Section Titled.
  Variable O : popts.
  Hypothesis P : json_run O.
  Notation M := (main_place O).
  Notation head := (heading O).

  (** ** the cells and rows, as lists *)
  Definition rn (r : sref) (l : list (str * jv)) : list (str * jv) := map (fun kv => (head r (fst kv), snd kv)) l.
  Definition roll_cells (r : sref) (k : str) (l : list jv) : list (str * jv) :=
    match po_rollup O with
    | [] => []
    | _ =>
      match l with
      | [] => []
      | [JO d] => flat_map (fun fv => match roll_column O k (fst fv) with Some c => [(head r c, snd fv)] | None => [] end) (filter (fun fv => roll_kept O k (fst fv)) d)
      | [_] => []
      | _ => flat_map (fun f => if roll_many_wanted O k f then [(head r (roll_path k f), JS (SStr rollup_text))] else [])
               (filter (roll_kept O k) (po_set_order O (nub_str (flat_map (fun v => match v with JO d => map fst d | _ => [] end) l))))
      end
    end.
  Fixpoint tcells_of (r : sref) (p : str) (d : jobj) : list (str * jv) :=
    match d with
    | [] => []
    | (k, x) :: d' =>
      (if kept O p k then
         match x with
         | JO _ => rn r (cells O (p ++ k ++ u "/") x)
         | JS _ => [(head r (p ++ k), x)]
         | JA l => match leaf_cell O x with
                   | Some t => [(head r (p ++ k), t)]
                   | None => match p with [] => roll_cells r k l | _ => [] end
                   end
         end
       else []) ++ tcells_of r p d'
    end.
  Definition tcells (r : sref) (p : str) (v : jv) : list (str * jv) := match v with JO d => tcells_of r p d | _ => [] end.
  Lemma tcells_rn r p v : p <> [] -> tcells r p v = rn r (cells O p v).
  Proof.
    intros Hp. destruct v as [s|l|d]; try reflexivity. cbn [tcells]. rewrite cells_JO. induction d as [|[k x] d IH]; [reflexivity|]. cbn [tcells_of cells_of]. unfold rn in *. rewrite map_app, IH. f_equal.
    destruct (kept O p k); [|reflexivity]. destruct x as [s|l|e]; try reflexivity. destruct (leaf_cell O (JA l)); [reflexivity|]. destruct p; [congruence|reflexivity].
  Qed.
  Definition tscope (r : sref) (p : str) (d : jobj) (ids : list (str * jv)) : list (str * jv) :=
    let ids1 := match po_root_id O with
                | [] => ids
                | rid => match sget rid d with Some v => sset (head r rid) v ids | None => ids end
                end in
    match sget (po_id_name O) d with Some v => sset (head r (p ++ po_id_name O)) v ids1 | None => ids1 end.
  Fixpoint tinner (r : sref) (p : str) (ids : list (str * jv)) (v : jv) : list site :=
    match v with
    | JO d =>
      let ids' := tscope r p d ids in
      (fix go (d : jobj) : list site :=
        match d with
        | [] => []
        | (k, x) :: d' =>
          (if kept O p k then
          match x with
          | JS _ => []
          | JO _ => tinner r (p ++ k ++ u "/") ids' x
          | JA l =>
            match leaf_cell O x with
            | Some _ => []
            | None => (fix each (l : list jv) : list site :=
                match l with
                | [] => []
                | y :: l' =>
                  match y with
                  | JO e => tinner (Some (sub_sheet_name O p k)) (p ++ k ++ u "/0/") ids' y ++
                            [{| si_sheet := Some (sub_sheet_name O p k); si_prefix := p ++ k ++ u "/0/"; si_ids := ids'; si_obj := e |}]
                  | _ => []
                  end ++ each l'
                end) l
            end
          end
          else []) ++ go d'
        end) d
    | _ => []
    end.
  Fixpoint titem_sites (p k : str) (ids : list (str * jv)) (l : list jv) : list site :=
    match l with
    | [] => []
    | y :: l' =>
      match y with
      | JO e => tinner (Some (sub_sheet_name O p k)) (p ++ k ++ u "/0/") ids y ++
                [{| si_sheet := Some (sub_sheet_name O p k); si_prefix := p ++ k ++ u "/0/"; si_ids := ids; si_obj := e |}]
      | _ => []
      end ++ titem_sites p k ids l'
    end.
  Fixpoint tsites_of (r : sref) (p : str) (ids : list (str * jv)) (d : jobj) : list site :=
    match d with
    | [] => []
    | (k, x) :: d' =>
      (if kept O p k then
         match x with
         | JS _ => []
         | JO _ => tinner r (p ++ k ++ u "/") ids x
         | JA l => match leaf_cell O x with Some _ => [] | None => titem_sites p k ids l end
         end
       else []) ++ tsites_of r p ids d'
    end.
  Lemma tsites_JO r p ids d : tinner r p ids (JO d) = tsites_of r p (tscope r p d ids) d.
  Proof.
    cbn [tinner]. generalize (tscope r p d ids) as ids'. intros ids'. induction d as [|[k x] d IH]; [reflexivity|]. cbn [tsites_of]. rewrite <- IH. f_equal.
    destruct (kept O p k); [|reflexivity]. destruct x as [sc|l|e]; [reflexivity| |reflexivity]. destruct (leaf_cell O (JA l)); [reflexivity|].
    induction l as [|y l IHl]; [reflexivity|]. cbn [titem_sites]. rewrite <- IHl. reflexivity.
  Qed.
  Definition trow (s : site) : frow := fill (tcells (si_sheet s) (si_prefix s) (JO (si_obj s))) (fill (rn (si_sheet s) (si_ids s)) []).
  Definition trecord (v : jv) : list site :=
    match v with
    | JO d => tinner None [] [] v ++ [{| si_sheet := None; si_prefix := []; si_ids := []; si_obj := d |}]
    | _ => []
    end.
  Definition tsites (l : list jv) : list site := flat_map trecord l.
  Definition tentry (s : site) : sref * frow := (si_sheet s, trow s).

  (** ** titles do not change *)
  Definition titled (s : pst) : Prop := forall r x, sheet_at r s = Some x -> sh_titles x = titles_of O r.
  Definition known (s : pst) : Prop := forall n sc, po_schema O = Some sc -> sget n (sci_subs sc) <> None -> there n s.
  Definition good (s : pst) : Prop := titled s /\ known s.
  Lemma sheet_key_titles k x : sh_titles (snd (sheet_key (po_titles O) k x)) = sh_titles x.
  Proof. unfold sheet_key. cbn [snd]. destruct (str_mem _ _); [reflexivity|]. unfold add_col. destruct (str_mem _ _); reflexivity. Qed.
  Lemma good_key r k s : good s -> good (snd (use_key O r k s)).
  Proof.
    intros [T K]. split.
    - intros r' x. unfold use_key. destruct (sheet_at r s) as [y|] eqn:E; [|apply T]. pose proof (sheet_key_titles k y) as Q. destruct (sheet_key (po_titles O) k y) as [k' y']. cbn [snd] in *.
      rewrite sheet_at_put. destruct (oname_eqb r' r) eqn:Er; [|apply T]. apply oname_eqb_eq in Er as ->. intros [= <-]. rewrite Q. exact (T r y E).
    - intros n sc Hs Hn Q. apply use_key_subs in Q. exact (K n sc Hs Hn Q).
  Qed.
  Lemma good_sub n s : good s -> good (ensure_sub n s).
  Proof.
    intros [T K]. destruct (sget n (p_subs s)) eqn:E; [unfold ensure_sub; rewrite E; split; assumption|]. split.
    - intros r x. rewrite ensure_sheet by exact E. destruct (oname_eqb r (Some n)) eqn:Er; [|apply T]. apply oname_eqb_eq in Er as ->. intros [= <-]. cbn [sh_titles].
      unfold titles_of. destruct (po_schema O) as [sc|] eqn:Es; [|reflexivity]. destruct (sget n (sci_subs sc)) eqn:En; [|reflexivity].
      exfalso. apply (K n sc Es); [congruence|exact E].
    - intros m sc Hs Hm Q. apply (K m sc Hs Hm). unfold ensure_sub in Q. rewrite E in Q. cbn [new_persistent p_subs] in Q. destruct (str_eqb_spec m n) as [-> |Hn]; [exact E|].
      rewrite sget_sset_neq in Q by exact Hn. exact Q.
  Qed.
  Lemma good_line r x row s : sheet_at r s = Some x -> good s -> good (add_row r x row s).
  Proof.
    intros Hx [T K]. split.
    - intros r' y. rewrite add_row_sheet. destruct (oname_eqb r' r) eqn:Er; [|apply T]. apply oname_eqb_eq in Er as ->. intros [= <-]. rewrite <- (T r x Hx). unfold append_line. destruct (sh_lines x); reflexivity.
    - intros n sc Hs Hn Q. apply add_row_subs in Q; [|exact Hx]. exact (K n sc Hs Hn Q).
  Qed.
  Lemma trace_good s s' : trace O s s' -> good s -> good s'.
  Proof. intros H. induction H; intros G; [exact G|..]; specialize (IHtrace G); [exact IHtrace|apply good_key; exact IHtrace|apply good_sub; exact IHtrace|apply good_line; assumption]. Qed.

  Notation grows := (grows O).
  Notation grows2 := (grows2 O).
  Definition okr (r : sref) (s : pst) : Prop := sheet_at r s <> None /\ good s.
  Lemma trace_okr r s s' : trace O s s' -> okr r s -> okr r s'.
  Proof. intros T [A B]. split; [eapply trace_exists; eassumption|eapply trace_good; eassumption]. Qed.

  Lemma use_key_title r k s : okr r s -> fst (use_key O r k s) = head r k.
  Proof.
    intros [Hx [T _]]. unfold use_key. destruct (sheet_at r s) as [x|] eqn:E; [|congruence]. unfold sheet_key, heading. rewrite (T r x E). destruct (po_titles O); reflexivity.
  Qed.
  Lemma set_cell_title r k v row s : okr r s -> set_cell O r k v row s = (snd (use_key O r k s), sset (head r k) v row).
  Proof.
    intros Hx. unfold set_cell. pose proof (use_key_title r k s Hx) as Q. destruct (use_key O r k s) as [k' s1]. simpl in Q. subst. reflexivity.
  Qed.
  Lemma okr_key r r' k s : okr r s -> okr r (snd (use_key O r' k s)).
  Proof. apply trace_okr. apply t_key, t_nil. Qed.
  Lemma add_parent_ids_title r ids : forall row s s' row' w, okr r s -> add_parent_ids O r ids row s = Ok (s', row') w ->
    row' = fill (rn r ids) row /\ grows s [] s'.
  Proof.
    induction ids as [|[k v] ids IH]; intros row s s' row' w Hx H; cbn [add_parent_ids] in H.
    - injection H as <- <- _. split; [reflexivity|apply grows_nil].
    - pose proof (use_key_title r k s Hx) as Q. pose proof (grows_key O r k s) as G. pose proof (okr_key r r k s Hx) as Hy. destruct (use_key O r k s) as [k' s1]. simpl in Q, G, Hy. subst k'.
      destruct P as (_ & E & _). rewrite E in H. unfold bind, ret in H. destruct (add_parent_ids O r ids (sset (head r k) v row) s1) as [[s2 r2] w2|] eqn:E2; [|discriminate].
      injection H as <- <- _. apply IH in E2 as [-> G2]; [|exact Hy].
      split; [reflexivity|]. eapply grows_cons; eassumption.
  Qed.
  Lemma own_ids_title r d parent ids s ids' s' : okr r s -> own_ids O r d parent ids s = (ids', s') ->
    ids' = tscope r parent d ids /\ grows s [] s'.
  Proof.
    intros Hx. unfold own_ids, tscope.
    assert (G : forall ids1 s1, grows s [] s1 ->
      match sget (po_id_name O) d with
      | Some v => let (k, s2) := use_key O r (parent ++ po_id_name O) s1 in (sset k v ids1, s2)
      | None => (ids1, s1)
      end = (ids', s') ->
      ids' = match sget (po_id_name O) d with Some v => sset (head r (parent ++ po_id_name O)) v ids1 | None => ids1 end /\ grows s [] s').
    { intros ids1 s1 G1 H. destruct (sget (po_id_name O) d); [|injection H as <- <-; auto].
      assert (Hx1 : okr r s1) by (eapply trace_okr; [exact (proj1 G1)|exact Hx]).
      pose proof (use_key_title r (parent ++ po_id_name O) s1 Hx1) as Q. pose proof (grows_key O r (parent ++ po_id_name O) s1) as G2.
      destruct (use_key O r (parent ++ po_id_name O) s1) as [k' s2]. simpl in Q, G2. subst k'. injection H as <- <-.
      split; [reflexivity|]. eapply grows_cons; eassumption. }
    destruct (po_root_id O) as [|c rid]; [intros H; apply G with (s1 := s); [apply grows_nil|exact H]|].
    destruct (sget (c :: rid) d); [|intros H; apply G with (s1 := s); [apply grows_nil|exact H]].
    pose proof (use_key_title r (c :: rid) s Hx) as Q. pose proof (grows_key O r (c :: rid) s) as G2.
    destruct (use_key O r (c :: rid) s) as [k' s2]. simpl in Q, G2. subst k'. intros H. apply G with (s1 := s2); [exact G2|exact H].
  Qed.
  Lemma roll_single_title r key item : forall row s s' row' w, roll_single O r key item row s = Ok (s', row') w -> okr r s ->
    row' = fill (flat_map (fun fv => match roll_column O key (fst fv) with Some c => [(head r c, snd fv)] | None => [] end) (filter (fun fv => roll_kept O key (fst fv)) item)) row
    /\ grows s [] s'.
  Proof.
    induction item as [|[k v] item IH]; intros row s s' row' w H Hx; cbn [roll_single] in H.
    - injection H as <- <- _. split; [reflexivity|apply grows_nil].
    - rewrite roll_dropped_kept in H. cbn [filter fst]. destruct (roll_kept O key k); cbn [negb] in H; [|eapply IH; eassumption].
      destruct (negb (jbasic v)); [discriminate|]. cbn [flat_map fst snd]. destruct (roll_column O key k) as [c|]; [|apply IH in H; [exact H|exact Hx]].
      rewrite set_cell_title in H by exact Hx. apply IH in H as [-> G].
      + split; [reflexivity|]. eapply grows_cons; [apply grows_key|exact G].
      + apply okr_key. exact Hx.
  Qed.
  Lemma roll_many_title r key ks : forall row s s' row' w, roll_many O r key ks row s = Ok (s', row') w -> okr r s ->
    row' = fill (flat_map (fun f => if roll_many_wanted O key f then [(head r (roll_path key f), JS (SStr rollup_text))] else []) (filter (roll_kept O key) ks)) row
    /\ grows s [] s'.
  Proof.
    induction ks as [|k ks IH]; intros row s s' row' w H Hx; cbn [roll_many] in H.
    - injection H as <- <- _. split; [reflexivity|apply grows_nil].
    - rewrite roll_dropped_kept in H. cbn [filter fst]. destruct (roll_kept O key k); cbn [negb] in H; [|eapply IH; eassumption].
      cbn [flat_map]. destruct (roll_many_wanted O key k); [|apply IH in H; [exact H|exact Hx]].
      apply bind_ok in H as (t & w1 & w2 & _ & H & _). rewrite set_cell_title in H by exact Hx. apply IH in H as [-> G].
      + split; [reflexivity|]. eapply grows_cons; [apply grows_key|exact G].
      + apply okr_key. exact Hx.
  Qed.
  Lemma rollup_title r parent key l row s s' row' w : rollup O r parent key l row s = Ok (s', row') w -> okr r s ->
    row' = fill (match parent with [] => roll_cells r key l | _ => [] end) row /\ grows s [] s'.
  Proof.
    unfold rollup, roll_cells. intros H Hx. destruct (po_rollup O) as [|f fs] eqn:Ef.
    { injection H as <- <- _. split; [destruct parent; reflexivity|apply grows_nil]. }
    destruct parent; [|injection H as <- <- _; split; [reflexivity|apply grows_nil]].
    apply bind_ok in H as (t & w1 & w2 & _ & H & _). destruct l as [|v [|v2 l]].
    - injection H as <- <- _. split; [reflexivity|apply grows_nil].
    - destruct v as [| |d]; try discriminate. apply roll_single_title in H as [E G]; [|exact Hx]. split; [exact E|exact G].
    - apply bind_ok in H as (ks & w3 & w4 & Hk & H & _). apply all_keys_plain in Hk as ->. apply roll_many_title in H as [E G]; [|exact Hx].
      split; [|exact G]. rewrite E. destruct v; reflexivity.
  Qed.
  Lemma geo_title r d parent row s : geo O r d parent row s = ret (inl (false, row, s)).
  Proof. unfold geo. destruct P as (_ & _ & ->). reflexivity. Qed.

  Definition pv_title (v : jv) : Prop := forall d, v = JO d -> forall r parent ids s, okr r s ->
    (forall row s' row' w, parse_value O v r parent (Some row) ids false s = Ok (s', row') w -> parent <> [] -> keys_in row (hdr r s) ->
       row' = fill (tcells r parent v) row /\ grows s (map tentry (tinner r parent ids v)) s') /\
    (forall top s' row' w, parse_value O v r parent None ids top s = Ok (s', row') w -> filtered_out O parent d = false ->
       grows s (map tentry (tinner r parent ids v) ++ [(r, fill (tcells r parent v) (if top then fill (rn r ids) [] else []))]) s').

  Lemma items_title p k ids l : Forall pv_title l -> forall s s' w, items (parse_value O) (sub_sheet_name O p k) (p ++ k ++ u "/0/") ids l s = Ok s' w ->
    okr (Some (sub_sheet_name O p k)) s -> grows s (map tentry (titem_sites p k ids l)) s'.
  Proof.
    intros HF. induction HF as [|v l Hv _ IH]; intros s s' w H Hx; cbn [items] in H; cbn [titem_sites].
    - injection H as <- _. apply grows_nil.
    - assert (Bad : (forall d, v <> JO d) -> bind (parse_value O v (Some (sub_sheet_name O p k)) (p ++ k ++ u "/0/") None ids true s)
        (fun r => items (parse_value O) (sub_sheet_name O p k) (p ++ k ++ u "/0/") ids l (fst r)) = Ok s' w -> False).
      { intros Hn Hb. destruct v; cbn [parse_value bind] in Hb; try discriminate. eapply Hn; reflexivity. }
      destruct v as [sc|la|d].
      + destruct sc; try (exfalso; apply Bad in H; [exact H|discriminate]). cbn [app]. eapply IH; eassumption.
      + exfalso. apply Bad in H; [exact H|discriminate].
      + clear Bad. apply bind_ok in H as ([s1 row1] & w1 & w2 & H1 & H & _). cbn [fst] in H.
        destruct (Hv d eq_refl (Some (sub_sheet_name O p k)) (p ++ k ++ u "/0/") ids s Hx) as [_ B].
        apply B in H1; [|apply filtered_inner; apply app_ne0]. rewrite map_app, map_app. cbn [map].
        eapply grows_trans; [exact H1|]. eapply IH; [exact H|]. eapply trace_okr; [exact (proj1 H1)|exact Hx].
  Qed.
  Lemma entries_title r ids d : Forall (fun kv => pv_title (snd kv) /\ forall l, snd kv = JA l -> Forall pv_title l) d ->
    forall parent row s s' row' w, entries O (parse_value O) r false ids d parent row s = Ok (s', row') w -> okr r s ->
    keys_in row (hdr r s) ->
    row' = fill (tcells_of r parent d) row /\ grows s (map tentry (tsites_of r parent ids d)) s'.
  Proof.
    intros HF. induction HF as [|[key value] d [Hv Ha] _ IH]; intros parent row s s' row' w H Hx Hk; cbn [entries] in H.
    - injection H as <- <- _. split; [reflexivity|apply grows_nil].
    - cbn [andb] in H. set (s0 := see_path _ s) in *. pose proof (grows_see O (replace (u "/0") [] parent ++ key) s) as G0. fold s0 in G0.
      assert (Hx0 : okr r s0) by (eapply trace_okr; [exact (proj1 G0)|exact Hx]).
      assert (Hk0 : keys_in row (hdr r s0)) by (eapply trace_keys_in; [exact (proj1 G0)|exact Hk]).
      assert (Ep : preserve_skips O (replace (u "/0") [] parent) (replace (u "/0") [] parent ++ key) = negb (kept O parent key)).
      { unfold preserve_skips, kept, object_path. destruct (po_preserve O); [reflexivity|]. rewrite negb_orb, negb_involutive, andb_comm. reflexivity. }
      rewrite Ep in H. destruct P as (_ & Ex & _). rewrite Ex in H. cbn [andb] in H. clear Ep Ex.
      destruct (kept O parent key) eqn:Kp; cbn [negb] in H.
      2: { apply IH in H as [-> G]; [|exact Hx0|exact Hk0]. split; [cbn [tcells_of]; rewrite Kp; reflexivity|].
           cbn [tsites_of]. rewrite Kp. eapply grows_cons; eassumption. }
      assert (C : forall v, (let (s2, row2) := set_cell O r (parent ++ key) v row s0 in entries O (parse_value O) r false ids d parent row2 s2) = Ok (s', row') w ->
        leaf_cell O value = Some v -> (forall e, value <> JO e) ->
        row' = fill (tcells_of r parent ((key, value) :: d)) row /\ grows s (map tentry (tsites_of r parent ids ((key, value) :: d))) s').
      { intros v Hc El Hno. destruct (set_cell O r (parent ++ key) v row s0) as [s1 row1] eqn:E.
        destruct (set_cell_trace O _ _ _ _ _ _ _ E (proj1 Hx0) Hk0) as [T1 K1]. rewrite set_cell_title in E by exact Hx0. injection E as <- <-.
        apply IH in Hc as [-> G]; [|eapply trace_okr; [exact T1|exact Hx0]|exact K1]. split.
        - cbn [tcells_of]. rewrite Kp. destruct value as [v0| |]; [injection El as ->; reflexivity|rewrite El; reflexivity|exfalso; eapply Hno; reflexivity].
        - assert (Es : tsites_of r parent ids ((key, value) :: d) = tsites_of r parent ids d).
          { cbn [tsites_of]. rewrite Kp. destruct value; [reflexivity|rewrite El; reflexivity|exfalso; eapply Hno; reflexivity]. }
          rewrite Es. eapply grows_cons; [exact G0|]. eapply grows_cons; [apply grows_key|exact G]. }
      destruct value as [v|l|d0].
      + destruct (basic v); [|discriminate]. apply (C (JS v)); [exact H|reflexivity|discriminate].
      + destruct (forallb jbasic l) eqn:E1; [apply (C _ H); [apply leaf_basic; exact E1|discriminate]|].
        destruct (forallb inner_array l) eqn:E2; [apply (C _ H); [apply leaf_arrays; assumption|discriminate]|]. clear C.
        apply bind_ok in H as ([sr rowr] & wr1 & wr2 & Hr & H & _). cbn [fst snd] in H.
        destruct (rollup_trace O _ _ _ _ _ _ _ _ _ Hr (proj1 Hx0) Hk0) as [Tr Kr]. apply rollup_title in Hr as [Er Gr]; [|exact Hx0].
        apply bind_ok in H as (s1 & w3 & w4 & H1 & H2 & _).
        pose proof (grows_sub O (sub_sheet_name O parent key) sr) as Gs.
        pose proof (items_objects O _ _ _ _ _ _ _ E1 H1) as Obj.
        apply (items_title parent key ids l (Ha l eq_refl)) in H1; [|split; [apply ensure_sub_at|apply good_sub; eapply trace_good; [exact Tr|exact (proj2 Hx0)]]].
        assert (G01 : grows s (map tentry (titem_sites parent key ids l)) s1).
        { eapply grows_cons; [exact G0|]. eapply grows_cons; [exact Gr|]. destruct (grows2_trans _ _ _ _ _ _ Gs (grows_2 _ _ _ _ H1)) as [T R].
          split; [exact T|]. split; [exact R|]. intros n Hn. destruct H1 as (_ & _ & H1). apply H1 in Hn as [Hn|Hn]; [|right; exact Hn].
          apply there_sub in Hn as [-> |Hn]; [right|left; exact Hn]. destruct Obj as (e & Hin). clear - Hin. induction l as [|y l IHl]; [destruct Hin|].
          cbn [titem_sites]. rewrite !map_app, in_app_iff. destruct Hin as [-> |Hin]; [left|right; apply IHl; exact Hin].
          rewrite !map_app, in_app_iff. right. left. reflexivity. }
        assert (G1r : trace O sr s1) by (eapply trace_trans; [exact (proj1 Gs)|exact (proj1 H1)]).
        apply IH in H2 as [-> G]; [|eapply trace_okr; [exact (proj1 G01)|exact Hx]|eapply trace_keys_in; [exact G1r|exact Kr]].
        assert (El : leaf_cell O (JA l) = None) by (unfold leaf_cell; rewrite E1, E2; reflexivity).
        split; [cbn [tcells_of]; rewrite Kp, El, fill_app, Er; reflexivity|]. cbn [tsites_of]. rewrite Kp, El, map_app. eapply grows_trans; eassumption.
      + clear C. apply bind_ok in H as ([s1 row1] & w1 & w2 & H1 & H & _). cbn [fst snd] in *.
        destruct (Hv d0 eq_refl r (parent ++ key ++ [slash_c]) ids s0 Hx0) as [A _].
        assert (K1 : keys_in row1 (hdr r s1)).
        { destruct (proj1 (pv_ok_all O (JO d0)) _ _ _ _ _ _ _ _ _ H1) as [_ K]; [exact (proj1 Hx0)|intros x [= <-]; exact Hk0|apply K; discriminate]. }
        apply A in H1 as [E1 G1]; [|apply app_ne|exact Hk0].
        apply IH in H as [-> G]; [|eapply trace_okr; [exact (proj1 G1)|exact Hx0]|exact K1].
        split.
        * cbn [tcells_of]. rewrite Kp, fill_app, E1. rewrite tcells_rn by apply app_ne. reflexivity.
        * cbn [tsites_of]. rewrite Kp, map_app. eapply grows_cons; [exact G0|]. eapply grows_trans; [exact G1|exact G].
  Qed.
  Lemma dict_title d : Forall (fun kv => pv_title (snd kv) /\ forall l, snd kv = JA l -> Forall pv_title l) d -> pv_title (JO d).
  Proof.
    intros HF d' [= <-] r parent ids s Hx. split.
    - intros row s' row' w H Hp Hk. cbn [parse_value] in H. unfold dict in H. rewrite geo_title in H. unfold bind at 1, ret at 1 in H.
      rewrite filtered_inner in H by exact Hp. unfold bind at 1, ret at 1 in H. cbn [fst snd] in H.
      destruct (own_ids O r d parent ids s) as [ids' s1] eqn:E. apply own_ids_title in E as [-> G1]; [|exact Hx].
      destruct (entries O (parse_value O) r false (tscope r parent d ids) d parent row s1) as [[s2 row2] w2|] eqn:E2; [|discriminate].
      simpl in H. injection H as <- <- _. cbn [tcells]. rewrite tsites_JO.
      apply (entries_title r _ d HF) in E2 as [-> G2]; [|eapply trace_okr; [exact (proj1 G1)|exact Hx]|eapply trace_keys_in; [exact (proj1 G1)|exact Hk]].
      split; [reflexivity|]. eapply grows_cons; eassumption.
    - intros top s' row' w H Hf. cbn [parse_value] in H. unfold dict in H. rewrite geo_title in H. unfold bind at 1, ret at 1 in H.
      rewrite Hf in H. destruct (bind _ _) as [[sa rowa] wa|] eqn:H1 in H; [|discriminate]. injection H as <- <- _.
      apply bind_ok in H1 as ([s0 row0] & w1 & w2 & H0 & H & _). cbn [fst snd] in H.
      assert (G0 : row0 = (if top then fill (rn r ids) [] else []) /\ grows s [] s0 /\ keys_in row0 (hdr r s0)).
      { destruct top.
        - pose proof (add_parent_ids_trace O _ _ _ _ _ _ _ H0 (proj1 Hx)) as Q. apply add_parent_ids_title in H0 as [E G]; [|exact Hx].
          split; [exact E|]. split; [exact G|]. apply Q. apply keys_in_nil.
        - injection H0 as <- <- _. split; [reflexivity|]. split; [apply grows_nil|apply keys_in_nil]. }
      destruct G0 as (-> & G0 & K0). assert (Hx0 : okr r s0) by (eapply trace_okr; [exact (proj1 G0)|exact Hx]).
      destruct (own_ids O r d parent ids s0) as [ids' s1] eqn:E. apply own_ids_title in E as [-> G1]; [|exact Hx0].
      apply bind_ok in H as ([s2 row2] & w3 & w4 & H2 & H & _). cbn [fst snd] in H.
      assert (Hx1 : okr r s1) by (eapply trace_okr; [exact (proj1 G1)|exact Hx0]).
      assert (K1 : keys_in (if top then fill (rn r ids) [] else []) (hdr r s1)) by (eapply trace_keys_in; [exact (proj1 G1)|exact K0]).
      assert (HF' : Forall (fun kv : str * jv => pv_ok O (snd kv) /\ forall l, snd kv = JA l -> Forall (pv_ok O) l) d).
      { apply Forall_forall. intros kv _. apply (pv_ok_all O). }
      destruct (entries_trace O r false _ d HF' _ _ _ _ _ _ H2 (proj1 Hx1) K1) as [T2 K2].
      apply (entries_title r _ d HF) in H2 as [E2 G2]; [|exact Hx1|exact K1].
      assert (Hx2 : sheet_at r s2 <> None) by (eapply trace_exists; [exact T2|exact (proj1 Hx1)]).
      destruct (sheet_at r s2) as [sh|] eqn:Es; [|congruence].
      assert (G3 : grows s2 [(r, row2)] (add_row r sh row2 s2)) by (apply grows_line; [exact Es|unfold hdr in K2; rewrite Es in K2; exact K2]).
      unfold add_row in G3. destruct (append_line row2 sh (p_store s2)) as [sh' st]. injection H as <- <- _.
      cbn [tcells]. rewrite tsites_JO. subst row2. eapply grows_cons; [exact G0|]. eapply grows_cons; [exact G1|]. eapply grows_trans; eassumption.
  Qed.
  Lemma pv_title_all v : pv_title v /\ forall l, v = JA l -> Forall pv_title l.
  Proof.
    induction v as [s|l IH|d IH] using jv_ind'.
    - split; [|discriminate]. intros d Q; discriminate Q.
    - split; [intros d Q; discriminate Q|]. intros l' [= <-]. eapply Forall_impl; [|exact IH]. intros v [H _]. exact H.
    - split; [|discriminate]. apply dict_title. exact IH.
  Qed.

  Lemma trecord_entries d : map tentry (trecord (JO d)) = map tentry (tinner None [] [] (JO d)) ++ [(None, fill (tcells None [] (JO d)) [])].
  Proof. unfold trecord. rewrite map_app. reflexivity. Qed.
  Lemma parse_list_title l : po_filter O = None -> forall num s s' w, good s -> parse_list O num l s = Ok s' w -> grows s (map tentry (tsites l)) s'.
  Proof.
    intros HF. induction l as [|v l IH]; intros num s s' w Hg H; cbn [parse_list] in H.
    - injection H as <- _. apply grows_nil.
    - change (tsites (v :: l)) with (trecord v ++ tsites l).
      assert (G : forall w0, bind (warn1 w0) (fun _ => parse_list O (num + 1)%N l s) = Ok s' w -> grows s (map tentry (tsites l)) s').
      { intros w0 G. apply bind_ok in G as (t & w1 & w2 & _ & G & _). eapply IH; [exact Hg|exact G]. }
      destruct v as [[]|l0|d]; try exact (G _ H); [eapply IH; [exact Hg|exact H]|].
      apply bind_ok in H as ([s1 x1] & w1 & w2 & H1 & H & _). cbn [fst] in H.
      destruct (proj1 (pv_title_all (JO d)) d eq_refl None [] [] s) as [_ B]; [split; [discriminate|exact Hg]|].
      apply B in H1; [|unfold filtered_out; rewrite HF; reflexivity]. rewrite map_app, trecord_entries.
      eapply grows_trans; [exact H1|]. eapply IH; [eapply trace_good; [exact (proj1 H1)|exact Hg]|exact H].
  Qed.
  Lemma sel_tentries r l : sel r (map tentry l) = map trow (on_sheet r l).
  Proof.
    induction l as [|x l IH]; [reflexivity|]. unfold sel, on_sheet in *. cbn [map filter tentry fst].
    destruct (oname_eqb r (si_sheet x)); cbn [map snd]; rewrite IH; reflexivity.
  Qed.
  Lemma sget_map {A B} (f : A -> B) n l : sget n (map (fun nx : str * A => (fst nx, f (snd nx))) l) = match sget n l with Some x => Some (f x) | None => None end.
  Proof. unfold sget. induction l as [|[m x] l IH]; [reflexivity|]. cbn [map aget fst snd]. destruct (str_eqb n m); [reflexivity|exact IH]. Qed.
  Lemma start_good drop : good (start O drop).
  Proof.
    assert (D : forall x, sh_titles (drop_cols drop x) = sh_titles x) by (intros x; unfold drop_cols; destruct drop; reflexivity).
    unfold start. cbn [new_persistent]. destruct (po_schema O) as [sc|] eqn:E.
    - split.
      + intros r x. unfold sheet_at. cbn [p_main p_subs]. unfold titles_of. rewrite E. destruct r as [n|].
        * rewrite (sget_map (drop_cols drop) n (sci_subs sc)). destruct (sget n (sci_subs sc)) as [y|]; [|discriminate]. intros [= <-]. apply D.
        * intros [= <-]. rewrite D. reflexivity.
      + intros n sc' E' Hn. rewrite E in E'. injection E' as <-. unfold there. cbn [p_subs]. rewrite (sget_map (drop_cols drop) n (sci_subs sc)). destruct (sget n (sci_subs sc)); [discriminate|congruence].
    - split.
      + intros r x. cbn [new_persistent]. unfold sheet_at. cbn [p_main p_subs]. unfold titles_of. rewrite E. destruct r as [n|]; [discriminate|]. intros [= <-]. reflexivity.
      + intros n sc E'. congruence.
  Qed.

  Theorem flatten_tsites drop pi l s w : po_filter O = None -> flatten O drop pi l = Ok s w -> name_free O s ->
    forall r t, sheet_ref s t r -> tb_rows t = map trow (on_sheet r (tsites l)).
  Proof.
    intros HFil H HF r t Ht. destruct (flatten_inv _ _ _ _ _ _ H) as (s0 & w0 & H0 & ->).
    pose proof (proj1 P) as SR.
    pose proof (parse_list_trace O _ _ _ _ _ H0) as T. pose proof (trace_names O _ _ T (start_names O drop SR)) as Hn.
    pose proof (name_free_drop O drop l s0 w0 H0 SR HF) as HM.
    pose proof (start_ok O drop SR) as S0.
    destruct (parse_list_title l HFil _ _ _ _ (start_good drop) H0) as (_ & G & _). specialize (G HM S0 r). rewrite (start_rows O drop SR), sel_tentries in G.
    assert (Hx : exists x, sheet_at r s0 = Some x /\ tb_rows t = lines_of (p_store s0) x).
    { destruct r as [n|]; simpl in Ht.
      - destruct Ht as [Ht <-]. unfold sub_tables in Ht. apply in_map_iff in Ht as ([n x] & <- & Hin). exists x. split.
        + apply (drop_sheet drop); [exact Hn|]. simpl. apply In_sget; [apply drop_names; exact Hn|exact Hin].
        + cbn [table_of tb_rows fst snd]. rewrite drop_store. reflexivity.
      - subst t. exists (p_main s0). split; [reflexivity|]. unfold main_table. cbn [table_of tb_rows]. rewrite drop_store, drop_main. reflexivity. }
    destruct Hx as (x & Hx & ->). unfold rows in G. rewrite Hx in G. exact G.
  Qed.
  Theorem flatten_ttables drop pi l s w : po_filter O = None -> flatten O drop pi l = Ok s w ->
    forall t, In t (sub_tables s) -> schema_sheet O (tb_name t) \/ exists x, In x (tsites l) /\ si_sheet x = Some (tb_name t).
  Proof.
    intros HFil H t Ht. destruct (flatten_inv _ _ _ _ _ _ H) as (s0 & w0 & H0 & ->).
    pose proof (proj1 P) as SR.
    pose proof (parse_list_trace O _ _ _ _ _ H0) as T. pose proof (trace_names O _ _ T (start_names O drop SR)) as Hn.
    destruct (parse_list_title l HFil _ _ _ _ (start_good drop) H0) as (_ & _ & G). unfold sub_tables in Ht. apply in_map_iff in Ht as ([n x] & <- & Hin). cbn [table_of tb_name fst].
    assert (E : sget n (p_subs s0) = Some x).
    { pose proof (drop_sheet drop (Some n) s0 x Hn) as Q. apply Q. simpl. apply In_sget; [apply drop_names; exact Hn|exact Hin]. }
    destruct (G n) as [Q|Q]; [unfold there; congruence| |].
    - left. unfold there, start in Q. unfold schema_sheet. cbn [new_persistent] in Q. destruct (po_schema O) as [sc|]; cbn [p_subs] in Q; [|apply Q; reflexivity].
      rewrite (sget_map (drop_cols drop) n (sci_subs sc)) in Q. destruct (sget n (sci_subs sc)) as [y|] eqn:Ey; [|congruence]. apply sget_In in Ey. apply in_map_iff. exists (n, y). split; [reflexivity|exact Ey].
    - right. rewrite map_map in Q. apply in_map_iff in Q as (y & Ey & Hy). exists y. split; [exact Hy|exact Ey].
  Qed.
End Titled.
