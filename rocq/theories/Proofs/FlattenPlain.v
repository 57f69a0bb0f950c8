(** Flattening without options produces exactly the rows of [Spec.Sites]. *)
From Verif.Base Require Import PyStr PyNum PyVal PyDict Outcome.
From Verif.Model Require Import Flatten.
From Verif.Spec Require Import Flat Sites.
From Verif.Proofs Require Import JvInd FlattenTrace FlattenRows FlattenRun.

Definition sel (r : sref) (log : list (sref * frow)) : list frow := map snd (filter (fun e => oname_eqb r (fst e)) log).
Lemma sel_app r a b : sel r (a ++ b) = sel r a ++ sel r b.
Proof. unfold sel. rewrite filter_app, map_app. reflexivity. Qed.

Lemma simple_ready O : simple O -> schema_ready O.
Proof. intros ([E|[E _]] & _); [|exact E]. unfold schema_ready. rewrite E. exact I. Qed.

Section Plain.
  Variable O : popts.
  Hypothesis P : simple O.
  Notation M := (main_place O).

  Definition there (n : str) (s : pst) : Prop := sget n (p_subs s) <> None.
  Definition grows2 (s : pst) (log : list (sref * frow)) (s' : pst) : Prop :=
    trace O s s' /\ (nocol M s' -> stored_ok M s -> forall r, rows r s' = rows r s ++ sel r log).
  Definition names_ok (s : pst) (log : list (sref * frow)) (s' : pst) : Prop :=
    forall n, there n s' -> there n s \/ In (Some n) (map fst log).
  Definition grows (s : pst) (log : list (sref * frow)) (s' : pst) : Prop :=
    trace O s s' /\ (nocol M s' -> stored_ok M s -> forall r, rows r s' = rows r s ++ sel r log) /\ names_ok s log s'.
  Lemma grows_2 s log s' : grows s log s' -> grows2 s log s'.
  Proof. intros (A & B & _). split; assumption. Qed.
  Lemma grows2_trans s s1 s2 a b : grows2 s a s1 -> grows2 s1 b s2 -> grows2 s (a ++ b) s2.
  Proof.
    intros [T1 R1] [T2 R2]. split; [eapply trace_trans; eassumption|]. intros HM H0 r. pose proof (trace_nocol O _ _ _ T2 HM) as HM1.
    rewrite sel_app, (R2 HM (trace_ok O _ _ _ T1 HM1 H0)), (R1 HM1 H0), app_assoc. reflexivity.
  Qed.
  Lemma grows_nil s : grows s [] s.
  Proof. split; [constructor|]. split; [intros _ _ r; rewrite app_nil_r; reflexivity|]. intros n Hn. left. exact Hn. Qed.
  Lemma grows_trans s s1 s2 a b : grows s a s1 -> grows s1 b s2 -> grows s (a ++ b) s2.
  Proof.
    intros A B. destruct (grows2_trans _ _ _ _ _ (grows_2 _ _ _ A) (grows_2 _ _ _ B)) as [T R]. split; [exact T|]. split; [exact R|].
    destruct A as (_ & _ & A), B as (_ & _ & B). intros n Hn. rewrite map_app, in_app_iff. apply B in Hn as [Hn|Hn]; [|auto]. apply A in Hn as [Hn|Hn]; auto.
  Qed.
  Lemma grows_cons s s1 s2 b : grows s [] s1 -> grows s1 b s2 -> grows s b s2.
  Proof. intros A B. exact (grows_trans _ _ _ [] b A B). Qed.
  Lemma grows_see p s : grows s [] (see_path p s).
  Proof. split; [apply t_see; constructor|]. split; [intros _ _ r; rewrite see_rows, app_nil_r; reflexivity|]. intros n Hn. left. exact Hn. Qed.
  Lemma grows_key r k s : grows s [] (snd (use_key O r k s)).
  Proof.
    split; [apply t_key; constructor|]. split; [intros _ _ r'; rewrite use_key_rows, app_nil_r; reflexivity|].
    intros n Hn. left. intros Q. apply Hn. apply use_key_subs. exact Q.
  Qed.
  Lemma grows_sub n s : grows2 s [] (ensure_sub n s).
  Proof. split; [apply t_sub; constructor|]. intros HM H0 r'. rewrite (ensure_rows M), app_nil_r by assumption. reflexivity. Qed.
  Lemma there_sub m n s : there m (ensure_sub n s) -> m = n \/ there m s.
  Proof.
    unfold there, ensure_sub. destruct (sget n (p_subs s)) eqn:E; [auto|]. cbn [new_persistent p_subs]. destruct (str_eqb_spec m n); [auto|].
    rewrite sget_sset_neq by assumption. auto.
  Qed.
  Lemma grows_line r x row s : sheet_at r s = Some x -> keys_in row (header x) -> grows s [(r, row)] (add_row r x row s).
  Proof.
    intros Hx Hk. split; [apply t_line; [constructor|exact Hx|exact Hk]|]. split.
    - intros HM H0 r'. apply add_row_nocol in HM; [|exact Hx]. rewrite (add_row_rows M) by assumption. unfold sel. cbn [filter fst]. destruct (oname_eqb r' r); reflexivity.
    - intros n Hn. left. intros Q. apply Hn. apply add_row_subs; assumption.
  Qed.

  Lemma use_key_name r k s : sheet_at r s <> None -> fst (use_key O r k s) = k.
  Proof.
    intros Hx. unfold use_key. destruct (sheet_at r s) as [x|]; [|congruence]. unfold sheet_key. destruct P as (_ & -> & _). reflexivity.
  Qed.
  Lemma set_cell_plain r k v row s : sheet_at r s <> None -> set_cell O r k v row s = (snd (use_key O r k s), sset k v row).
  Proof.
    intros Hx. unfold set_cell. pose proof (use_key_name r k s Hx) as Q. destruct (use_key O r k s) as [k' s1]. simpl in Q. subst. reflexivity.
  Qed.
  Lemma add_parent_ids_plain r ids : forall row s s' row' w, sheet_at r s <> None -> add_parent_ids O r ids row s = Ok (s', row') w ->
    row' = fill ids row /\ grows s [] s'.
  Proof.
    induction ids as [|[k v] ids IH]; intros row s s' row' w Hx H; cbn [add_parent_ids] in H.
    - injection H as <- <- _. split; [reflexivity|apply grows_nil].
    - pose proof (use_key_name r k s Hx) as Q. pose proof (grows_key r k s) as G. destruct (use_key O r k s) as [k' s1]. simpl in Q, G. subst k'.
      destruct P as (_ & _ & E & _). rewrite E in H. unfold bind, ret in H. destruct (add_parent_ids O r ids (sset k v row) s1) as [[s2 r2] w2|] eqn:E2; [|discriminate].
      injection H as <- <- _. apply IH in E2 as [-> G2]; [|eapply trace_exists; [exact (proj1 G)|exact Hx]].
      split; [reflexivity|]. eapply grows_cons; eassumption.
  Qed.
  Lemma own_ids_plain r d parent ids s ids' s' : sheet_at r s <> None -> own_ids O r d parent ids s = (ids', s') ->
    ids' = scope O parent d ids /\ grows s [] s'.
  Proof.
    intros Hx. unfold own_ids, scope.
    assert (G : forall ids1 s1, grows s [] s1 ->
      match sget (po_id_name O) d with
      | Some v => let (k, s2) := use_key O r (parent ++ po_id_name O) s1 in (sset k v ids1, s2)
      | None => (ids1, s1)
      end = (ids', s') ->
      ids' = match sget (po_id_name O) d with Some v => sset (parent ++ po_id_name O) v ids1 | None => ids1 end /\ grows s [] s').
    { intros ids1 s1 G1 H. destruct (sget (po_id_name O) d); [|injection H as <- <-; auto].
      assert (Hx1 : sheet_at r s1 <> None) by (eapply trace_exists; [exact (proj1 G1)|exact Hx]).
      pose proof (use_key_name r (parent ++ po_id_name O) s1 Hx1) as Q. pose proof (grows_key r (parent ++ po_id_name O) s1) as G2.
      destruct (use_key O r (parent ++ po_id_name O) s1) as [k' s2]. simpl in Q, G2. subst k'. injection H as <- <-.
      split; [reflexivity|]. eapply grows_cons; eassumption. }
    destruct (po_root_id O) as [|c rid]; [intros H; apply G with (s1 := s); [apply grows_nil|exact H]|].
    destruct (sget (c :: rid) d); [|intros H; apply G with (s1 := s); [apply grows_nil|exact H]].
    pose proof (use_key_name r (c :: rid) s Hx) as Q. pose proof (grows_key r (c :: rid) s) as G2.
    destruct (use_key O r (c :: rid) s) as [k' s2]. simpl in Q, G2. subst k'. intros H. apply G with (s1 := s2); [exact G2|exact H].
  Qed.
  Lemma fill_app a b row : fill (a ++ b) row = fill b (fill a row).
  Proof. apply fold_left_app. Qed.
  Lemma roll_dropped_kept key k : roll_dropped O key k = negb (roll_kept O key k).
  Proof. unfold roll_dropped, roll_kept. destruct (po_preserve O); reflexivity. Qed.
  Lemma roll_single_plain r key item : po_schema O = None -> forall row s s' row' w, roll_single O r key item row s = Ok (s', row') w -> sheet_at r s <> None ->
    row' = fill (if str_mem key (po_rollup O) then map (fun fv => (key ++ u "/0/" ++ fst fv, snd fv)) (filter (fun fv => roll_kept O key (fst fv)) item) else []) row
    /\ grows s [] s'.
  Proof.
    intros E0. induction item as [|[k v] item IH]; intros row s s' row' w H Hx; cbn [roll_single] in H.
    - injection H as <- <- _. split; [destruct (str_mem _ _); reflexivity|apply grows_nil].
    - rewrite roll_dropped_kept in H. cbn [filter fst]. destruct (roll_kept O key k); cbn [negb] in H; [|eapply IH; eassumption].
      destruct (negb (jbasic v)); [discriminate|]. unfold roll_column in H. rewrite E0 in H. unfold in_rollup in H.
      destruct (str_mem key (po_rollup O)) eqn:EMm; [|apply IH in H; [exact H|exact Hx]].
      rewrite set_cell_plain in H by exact Hx. apply IH in H as [-> G].
      + split; [reflexivity|]. eapply grows_cons; [apply grows_key|exact G].
      + eapply trace_exists; [apply t_key; apply t_nil|exact Hx].
  Qed.
  Lemma roll_many_plain r key ks : po_schema O = None -> forall row s s' row' w, roll_many O r key ks row s = Ok (s', row') w -> sheet_at r s <> None ->
    row' = fill (if str_mem key (po_rollup O) then map (fun f => (key ++ u "/0/" ++ f, JS (SStr rollup_text))) (filter (roll_kept O key) ks) else []) row
    /\ grows s [] s'.
  Proof.
    intros E0. induction ks as [|k ks IH]; intros row s s' row' w H Hx; cbn [roll_many] in H.
    - injection H as <- <- _. split; [destruct (str_mem _ _); reflexivity|apply grows_nil].
    - rewrite roll_dropped_kept in H. cbn [filter fst]. destruct (roll_kept O key k); cbn [negb] in H; [|eapply IH; eassumption].
      unfold roll_many_wanted in H. rewrite E0 in H. unfold in_rollup in H. cbn [orb] in H.
      destruct (str_mem key (po_rollup O)) eqn:EMm; [|apply IH in H; [exact H|exact Hx]].
      apply bind_ok in H as (t & w1 & w2 & _ & H & _). rewrite set_cell_plain in H by exact Hx. apply IH in H as [-> G].
      + split; [reflexivity|]. eapply grows_cons; [apply grows_key|exact G].
      + eapply trace_exists; [apply t_key; apply t_nil|exact Hx].
  Qed.
  Lemma all_keys_plain l : forall ks w, all_keys l = Ok ks w -> ks = flat_map (fun v => match v with JO d => map fst d | _ => [] end) l.
  Proof.
    induction l as [|v l IH]; intros ks w H; cbn [all_keys] in H; [injection H as <- _; reflexivity|]. destruct v; try discriminate.
    apply bind_ok in H as (r & w1 & w2 & H1 & H & _). injection H as <- _. cbn [flat_map]. rewrite (IH _ _ H1). reflexivity.
  Qed.
  Lemma rollup_plain r parent key l row s s' row' w : rollup O r parent key l row s = Ok (s', row') w -> sheet_at r s <> None ->
    row' = fill (match parent with [] => rolled O key l | _ => [] end) row /\ grows s [] s'.
  Proof.
    unfold rollup, rolled. intros H Hx. destruct (po_rollup O) as [|f fs] eqn:Ef.
    { injection H as <- <- _. split; [destruct parent; reflexivity|apply grows_nil]. }
    assert (E0 : po_schema O = None) by (destruct P as ([E0|[_ E0]] & _); [exact E0|congruence]).
    destruct parent; [|injection H as <- <- _; split; [reflexivity|apply grows_nil]].
    apply bind_ok in H as (t & w1 & w2 & _ & H & _). destruct l as [|v [|v2 l]].
    - injection H as <- <- _. split; [destruct (str_mem _ _); reflexivity|apply grows_nil].
    - destruct v as [| |d]; try discriminate. apply (roll_single_plain _ _ _ E0) in H as [E G]; [|exact Hx]. rewrite Ef in E. split; [|exact G]. exact E.
    - apply bind_ok in H as (ks & w3 & w4 & Hk & H & _). apply all_keys_plain in Hk as ->. apply (roll_many_plain _ _ _ E0) in H as [E G]; [|exact Hx].
      rewrite Ef in E. split; [|exact G]. rewrite E. destruct v; reflexivity.
  Qed.
  Lemma geo_plain r d parent row s : geo O r d parent row s = ret (inl (false, row, s)).
  Proof. unfold geo. destruct P as (_ & _ & _ & ->). reflexivity. Qed.

  (** the loops of the specification, named *)
  Fixpoint cells_of (p : str) (d : jobj) : list (str * jv) :=
    match d with
    | [] => []
    | (k, x) :: d' =>
      (if kept O p k then
         match x with
         | JO _ => cells O (p ++ k ++ u "/") x
         | JS _ => [(p ++ k, x)]
         | JA l => match leaf_cell O x with
                   | Some t => [(p ++ k, t)]
                   | None => match p with [] => rolled O k l | _ => [] end
                   end
         end
       else []) ++ cells_of p d'
    end.
  Lemma cells_JO p d : cells O p (JO d) = cells_of p d.
  Proof. induction d as [|[k x] d IH]; [reflexivity|]. cbn [cells_of]. rewrite <- IH. reflexivity. Qed.
  Fixpoint item_sites (p k : str) (ids : list (str * jv)) (l : list jv) : list site :=
    match l with
    | [] => []
    | y :: l' =>
      match y with
      | JO e => inner_sites O (p ++ k ++ u "/0/") ids y ++
                [{| si_sheet := Some (sub_sheet_name O p k); si_prefix := p ++ k ++ u "/0/"; si_ids := ids; si_obj := e |}]
      | _ => []
      end ++ item_sites p k ids l'
    end.
  Fixpoint sites_of (p : str) (ids : list (str * jv)) (d : jobj) : list site :=
    match d with
    | [] => []
    | (k, x) :: d' =>
      (if kept O p k then
         match x with
         | JS _ => []
         | JO _ => inner_sites O (p ++ k ++ u "/") ids x
         | JA l => match leaf_cell O x with Some _ => [] | None => item_sites p k ids l end
         end
       else []) ++ sites_of p ids d'
    end.
  Lemma sites_JO p ids d : inner_sites O p ids (JO d) = sites_of p (scope O p d ids) d.
  Proof.
    cbn [inner_sites]. generalize (scope O p d ids) as ids'. intros ids'. induction d as [|[k x] d IH]; [reflexivity|]. cbn [sites_of]. rewrite <- IH. f_equal.
    destruct (kept O p k); [|reflexivity]. destruct x as [sc|l|e]; [reflexivity| |reflexivity]. destruct (leaf_cell O (JA l)); [reflexivity|].
    induction l as [|y l IHl]; [reflexivity|]. cbn [item_sites]. rewrite <- IHl. reflexivity.
  Qed.

  Definition entry (s : site) : sref * frow := (si_sheet s, row_of O s).

  Definition pv_plain (v : jv) : Prop := forall d, v = JO d -> forall r parent ids s, sheet_at r s <> None ->
    (forall row s' row' w, parse_value O v r parent (Some row) ids false s = Ok (s', row') w -> parent <> [] -> keys_in row (hdr r s) ->
       row' = fill (cells O parent v) row /\ grows s (map entry (inner_sites O parent ids v)) s') /\
    (forall top s' row' w, parse_value O v r parent None ids top s = Ok (s', row') w -> filtered_out O parent d = false ->
       grows s (map entry (inner_sites O parent ids v) ++ [(r, fill (cells O parent v) (if top then fill ids [] else []))]) s').

  Lemma items_plain p k ids l : Forall pv_plain l -> forall s s' w, items (parse_value O) (sub_sheet_name O p k) (p ++ k ++ u "/0/") ids l s = Ok s' w ->
    sheet_at (Some (sub_sheet_name O p k)) s <> None -> grows s (map entry (item_sites p k ids l)) s'.
  Proof.
    intros HF. induction HF as [|v l Hv _ IH]; intros s s' w H Hx; cbn [items] in H; cbn [item_sites].
    - injection H as <- _. apply grows_nil.
    - assert (Bad : (forall d, v <> JO d) -> bind (parse_value O v (Some (sub_sheet_name O p k)) (p ++ k ++ u "/0/") None ids true s)
        (fun r => items (parse_value O) (sub_sheet_name O p k) (p ++ k ++ u "/0/") ids l (fst r)) = Ok s' w -> False).
      { intros Hn Hb. destruct v; cbn [parse_value bind] in Hb; try discriminate. eapply Hn; reflexivity. }
      destruct v as [sc|la|d].
      + destruct sc; try (exfalso; apply Bad in H; [exact H|discriminate]). cbn [app]. eapply IH; eassumption.
      + exfalso. apply Bad in H; [exact H|discriminate].
      + clear Bad. apply bind_ok in H as ([s1 row1] & w1 & w2 & H1 & H & _). cbn [fst] in H.
        destruct (Hv d eq_refl (Some (sub_sheet_name O p k)) (p ++ k ++ u "/0/") ids s Hx) as [_ B].
        apply B in H1; [|apply filtered_inner; apply app_ne0]. rewrite map_app, map_app. cbn [map].
        eapply grows_trans; [exact H1|]. eapply IH; [exact H|]. eapply trace_exists; [exact (proj1 H1)|exact Hx].
  Qed.
  Lemma items_objects name path ids l : forall s s' w, forallb jbasic l = false -> items (parse_value O) name path ids l s = Ok s' w -> exists e, In (JO e) l.
  Proof.
    induction l as [|v l IH]; intros s s' w Hb H; [discriminate|]. cbn [items] in H. destruct v as [sc|la|d].
    - destruct sc; try discriminate. cbn [forallb jbasic basic andb] in Hb. destruct (IH _ _ _ Hb H) as (e & He). exists e. right. exact He.
    - discriminate.
    - exists d. left. reflexivity.
  Qed.
  Lemma leaf_basic l : forallb jbasic l = true -> leaf_cell O (JA l) = Some (JS (SStr (join_basic O l))).
  Proof. intros H. unfold leaf_cell. rewrite H. reflexivity. Qed.
  Lemma leaf_arrays l : forallb jbasic l = false -> forallb inner_array l = true -> leaf_cell O (JA l) = Some (JS (SStr (join_arrays O l))).
  Proof.
    intros H1 H. unfold leaf_cell. rewrite H1, H. unfold join_arrays, texts_of. do 4 f_equal. apply map_ext_in. intros v Hv.
    rewrite forallb_forall in H. specialize (H v Hv). destruct v as [[]| |]; simpl in H; try discriminate; reflexivity.
  Qed.
  Lemma entries_plain r ids d : Forall (fun kv => pv_plain (snd kv) /\ forall l, snd kv = JA l -> Forall pv_plain l) d ->
    forall parent row s s' row' w, entries O (parse_value O) r false ids d parent row s = Ok (s', row') w -> sheet_at r s <> None ->
    keys_in row (hdr r s) ->
    row' = fill (cells_of parent d) row /\ grows s (map entry (sites_of parent ids d)) s'.
  Proof.
    intros HF. induction HF as [|[key value] d [Hv Ha] _ IH]; intros parent row s s' row' w H Hx Hk; cbn [entries] in H.
    - injection H as <- <- _. split; [reflexivity|apply grows_nil].
    - cbn [andb] in H. set (s0 := see_path _ s) in *. pose proof (grows_see (replace (u "/0") [] parent ++ key) s) as G0. fold s0 in G0.
      assert (Hx0 : sheet_at r s0 <> None) by (eapply trace_exists; [exact (proj1 G0)|exact Hx]).
      assert (Hk0 : keys_in row (hdr r s0)) by (eapply trace_keys_in; [exact (proj1 G0)|exact Hk]).
      assert (Ep : preserve_skips O (replace (u "/0") [] parent) (replace (u "/0") [] parent ++ key) = negb (kept O parent key)).
      { unfold preserve_skips, kept, object_path. destruct (po_preserve O); [reflexivity|]. rewrite negb_orb, negb_involutive, andb_comm. reflexivity. }
      rewrite Ep in H. destruct P as (_ & _ & Ex & _). rewrite Ex in H. cbn [andb] in H. clear Ep Ex.
      destruct (kept O parent key) eqn:Kp; cbn [negb] in H.
      2: { apply IH in H as [-> G]; [|exact Hx0|exact Hk0]. split; [cbn [cells_of]; rewrite Kp; reflexivity|].
           cbn [sites_of]. rewrite Kp. eapply grows_cons; eassumption. }
      assert (C : forall v, (let (s2, row2) := set_cell O r (parent ++ key) v row s0 in entries O (parse_value O) r false ids d parent row2 s2) = Ok (s', row') w ->
        leaf_cell O value = Some v -> (forall e, value <> JO e) ->
        row' = fill (cells_of parent ((key, value) :: d)) row /\ grows s (map entry (sites_of parent ids ((key, value) :: d))) s').
      { intros v Hc El Hno. destruct (set_cell O r (parent ++ key) v row s0) as [s1 row1] eqn:E.
        destruct (set_cell_trace O _ _ _ _ _ _ _ E Hx0 Hk0) as [T1 K1]. rewrite set_cell_plain in E by exact Hx0. injection E as <- <-.
        apply IH in Hc as [-> G]; [|eapply trace_exists; [exact T1|exact Hx0]|exact K1]. split.
        - cbn [cells_of]. rewrite Kp. destruct value as [v0| |]; [injection El as ->; reflexivity|rewrite El; reflexivity|exfalso; eapply Hno; reflexivity].
        - assert (Es : sites_of parent ids ((key, value) :: d) = sites_of parent ids d).
          { cbn [sites_of]. rewrite Kp. destruct value; [reflexivity|rewrite El; reflexivity|exfalso; eapply Hno; reflexivity]. }
          rewrite Es. eapply grows_cons; [exact G0|]. eapply grows_cons; [apply grows_key|exact G]. }
      destruct value as [v|l|d0].
      + destruct (basic v); [|discriminate]. apply (C (JS v)); [exact H|reflexivity|discriminate].
      + destruct (forallb jbasic l) eqn:E1; [apply (C _ H); [apply leaf_basic; exact E1|discriminate]|].
        destruct (forallb inner_array l) eqn:E2; [apply (C _ H); [apply leaf_arrays; assumption|discriminate]|]. clear C.
        apply bind_ok in H as ([sr rowr] & wr1 & wr2 & Hr & H & _). cbn [fst snd] in H.
        destruct (rollup_trace O _ _ _ _ _ _ _ _ _ Hr Hx0 Hk0) as [Tr Kr]. apply rollup_plain in Hr as [Er Gr]; [|exact Hx0].
        apply bind_ok in H as (s1 & w3 & w4 & H1 & H2 & _).
        pose proof (grows_sub (sub_sheet_name O parent key) sr) as Gs.
        pose proof (items_objects _ _ _ _ _ _ _ E1 H1) as Obj.
        apply (items_plain parent key ids l (Ha l eq_refl)) in H1; [|apply ensure_sub_at].
        assert (G01 : grows s (map entry (item_sites parent key ids l)) s1).
        { eapply grows_cons; [exact G0|]. eapply grows_cons; [exact Gr|]. destruct (grows2_trans _ _ _ _ _ Gs (grows_2 _ _ _ H1)) as [T R].
          split; [exact T|]. split; [exact R|]. intros n Hn. destruct H1 as (_ & _ & H1). apply H1 in Hn as [Hn|Hn]; [|right; exact Hn].
          apply there_sub in Hn as [-> |Hn]; [right|left; exact Hn]. destruct Obj as (e & Hin). clear - Hin. induction l as [|y l IHl]; [destruct Hin|].
          cbn [item_sites]. rewrite !map_app, in_app_iff. destruct Hin as [-> |Hin]; [left|right; apply IHl; exact Hin].
          rewrite !map_app, in_app_iff. right. left. reflexivity. }
        assert (G1r : trace O sr s1) by (eapply trace_trans; [exact (proj1 Gs)|exact (proj1 H1)]).
        apply IH in H2 as [-> G]; [|eapply trace_exists; [exact (proj1 G01)|exact Hx]|eapply trace_keys_in; [exact G1r|exact Kr]].
        assert (El : leaf_cell O (JA l) = None) by (unfold leaf_cell; rewrite E1, E2; reflexivity).
        split; [cbn [cells_of]; rewrite Kp, El, fill_app, Er; reflexivity|]. cbn [sites_of]. rewrite Kp, El, map_app. eapply grows_trans; eassumption.
      + clear C. apply bind_ok in H as ([s1 row1] & w1 & w2 & H1 & H & _). cbn [fst snd] in *.
        destruct (Hv d0 eq_refl r (parent ++ key ++ [slash_c]) ids s0 Hx0) as [A _].
        assert (K1 : keys_in row1 (hdr r s1)).
        { destruct (proj1 (pv_ok_all O (JO d0)) _ _ _ _ _ _ _ _ _ H1) as [_ K]; [exact Hx0|intros x [= <-]; exact Hk0|apply K; discriminate]. }
        apply A in H1 as [E1 G1]; [|apply app_ne|exact Hk0].
        apply IH in H as [-> G]; [|eapply trace_exists; [exact (proj1 G1)|exact Hx0]|exact K1].
        split.
        * cbn [cells_of]. rewrite Kp, fill_app, E1. reflexivity.
        * cbn [sites_of]. rewrite Kp, map_app. eapply grows_cons; [exact G0|]. eapply grows_trans; [exact G1|exact G].
  Qed.
  Lemma dict_plain d : Forall (fun kv => pv_plain (snd kv) /\ forall l, snd kv = JA l -> Forall pv_plain l) d -> pv_plain (JO d).
  Proof.
    intros HF d' [= <-] r parent ids s Hx. split.
    - intros row s' row' w H Hp Hk. cbn [parse_value] in H. unfold dict in H. rewrite geo_plain in H. unfold bind at 1, ret at 1 in H.
      rewrite filtered_inner in H by exact Hp. unfold bind at 1, ret at 1 in H. cbn [fst snd] in H.
      destruct (own_ids O r d parent ids s) as [ids' s1] eqn:E. apply own_ids_plain in E as [-> G1]; [|exact Hx].
      destruct (entries O (parse_value O) r false (scope O parent d ids) d parent row s1) as [[s2 row2] w2|] eqn:E2; [|discriminate].
      simpl in H. injection H as <- <- _. rewrite cells_JO, sites_JO.
      apply (entries_plain r _ d HF) in E2 as [-> G2]; [|eapply trace_exists; [exact (proj1 G1)|exact Hx]|eapply trace_keys_in; [exact (proj1 G1)|exact Hk]].
      split; [reflexivity|]. eapply grows_cons; eassumption.
    - intros top s' row' w H Hf. cbn [parse_value] in H. unfold dict in H. rewrite geo_plain in H. unfold bind at 1, ret at 1 in H.
      rewrite Hf in H. destruct (bind _ _) as [[sa rowa] wa|] eqn:H1 in H; [|discriminate]. injection H as <- <- _.
      apply bind_ok in H1 as ([s0 row0] & w1 & w2 & H0 & H & _). cbn [fst snd] in H.
      assert (G0 : row0 = (if top then fill ids [] else []) /\ grows s [] s0 /\ keys_in row0 (hdr r s0)).
      { destruct top.
        - pose proof (add_parent_ids_trace O _ _ _ _ _ _ _ H0 Hx) as Q. apply add_parent_ids_plain in H0 as [E G]; [|exact Hx].
          split; [exact E|]. split; [exact G|]. apply Q. apply keys_in_nil.
        - injection H0 as <- <- _. split; [reflexivity|]. split; [apply grows_nil|apply keys_in_nil]. }
      destruct G0 as (-> & G0 & K0). assert (Hx0 : sheet_at r s0 <> None) by (eapply trace_exists; [exact (proj1 G0)|exact Hx]).
      destruct (own_ids O r d parent ids s0) as [ids' s1] eqn:E. apply own_ids_plain in E as [-> G1]; [|exact Hx0].
      apply bind_ok in H as ([s2 row2] & w3 & w4 & H2 & H & _). cbn [fst snd] in H.
      assert (Hx1 : sheet_at r s1 <> None) by (eapply trace_exists; [exact (proj1 G1)|exact Hx0]).
      assert (K1 : keys_in (if top then fill ids [] else []) (hdr r s1)) by (eapply trace_keys_in; [exact (proj1 G1)|exact K0]).
      assert (HF' : Forall (fun kv : str * jv => pv_ok O (snd kv) /\ forall l, snd kv = JA l -> Forall (pv_ok O) l) d).
      { apply Forall_forall. intros kv _. apply (pv_ok_all O). }
      destruct (entries_trace O r false _ d HF' _ _ _ _ _ _ H2 Hx1 K1) as [T2 K2].
      apply (entries_plain r _ d HF) in H2 as [E2 G2]; [|exact Hx1|exact K1].
      assert (Hx2 : sheet_at r s2 <> None) by (eapply trace_exists; [exact T2|exact Hx1]).
      destruct (sheet_at r s2) as [sh|] eqn:Es; [|congruence].
      assert (G3 : grows s2 [(r, row2)] (add_row r sh row2 s2)) by (apply grows_line; [exact Es|unfold hdr in K2; rewrite Es in K2; exact K2]).
      unfold add_row in G3. destruct (append_line row2 sh (p_store s2)) as [sh' st]. injection H as <- <- _.
      rewrite cells_JO, sites_JO. subst row2. eapply grows_cons; [exact G0|]. eapply grows_cons; [exact G1|]. eapply grows_trans; eassumption.
  Qed.
  Lemma pv_plain_all v : pv_plain v /\ forall l, v = JA l -> Forall pv_plain l.
  Proof.
    induction v as [s|l IH|d IH] using jv_ind'.
    - split; [|discriminate]. intros d Q; discriminate Q.
    - split; [intros d Q; discriminate Q|]. intros l' [= <-]. eapply Forall_impl; [|exact IH]. intros v [H _]. exact H.
    - split; [|discriminate]. apply dict_plain. exact IH.
  Qed.

  Lemma record_entries d : map entry (record_sites O (JO d)) = map entry (inner_sites O [] [] (JO d)) ++ [(None, fill (cells O [] (JO d)) [])].
  Proof. unfold record_sites. rewrite map_app. reflexivity. Qed.
  Lemma parse_list_plain l : po_filter O = None -> forall num s s' w, parse_list O num l s = Ok s' w -> grows s (map entry (sites O l)) s'.
  Proof.
    intros HF. induction l as [|v l IH]; intros num s s' w H; cbn [parse_list] in H.
    - injection H as <- _. apply grows_nil.
    - change (sites O (v :: l)) with (record_sites O v ++ sites O l).
      assert (G : forall w0, bind (warn1 w0) (fun _ => parse_list O (num + 1)%N l s) = Ok s' w -> grows s (map entry (sites O l)) s').
      { intros w0 G. apply bind_ok in G as (t & w1 & w2 & _ & G & _). eapply IH; exact G. }
      destruct v as [[]|l0|d]; try exact (G _ H); [eapply IH; exact H|].
      apply bind_ok in H as ([s1 x1] & w1 & w2 & H1 & H & _). cbn [fst] in H.
      destruct (proj1 (pv_plain_all (JO d)) d eq_refl None [] [] s) as [_ B]; [discriminate|].
      apply B in H1; [|unfold filtered_out; rewrite HF; reflexivity]. rewrite map_app, record_entries.
      eapply grows_trans; [exact H1|]. eapply IH; exact H.
  Qed.
  Lemma sel_entries r l : sel r (map entry l) = map (row_of O) (on_sheet r l).
  Proof.
    induction l as [|x l IH]; [reflexivity|]. unfold sel, on_sheet in *. cbn [map filter entry fst].
    destruct (oname_eqb r (si_sheet x)); cbn [map snd]; rewrite IH; reflexivity.
  Qed.

  Definition sheet_ref (s : pst) (t : table) (r : option str) : Prop :=
    match r with None => t = main_table s | Some n => In t (sub_tables s) /\ tb_name t = n end.

  Theorem flatten_sites drop pi l s w : po_filter O = None -> flatten O drop pi l = Ok s w -> name_free O s ->
    forall r t, sheet_ref s t r -> tb_rows t = map (row_of O) (on_sheet r (sites O l)).
  Proof.
    intros HFil H HF r t Ht. destruct (flatten_inv _ _ _ _ _ _ H) as (s0 & w0 & H0 & ->).
    pose proof (simple_ready O P) as SR.
    pose proof (parse_list_trace O _ _ _ _ _ H0) as T. pose proof (trace_names O _ _ T (start_names O drop SR)) as Hn.
    pose proof (name_free_drop O drop l s0 w0 H0 SR HF) as HM.
    pose proof (start_ok O drop SR) as S0.
    destruct (parse_list_plain l HFil _ _ _ _ H0) as (_ & G & _). specialize (G HM S0 r). rewrite (start_rows O drop SR), sel_entries in G.
    assert (Hx : exists x, sheet_at r s0 = Some x /\ tb_rows t = lines_of (p_store s0) x).
    { destruct r as [n|]; simpl in Ht.
      - destruct Ht as [Ht <-]. unfold sub_tables in Ht. apply in_map_iff in Ht as ([n x] & <- & Hin). exists x. split.
        + apply (drop_sheet drop); [exact Hn|]. simpl. apply In_sget; [apply drop_names; exact Hn|exact Hin].
        + cbn [table_of tb_rows fst snd]. rewrite drop_store. reflexivity.
      - subst t. exists (p_main s0). split; [reflexivity|]. unfold main_table. cbn [table_of tb_rows]. rewrite drop_store, drop_main. reflexivity. }
    destruct Hx as (x & Hx & ->). unfold rows in G. rewrite Hx in G. exact G.
  Qed.
  (** every sheet has a row *)
  Theorem flatten_tables drop pi l s w : po_filter O = None -> flatten O drop pi l = Ok s w ->
    forall t, In t (sub_tables s) -> schema_sheet O (tb_name t) \/ exists x, In x (sites O l) /\ si_sheet x = Some (tb_name t).
  Proof.
    intros HFil H t Ht. destruct (flatten_inv _ _ _ _ _ _ H) as (s0 & w0 & H0 & ->).
    pose proof (simple_ready O P) as SR.
    pose proof (parse_list_trace O _ _ _ _ _ H0) as T. pose proof (trace_names O _ _ T (start_names O drop SR)) as Hn.
    destruct (parse_list_plain l HFil _ _ _ _ H0) as (_ & _ & G). unfold sub_tables in Ht. apply in_map_iff in Ht as ([n x] & <- & Hin). cbn [table_of tb_name fst].
    assert (E : sget n (p_subs s0) = Some x).
    { pose proof (drop_sheet drop (Some n) s0 x Hn) as Q. apply Q. simpl. apply In_sget; [apply drop_names; exact Hn|exact Hin]. }
    destruct (G n) as [Q|Q]; [unfold there; congruence| |].
    - left. unfold there, start in Q. unfold schema_sheet. cbn [new_persistent] in Q. destruct (po_schema O) as [sc|]; cbn [p_subs] in Q; [|apply Q; reflexivity].
      destruct (sget n (map (fun nx => (fst nx, drop_cols drop (snd nx))) (sci_subs sc))) as [y|] eqn:Ey; [|congruence]. apply sget_In in Ey. apply in_map_iff in Ey as ([n' z] & Ez & Ey).
      injection Ez as <- _. apply in_map_iff. exists (n', z). split; [reflexivity|exact Ey].
    - right. rewrite map_map in Q. apply in_map_iff in Q as (y & Ey & Hy). exists y. split; [exact Hy|exact Ey].
  Qed.
End Plain.
