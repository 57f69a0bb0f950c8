(** Every column that a titled run adds is used by a row. *)
From Verif.Base Require Import PyStr PyNum PyVal PyDict Outcome.
From Verif.Model Require Import Flatten.
From Verif.Spec Require Import Flat Sites Paths RoundTrip Titled.
From Verif.Proofs Require Import JvInd FlattenTrace FlattenRows FlattenRun FlattenPlain FlattenPaths FlattenUsed FlattenTitled TitledItems.

Section Used.
  Variable O : popts.
  Hypothesis P : json_run O.
  Hypothesis WF : po_filter O = None.
  Hypothesis WP : po_preserve O = [].
  Notation head := (heading O).
  Notation rn := (rn O).
  Notation okr := (okr O).
  Notation tcells := (tcells O).
  Notation tcells_of := (tcells_of O).
  Notation tinner := (tinner O).
  Notation tsites_of := (tsites_of O).
  Notation titem_sites := (titem_sites O).
  Notation trow := (trow O).
  Notation ids_ok := (ids_ok O).
  Notation items_ok := (items_ok O).
  Notation on := FlattenUsed.on.
  Notation idn := (po_id_name O).
  Notation rid := (po_root_id O).

  Lemma cols_tkey r0 k0 s : okr r0 s -> cols s (fun r k => r = r0 /\ k = head r0 k0) (snd (use_key O r0 k0 s)).
  Proof.
    intros Hk r k H. pose proof (use_key_title O r0 k0 s Hk) as Q. unfold use_key in H, Q. destruct (sheet_at r0 s) as [x|] eqn:E; [|left; exact H]. unfold hdr in *.
    destruct (sheet_key (po_titles O) k0 x) as [k1 x1] eqn:Ek. cbn [snd fst] in H, Q. subst k1. rewrite sheet_at_put in H. destruct (oname_spec r r0) as [->|]; [|left; exact H].
    rewrite E. unfold sheet_key in Ek. injection Ek as Ek <-. rewrite Ek in H. destruct (str_mem (head r0 k0) (header x)); [left; exact H|].
    unfold add_col in H. destruct (str_mem (head r0 k0) (sh_cols x)); [left; exact H|]. unfold header in H. cbn in H. rewrite !app_assoc in H. apply in_app_or in H as [H|[<-|[]]]; [|right; auto].
    left. unfold header. rewrite !app_assoc. exact H.
  Qed.
  Definition in_tsites (l : list site) (r : sref) (k : str) : Prop := exists x, In x l /\ si_sheet x = r /\ In k (map fst (trow x)).
  Lemma in_tsites_app a b r k : in_tsites (a ++ b) r k <-> in_tsites a r k \/ in_tsites b r k.
  Proof.
    unfold in_tsites. split.
    - intros (x & Hx & H). apply in_app_or in Hx as [Hx|Hx]; [left|right]; eauto.
    - intros [(x & Hx & H)|(x & Hx & H)]; exists x; (split; [apply in_or_app; auto|exact H]).
  Qed.
  Lemma trow_keys x k : In k (map fst (trow x)) <-> In k (map fst (rn (si_sheet x) (si_ids x))) \/ In k (map fst (tcells (si_sheet x) (si_prefix x) (JO (si_obj x)))).
  Proof. unfold FlattenTitled.trow. rewrite !fill_keys. cbn. tauto. Qed.
  Lemma kept_all p k : kept O p k = true.
  Proof. unfold kept. rewrite WP. reflexivity. Qed.
  Lemma tcell_here r p d k x : sget k d = Some x -> leaf_cell O x <> None -> In (head r (p ++ k)) (map fst (tcells_of r p d)).
  Proof.
    induction d as [|[k1 x1] d IH]; [discriminate|]. unfold sget, aget. cbn [FlattenTitled.tcells_of]. rewrite kept_all, map_app, in_app_iff. destruct (str_eqb_spec k k1) as [->|Hk].
    - intros [= ->] Hl. left. destruct x as [s|l|e]; [left; reflexivity|destruct (leaf_cell O (JA l)); [left; reflexivity|contradiction]|contradiction].
    - intros Hs Hl. right. apply IH; assumption.
  Qed.
  Lemma own_ids_cols r0 d parent ids s ids' s' : okr r0 s -> own_ids O r0 d parent ids s = (ids', s') ->
    cols s (fun r k => r = r0 /\ ((rid <> [] /\ sget rid d <> None /\ k = head r0 rid) \/ (sget idn d <> None /\ k = head r0 (parent ++ idn)))) s'.
  Proof.
    intros Hx. unfold own_ids.
    assert (G : forall ids1 s1, trace O s s1 -> cols s (fun r k => r = r0 /\ (rid <> [] /\ sget rid d <> None /\ k = head r0 rid)) s1 ->
      match sget idn d with
      | Some v => let (k, s2) := use_key O r0 (parent ++ idn) s1 in (sset k v ids1, s2)
      | None => (ids1, s1)
      end = (ids', s') -> cols s (fun r k => r = r0 /\ ((rid <> [] /\ sget rid d <> None /\ k = head r0 rid) \/ (sget idn d <> None /\ k = head r0 (parent ++ idn)))) s').
    { intros ids1 s1 T1 H1 H. destruct (sget idn d); [|injection H as _ <-; eapply cols_weak; [exact H1|]; intros r k (A & B); auto].
      pose proof (cols_tkey r0 (parent ++ idn) s1 (trace_okr O r0 s s1 T1 Hx)) as K. destruct (use_key O r0 (parent ++ idn) s1) as [k' s2]. injection H as _ <-.
      eapply cols_trans; [exact H1|exact K| |]; [intros r k (A & B); auto|intros r k (A & B); split; [exact A|right; split; [discriminate|exact B]]]. }
    destruct rid as [|c rr] eqn:Er; [intros H; apply (G ids s); [constructor|apply cols_refl|exact H]|].
    destruct (sget (c :: rr) d) eqn:Es; [|intros H; apply (G ids s); [constructor|apply cols_refl|exact H]].
    pose proof (cols_tkey r0 (c :: rr) s Hx) as K. assert (T : trace O s (snd (use_key O r0 (c :: rr) s))) by (apply t_key, t_nil). destruct (use_key O r0 (c :: rr) s) as [k' s2]. intros H. apply (G (sset k' j ids) s2); [exact T| |exact H].
    eapply cols_weak; [exact K|]. intros r k (A & B). split; [exact A|]. split; [discriminate|]. split; [discriminate|exact B].
  Qed.
  Lemma parent_ids_cols r0 ids : forall row s s' row' w, okr r0 s -> add_parent_ids O r0 ids row s = Ok (s', row') w -> cols s (on r0 (rn r0 ids)) s'.
  Proof.
    induction ids as [|[k0 v0] ids IH]; intros row s s' row' w Hx H; cbn [add_parent_ids] in H; [injection H as <- _ _; apply cols_refl|].
    pose proof (cols_tkey r0 k0 s Hx) as K. pose proof (okr_key O r0 r0 k0 s Hx) as Hy. destruct (use_key O r0 k0 s) as [k' s1]. cbn [snd] in K, Hy. apply bind_ok in H as (v' & w1 & w2 & _ & H & _). apply IH in H; [|exact Hy].
    eapply cols_trans; [exact K|exact H| |]; unfold on; cbn; intros r k (A & B); auto.
  Qed.

  Lemma roll_single_cols r0 key item : forall row s s' row' w, roll_single O r0 key item row s = Ok (s', row') w -> okr r0 s ->
    cols s (on r0 (flat_map (fun fv => match roll_column O key (fst fv) with Some c => [(head r0 c, snd fv)] | None => [] end) (filter (fun fv => roll_kept O key (fst fv)) item))) s'.
  Proof.
    induction item as [|[k v] item IH]; intros row s s' row' w H Hx; cbn [roll_single] in H; [injection H as <- _ _; apply cols_refl|].
    rewrite roll_dropped_kept in H. cbn [filter fst]. destruct (roll_kept O key k); cbn [negb] in H; [|eapply IH; eassumption].
    destruct (negb (jbasic v)); [discriminate|]. cbn [flat_map fst snd]. destruct (roll_column O key k) as [c|]; [|apply IH in H; [exact H|exact Hx]].
    rewrite set_cell_title in H by exact Hx. apply IH in H; [|apply okr_key; exact Hx].
    eapply cols_trans; [apply cols_tkey; exact Hx|exact H| |]; unfold FlattenUsed.on; cbn; intros r k0 (A & B); auto.
  Qed.
  Lemma roll_many_cols r0 key ks : forall row s s' row' w, roll_many O r0 key ks row s = Ok (s', row') w -> okr r0 s ->
    cols s (on r0 (flat_map (fun f => if roll_many_wanted O key f then [(head r0 (roll_path key f), JS (SStr rollup_text))] else []) (filter (roll_kept O key) ks))) s'.
  Proof.
    induction ks as [|k ks IH]; intros row s s' row' w H Hx; cbn [roll_many] in H; [injection H as <- _ _; apply cols_refl|].
    rewrite roll_dropped_kept in H. cbn [filter fst]. destruct (roll_kept O key k); cbn [negb] in H; [|eapply IH; eassumption].
    cbn [flat_map]. destruct (roll_many_wanted O key k); [|apply IH in H; [exact H|exact Hx]].
    apply bind_ok in H as (t & w1 & w2 & _ & H & _). rewrite set_cell_title in H by exact Hx. apply IH in H; [|apply okr_key; exact Hx].
    eapply cols_trans; [apply cols_tkey; exact Hx|exact H| |]; unfold FlattenUsed.on; cbn; intros r k0 (A & B); auto.
  Qed.
  Lemma rollup_cols r0 parent key l row s s' row' w : rollup O r0 parent key l row s = Ok (s', row') w -> okr r0 s ->
    cols s (on r0 (match parent with [] => roll_cells O r0 key l | _ => [] end)) s'.
  Proof.
    unfold rollup, roll_cells. intros H Hx. destruct (po_rollup O) as [|f fs] eqn:Ef; [injection H as <- _ _; apply cols_refl|].
    destruct parent; [|injection H as <- _ _; apply cols_refl].
    apply bind_ok in H as (t & w1 & w2 & _ & H & _). destruct l as [|v [|v2 l]].
    - injection H as <- _ _. apply cols_refl.
    - destruct v as [| |d]; try discriminate. apply roll_single_cols in H; [|exact Hx]. exact H.
    - apply bind_ok in H as (ks & w3 & w4 & Hk & H & _). apply all_keys_plain in Hk as ->. apply roll_many_cols in H; [|exact Hx]. destruct v; exact H.
  Qed.

  Definition pv_cols (v : jv) : Prop := forall d, v = JO d -> forall r0 parent ids top s s' row' w, okr r0 s ->
    (forall row, parse_value O v r0 parent (Some row) ids false s = Ok (s', row') w -> ids_ok false v -> keys_in row (hdr r0 s) ->
       cols s (fun r k => on r0 (tcells r0 parent v) r k \/ in_tsites (tinner r0 parent ids v) r k) s') /\
    (parse_value O v r0 parent None ids top s = Ok (s', row') w -> forall b, (b = true -> parent = []) -> ids_ok b v ->
       cols s (fun r k => on r0 (tcells r0 parent v) r k \/ (top = true /\ on r0 (rn r0 ids) r k) \/ in_tsites (tinner r0 parent ids v) r k) s').

  Lemma items_cols p k0 ids l : Forall pv_cols l -> items_ok l -> forall s s' w, items (parse_value O) (sub_sheet_name O p k0) (p ++ k0 ++ u "/0/") ids l s = Ok s' w ->
    okr (Some (sub_sheet_name O p k0)) s -> cols s (in_tsites (titem_sites p k0 ids l)) s'.
  Proof.
    intros HF. induction HF as [|v l Hv _ IH]; intros HI s s' w H Hx; cbn [items] in H; cbn [FlattenTitled.titem_sites]; [injection H as <- _; apply cols_refl|].
    inversion HI as [|? ? HI1 HI2]; subst.
    assert (Bad : (forall d, v <> JO d) -> bind (parse_value O v (Some (sub_sheet_name O p k0)) (p ++ k0 ++ u "/0/") None ids true s)
        (fun r => items (parse_value O) (sub_sheet_name O p k0) (p ++ k0 ++ u "/0/") ids l (fst r)) = Ok s' w -> False).
    { intros Hn Hb. destruct v; cbn [parse_value bind] in Hb; try discriminate. eapply Hn; reflexivity. }
    destruct v as [sc|la|d].
    - destruct sc; try (exfalso; apply Bad in H; [exact H|discriminate]). cbn [app]. eapply IH; eassumption.
    - exfalso. apply Bad in H; [exact H|discriminate].
    - clear Bad. apply bind_ok in H as ([s1 row1] & w1 & w2 & H1 & H & _). cbn [fst] in H.
      pose proof (proj1 (pv_ok_all O (JO d)) _ _ _ _ _ _ _ _ _ H1) as T. destruct T as [T _]; [exact (proj1 Hx)|discriminate|].
      destruct (Hv d eq_refl (Some (sub_sheet_name O p k0)) (p ++ k0 ++ u "/0/") ids true s s1 row1 w1 Hx) as [_ B].
      apply (fun X => B X false ltac:(discriminate) HI1) in H1. apply IH in H; [|exact HI2|eapply trace_okr; eassumption].
      eapply cols_trans; [exact H1|exact H| |].
      + intros r k Hk. apply in_tsites_app. left. apply in_tsites_app.
        destruct Hk as [[-> Hk]|[[_ [-> Hk]]|Hk]]; [right|right|left; exact Hk]; (eexists; split; [left; reflexivity|]; split; [reflexivity|]; apply trow_keys; cbn [si_ids si_prefix si_obj]; auto).
      + intros r k Hk. apply in_tsites_app. right. exact Hk.
  Qed.

  Lemma entries_cols r0 ids d : Forall (fun kv => pv_cols (snd kv) /\ forall l, snd kv = JA l -> Forall pv_cols l) d -> Forall (fun kv => ids_ok false (snd kv)) d ->
    forall parent row s s' row' w, entries O (parse_value O) r0 false ids d parent row s = Ok (s', row') w -> okr r0 s -> keys_in row (hdr r0 s) ->
    cols s (fun r k => on r0 (tcells_of r0 parent d) r k \/ in_tsites (tsites_of r0 parent ids d) r k) s'.
  Proof.
    intros HF. induction HF as [|[key value] d [Hv Ha] _ IH]; intros HI parent row s s' row' w H Hx Hk; cbn [entries] in H; [injection H as <- _ _; apply cols_refl|].
    inversion HI as [|? ? HI1 HI2]; subst. specialize (IH HI2). cbn [snd] in *.
    cbn [andb] in H. set (s0 := see_path _ s) in *.
    assert (T0 : trace O s s0) by (apply t_see, t_nil).
    assert (Hx0 : okr r0 s0) by (eapply trace_okr; eassumption).
    assert (Hk0 : keys_in row (hdr r0 s0)) by (eapply trace_keys_in; eassumption).
    assert (C0 : cols s (fun _ _ => False) s0) by apply cols_see.
    assert (Ep : preserve_skips O (replace (u "/0") [] parent) (replace (u "/0") [] parent ++ key) = false).
    { unfold preserve_skips. rewrite WP. reflexivity. }
    rewrite Ep in H. pose proof P as (_ & Ex & _). rewrite Ex in H. cbn [andb] in H. clear Ep Ex.
    cbn [FlattenTitled.tcells_of FlattenTitled.tsites_of]. rewrite kept_all.
    assert (C : forall v, (let (s2, row2) := set_cell O r0 (parent ++ key) v row s0 in entries O (parse_value O) r0 false ids d parent row2 s2) = Ok (s', row') w ->
      forall cs ss, In (head r0 (parent ++ key)) (map fst cs) ->
      cols s (fun r k => on r0 (cs ++ tcells_of r0 parent d) r k \/ in_tsites (ss ++ tsites_of r0 parent ids d) r k) s').
    { intros v Hc cs ss Hin. destruct (set_cell O r0 (parent ++ key) v row s0) as [s1 row1] eqn:E.
      destruct (set_cell_trace O _ _ _ _ _ _ _ E (proj1 Hx0) Hk0) as [T1 K1]. rewrite set_cell_title in E by exact Hx0. injection E as <- <-.
      apply IH in Hc; [|eapply trace_okr; [exact T1|exact Hx0]|exact K1].
      eapply (cols_trans _ _ _ (fun r k => r = r0 /\ k = head r0 (parent ++ key))); [eapply cols_trans; [exact C0|apply cols_tkey; exact Hx0|intros ? ? []|intros r k A; exact A]|exact Hc| |].
      - intros r k [-> ->]. left. split; [reflexivity|]. rewrite map_app. apply in_or_app. left. exact Hin.
      - intros r k [[-> Q]|Q]; [left; split; [reflexivity|]; rewrite map_app; apply in_or_app; auto|right; apply in_tsites_app; auto]. }
    destruct value as [v|l|d0].
    - destruct (basic v); [|discriminate]. apply (C (JS v) H [(head r0 (parent ++ key), JS v)] []). left. reflexivity.
    - destruct (forallb jbasic l) eqn:E1; [rewrite (leaf_basic O l E1); apply (C _ H _ []); left; reflexivity|].
      destruct (forallb inner_array l) eqn:E2; [rewrite (leaf_arrays O l E1 E2); apply (C _ H _ []); left; reflexivity|]. clear C.
      assert (El : leaf_cell O (JA l) = None) by (unfold leaf_cell; rewrite E1, E2; reflexivity). rewrite El.
      apply bind_ok in H as ([sr rowr] & wr1 & wr2 & Hr & H & _). cbn [fst snd] in H.
      destruct (rollup_trace O _ _ _ _ _ _ _ _ _ Hr (proj1 Hx0) Hk0) as [Tr Kr]. apply rollup_cols in Hr; [|exact Hx0].
      assert (Hxr : okr r0 sr) by (eapply trace_okr; eassumption).
      apply bind_ok in H as (s1 & w3 & w4 & H1 & H2 & _).
      assert (T1 : trace O (ensure_sub (sub_sheet_name O parent key) sr) s1).
      { eapply items_trace; [|exact H1|apply ensure_sub_at]. apply Forall_forall. intros y _. apply (pv_ok_all O). }
      assert (T2 : trace O sr s1) by (eapply trace_trans; [apply t_sub, t_nil|exact T1]).
      apply (items_cols parent key ids l (Ha l eq_refl) (ids_ok_JA O _ HI1)) in H1; [|split; [apply ensure_sub_at|apply good_sub; exact (proj2 Hxr)]].
      apply IH in H2; [|eapply trace_okr; eassumption|eapply trace_keys_in; eassumption].
      eapply (cols_trans _ _ _ (fun r k => on r0 (match parent with [] => roll_cells O r0 key l | _ => [] end) r k \/ in_tsites (titem_sites parent key ids l) r k)); [|exact H2| |].
      + eapply cols_trans; [exact C0| |intros ? ? []|intros r k A; exact A]. eapply cols_trans; [exact Hr| |intros r k A; left; exact A|intros r k A; right; exact A].
        eapply cols_trans; [apply (cols_sub (sub_sheet_name O parent key) sr (fun _ _ => False))|exact H1|intros ? ? []|intros r k A; exact A].
      + intros r k [[-> A]|A]; [left; split; [reflexivity|]; rewrite map_app; apply in_or_app; auto|right; apply in_tsites_app; left; exact A].
      + intros r k [[-> A]|A]; [left; split; [reflexivity|]; rewrite map_app; apply in_or_app; auto|right; apply in_tsites_app; auto].
    - clear C. apply bind_ok in H as ([s1 row1] & w1 & w2 & H1 & H & _). cbn [fst snd] in *.
      destruct (proj1 (pv_ok_all O (JO d0)) _ _ _ _ _ _ _ _ _ H1) as [T1 K]; [exact (proj1 Hx0)|intros x [= <-]; exact Hk0|]. specialize (K ltac:(discriminate)).
      destruct (Hv d0 eq_refl r0 (parent ++ key ++ [slash_c]) ids false s0 s1 row1 w1 Hx0) as [A _]. apply A in H1; [|exact HI1|exact Hk0].
      apply IH in H; [|eapply trace_okr; eassumption|exact K]. rewrite tcells_rn in H1 by apply app_ne.
      eapply cols_trans; [eapply cols_trans; [exact C0|exact H1|intros ? ? []|intros r k B; exact B]|exact H| |].
      + intros r k [[-> B]|B]; [left; split; [reflexivity|]; rewrite map_app; apply in_or_app; left; exact B|right; apply in_tsites_app; left; exact B].
      + intros r k [[-> B]|B]; [left; split; [reflexivity|]; rewrite map_app; apply in_or_app; right; exact B|right; apply in_tsites_app; right; exact B].
  Qed.
  Lemma own_covered r0 d parent b r k : ids_ok b (JO d) -> (b = true -> parent = []) ->
    r = r0 /\ ((rid <> [] /\ sget rid d <> None /\ k = head r0 rid) \/ (sget idn d <> None /\ k = head r0 (parent ++ idn))) -> on r0 (tcells_of r0 parent d) r k.
  Proof.
    intros HI Hb (-> & H). apply ids_ok_JO in HI as (A & B & _). split; [reflexivity|]. destruct H as [(N & Q & ->)|(Q & ->)].
    - destruct (sget rid d) as [x|] eqn:E; [|contradiction]. destruct (B N x eq_refl) as [Hbt Hl]. rewrite (Hb Hbt). apply (tcell_here r0 [] d rid x E Hl).
    - destruct (sget idn d) as [x|] eqn:E; [|contradiction]. apply (tcell_here r0 parent d idn x E (A x eq_refl)).
  Qed.
  Lemma dict_cols d : Forall (fun kv => pv_cols (snd kv) /\ forall l, snd kv = JA l -> Forall pv_cols l) d -> pv_cols (JO d).
  Proof.
    intros HF d' [= <-] r0 parent ids top s s' row' w Hx. split.
    - intros row H HI Hk. cbn [parse_value] in H. unfold dict in H. rewrite (geo_title O P) in H. unfold bind at 1, ret at 1 in H.
      assert (Ef : filtered_out O parent d = false) by (unfold filtered_out; rewrite WF; destruct parent; reflexivity).
      rewrite Ef in H. unfold bind at 1, ret at 1 in H. cbn [fst snd] in H.
      destruct (own_ids O r0 d parent ids s) as [ids' s1] eqn:E. pose proof (own_ids_cols _ _ _ _ _ _ _ Hx E) as C1.
      pose proof (own_ids_trace O _ _ _ _ _ _ _ E) as T1. apply (own_ids_title O) in E as [-> _]; [|exact Hx].
      destruct (entries O (parse_value O) r0 false (tscope O r0 parent d ids) d parent row s1) as [[s2 row2] w2|] eqn:E2; [|discriminate].
      cbn in H. injection H as <- _ _. cbn [FlattenTitled.tcells]. rewrite tsites_JO.
      apply (entries_cols r0 _ d HF (proj2 (proj2 (ids_ok_JO O _ _ HI)))) in E2; [|eapply trace_okr; eassumption|eapply trace_keys_in; eassumption].
      eapply cols_trans; [exact C1|exact E2| |intros r k A; exact A]. intros r k A. left. apply (own_covered r0 d parent false); [exact HI|discriminate|exact A].
    - intros H b Hb HI. cbn [parse_value] in H. unfold dict in H. rewrite (geo_title O P) in H. unfold bind at 1, ret at 1 in H.
      assert (Ef : filtered_out O parent d = false) by (unfold filtered_out; rewrite WF; destruct parent; reflexivity).
      rewrite Ef in H. destruct (bind _ _) as [[sa rowa] wa|] eqn:H1 in H; [|discriminate]. injection H as <- _ _.
      apply bind_ok in H1 as ([s0 row0] & w1 & w2 & H0 & H & _). cbn [fst snd] in H.
      assert (G0 : trace O s s0 /\ keys_in row0 (hdr r0 s0) /\ cols s (fun r k => top = true /\ on r0 (rn r0 ids) r k) s0).
      { destruct top.
        - destruct (add_parent_ids_trace O _ _ _ _ _ _ _ H0 (proj1 Hx) (keys_in_nil _)) as [T K]. split; [exact T|]. split; [exact K|]. eapply cols_weak; [eapply parent_ids_cols; [exact Hx|exact H0]|auto].
        - injection H0 as <- <- _. split; [constructor|]. split; [apply keys_in_nil|apply cols_refl]. }
      destruct G0 as (T0 & K0 & C0). assert (Hx0 : okr r0 s0) by (eapply trace_okr; eassumption).
      destruct (own_ids O r0 d parent ids s0) as [ids' s1] eqn:E. pose proof (own_ids_cols _ _ _ _ _ _ _ Hx0 E) as C1.
      pose proof (own_ids_trace O _ _ _ _ _ _ _ E) as T1. apply (own_ids_title O) in E as [-> _]; [|exact Hx0].
      apply bind_ok in H as ([s2 row2] & w3 & w4 & H2 & H & _). cbn [fst snd] in H.
      assert (Hx1 : okr r0 s1) by (eapply trace_okr; eassumption).
      assert (K1 : keys_in row0 (hdr r0 s1)) by (eapply trace_keys_in; eassumption).
      assert (HF' : Forall (fun kv : str * jv => pv_ok O (snd kv) /\ forall l, snd kv = JA l -> Forall (pv_ok O) l) d).
      { apply Forall_forall. intros kv _. apply (pv_ok_all O). }
      destruct (entries_trace O r0 false _ d HF' _ _ _ _ _ _ H2 (proj1 Hx1) K1) as [T2 K2].
      apply (entries_cols r0 _ d HF (proj2 (proj2 (ids_ok_JO O _ _ HI)))) in H2; [|exact Hx1|exact K1].
      assert (Hx2 : sheet_at r0 s2 <> None) by (eapply trace_exists; [exact T2|exact (proj1 Hx1)]).
      destruct (sheet_at r0 s2) as [sh|] eqn:Es; [|congruence].
      pose proof (cols_line r0 sh row2 s2 (fun _ _ => False) Es) as C3. unfold add_row in C3. destruct (append_line row2 sh (p_store s2)) as [sh' st]. injection H as <- _ _.
      cbn [FlattenTitled.tcells]. rewrite tsites_JO.
      eapply cols_trans; [exact C0| |intros r k A; right; left; exact A|intros r k A; exact A].
      eapply cols_trans; [exact C1| |intros r k A; left; exact (own_covered r0 d parent b r k HI Hb A)|intros r k A; exact A].
      eapply cols_trans; [exact H2|exact C3| |intros ? ? []]. intros r k [A|A]; auto.
  Qed.
  Lemma pv_cols_all v : pv_cols v /\ forall l, v = JA l -> Forall pv_cols l.
  Proof.
    induction v as [s|l IH|d IH] using jv_ind'.
    - split; [|discriminate]. intros d Q; discriminate Q.
    - split; [intros d Q; discriminate Q|]. intros l' [= <-]. eapply Forall_impl; [|exact IH]. intros v [H _]. exact H.
    - split; [|discriminate]. apply dict_cols. exact IH.
  Qed.
  Lemma parse_list_cols l : forall num s s' w, FlattenTitled.good O s -> parse_list O num l s = Ok s' w -> Forall (ids_ok true) l -> cols s (in_tsites (tsites O l)) s'.
  Proof.
    induction l as [|v l IH]; intros num s s' w Hg H HI; cbn [parse_list] in H; [injection H as <- _; apply cols_refl|].
    inversion HI as [|? ? HI1 HI2]; subst. change (tsites O (v :: l)) with (trecord O v ++ tsites O l).
    assert (G : forall num s s' w, FlattenTitled.good O s -> parse_list O num l s = Ok s' w -> cols s (in_tsites (trecord O v ++ tsites O l)) s').
    { intros n1 s1 s2 w1 Hg1 H1. eapply cols_weak; [eapply IH; eassumption|]. intros r k A. apply in_tsites_app. right. exact A. }
    assert (G' : forall w0, bind (warn1 w0) (fun _ => parse_list O (num + 1)%N l s) = Ok s' w -> cols s (in_tsites (trecord O v ++ tsites O l)) s').
    { intros w0 A. apply bind_ok in A as (t & w1 & w2 & _ & A & _). eapply G; [exact Hg|exact A]. }
    destruct v as [[]|l0|d]; try exact (G' _ H); [eapply G; [exact Hg|exact H]|].
    apply bind_ok in H as ([s1 x1] & w1 & w2 & H1 & H & _). cbn [fst] in H.
    assert (T : trace O s s1). { destruct (proj1 (pv_ok_all O (JO d)) _ _ _ _ _ _ _ _ _ H1) as [T _]; [discriminate|discriminate|exact T]. }
    destruct (proj1 (pv_cols_all (JO d)) d eq_refl None [] [] false s s1 x1 w1) as [_ B]; [split; [discriminate|exact Hg]|]. apply (fun X => B X true ltac:(reflexivity) HI1) in H1.
    eapply cols_trans; [exact H1|eapply G; [eapply trace_good; eassumption|exact H]| |intros r k A; exact A].
    intros r k A. apply in_tsites_app. left. unfold trecord. apply in_tsites_app. destruct A as [[-> A]|[[Q _]|A]]; [right|discriminate|left; exact A].
    eexists. split; [left; reflexivity|]. split; [reflexivity|]. apply trow_keys. right. exact A.
  Qed.
  (** the columns a sheet starts with, those of its own sheet in the schema *)
  Theorem flatten_tused drop pi l s w : flatten O drop pi l = Ok s w -> name_free O s -> Forall (ids_ok true) l ->
    forall r t k, sheet_ref s t r -> In k (tb_header t) ->
      (exists row, In row (tb_rows t) /\ In k (map fst row)) \/
      exists sc x, po_schema O = Some sc /\ (match r with None => x = sci_main sc | Some n => In (n, x) (sci_subs sc) end) /\
        In k (header x).
  Proof.
    intros H HF HI r t k Hr Hk. destruct (flatten_inv _ _ _ _ _ _ H) as (s0 & w0 & H0 & ->). pose proof (proj1 P) as SR.
    pose proof (parse_list_trace O _ _ _ _ _ H0) as T. pose proof (trace_names O _ _ T (start_names O drop SR)) as Hn.
    pose proof (parse_list_cols l _ _ _ _ (start_good O drop) H0 HI) as C.
    pose proof (flatten_tsites O P drop pi l _ w WF H HF r t Hr) as Er.
    assert (Hx : exists x, sheet_at r s0 = Some x /\ tb_header t = header x).
    { destruct r as [n|]; simpl in Hr.
      - destruct Hr as [Ht <-]. unfold sub_tables in Ht. apply in_map_iff in Ht as ([n x] & <- & Hin). exists x. split; [|reflexivity].
        apply (drop_sheet drop); [exact Hn|]. simpl. apply In_sget; [apply drop_names; exact Hn|exact Hin].
      - subst t. exists (p_main s0). split; [reflexivity|]. unfold main_table. cbn [table_of tb_header]. rewrite drop_main. reflexivity. }
    destruct Hx as (x & Hx0 & Et).
    destruct (C r k) as [A|(y & Hy & Ey & A)].
    - unfold hdr. rewrite Hx0, <- Et. exact Hk.
    - right. unfold hdr, start in A. cbn [new_persistent] in A. destruct (po_schema O) as [sc|]; [|destruct r; destruct A]. destruct r as [n|]; cbn in A.
      + rewrite smap_get in A. destruct (sget n (sci_subs sc)) as [z|] eqn:E; [|destruct A]. cbn in A. exists sc, z. split; [reflexivity|]. split; [apply sget_In; exact E|].
        destruct (drop_header drop z) as (e & Eh). rewrite Eh. apply in_or_app. left. exact A.
      + exists sc, (sci_main sc). split; [reflexivity|]. split; [reflexivity|]. destruct drop; cbn in A; [|exact A]. unfold header in *. cbn in A. rewrite app_nil_r in A. apply in_app_or in A as [A|A]; apply in_or_app; [left; exact A|right; apply in_or_app; left; exact A].
    - left. exists (trow y). split; [|exact A]. rewrite Er. apply in_map. apply filter_In. split; [exact Hy|]. rewrite Ey. apply oname_eqb_refl.
  Qed.
  Theorem tcolumns_used drop pi docs s w : flatten O drop pi (map JO docs) = Ok s w -> name_free O s -> Forall (fun d => clean (JO d) /\ ids_are_values O (JO d)) docs ->
    forall r t k, sheet_ref s t r -> In k (tb_header t) ->
      (exists row, In row (tb_rows t) /\ In k (map fst row)) \/
      exists sc x, po_schema O = Some sc /\ (match r with None => x = sci_main sc | Some n => In (n, x) (sci_subs sc) end) /\
        In k (header x).
  Proof.
    intros H HF HI. apply (flatten_tused drop pi (map JO docs) s w H HF). apply Forall_map. eapply Forall_impl; [|exact HI]. intros d [A B]. eapply ids_ok_at; [exact A|exact B|reflexivity].
  Qed.
End Used.

Section Chosen.
  Variable O : popts.
  Variables (drop : bool) (pi : list str).
  Hypothesis P : json_run O.
  Hypothesis WP : po_preserve O = [].
  Theorem chosen_used docs s w : flatten O drop pi (map JO docs) = Ok s w -> name_free O s -> Forall (fun d => clean (JO d) /\ ids_are_values O (JO d)) docs ->
    forall r t k, sheet_ref s t r -> In k (tb_header t) ->
      (exists row, In row (tb_rows t) /\ In k (map fst row)) \/
      exists sc x, po_schema O = Some sc /\ (match r with None => x = sci_main sc | Some n => In (n, x) (sci_subs sc) end) /\ In k (header x).
  Proof.
    intros H HF HI. destruct (run_unfiltered O drop pi P _ s w H) as (w' & H').
    apply (flatten_tused (without_filter O) P eq_refl WP drop pi (chosen O (map JO docs)) s w' H' HF). apply Forall_forall. intros v Hv.
    assert (Q : In v (map JO docs)). { unfold chosen in Hv. destruct (po_filter O) as [[f x]|]; [|exact Hv]. apply filter_In in Hv. exact (proj1 Hv). }
    apply in_map_iff in Q as (d & <- & Hd). rewrite Forall_forall in HI. destruct (HI d Hd) as [A B]. eapply (ids_ok_at (without_filter O)); [exact A|exact B|reflexivity].
  Qed.
  Theorem columns_told docs s w : flatten O drop pi (map JO docs) = Ok s w -> name_free O s -> Forall (fun d => clean (JO d) /\ ids_are_values O (JO d)) docs ->
    let used (t : table) (k : str) := exists row, In row (tb_rows t) /\ In k (map fst row) in
    (forall k, In k (tb_header (main_table s)) -> used (main_table s) k \/ exists sc, po_schema O = Some sc /\ In k (header (sci_main sc))) /\
    (forall t k, In t (sub_tables s) -> In k (tb_header t) -> used t k \/ exists sc x, po_schema O = Some sc /\ In (tb_name t, x) (sci_subs sc) /\ In k (header x)).
  Proof.
    intros H HF HI used. pose proof (chosen_used docs s w H HF HI) as C. split.
    - intros k Hk. destruct (C None (main_table s) k eq_refl Hk) as [A|(sc & x & E & -> & A)]; [left; exact A|right; eauto].
    - intros t k Ht Hk. destruct (C (Some (tb_name t)) t k (conj Ht eq_refl) Hk) as [A|(sc & x & E & A & B)]; [left; exact A|right; exists sc, x; auto].
  Qed.
End Chosen.
