(** Arrays never hold two objects with equal ids: the whole run. *)
From Verif.Base Require Import PyStr PyNum PyVal PyDict Outcome.
From Verif.Model Require Import Warn Lib Convert Input.
From Verif.Spec Require Import Ids Rows.
From Verif.Proofs Require Import TreeInd EmbedFacts RowWf Distinct IdInv Grouping.

(** ** The run *)
Section Run.
  Variable O : opts.
  Notation xml := (o_xml O).
  Notation idn := (o_id_name O).
  Definition stok (st : main_state) : Prop :=
    distinct (map fst st) /\ forall r t, In (r, t) st -> iokt xml idn t.

  Lemma place_stok sheet root d st st' w : stok st -> NoDup (map fst d) -> iokd xml idn d ->
    place O sheet root d st = Ok st' w -> stok st'.
  Proof.
    intros [Hs1 Hs2] Hnd Hd H. unfold place in H. apply bind_ok in H as (k & w1 & w2 & H1 & H2 & _).
    set (t := match kget root st with Some t => t | None => ([], []) end) in *.
    assert (Ht : iokt xml idn t).
    { unfold t. destruct (kget root st) as [t0|] eqn:E; [|apply iokt_nil]. destruct (kget_In _ _ _ E) as (r' & Hin & _). eauto. }
    assert (Hset : forall t', iokt xml idn t' -> stok (kset root t' st)).
    { intros t' Ht'. destruct (kget root st) as [t0|] eqn:E.
      - destruct (kset_old root t' st t0 E) as (a & k' & b & Ea & Eb & _ & _). rewrite Eb. split.
        + rewrite Ea, map_app in Hs1. rewrite map_app. exact Hs1.
        + intros r t1 Hin. apply in_app_or in Hin as [Hin|[Hin|Hin]]; [|congruence|]; eapply Hs2; rewrite Ea; apply in_or_app; [left|right; right]; exact Hin.
      - rewrite kset_new by exact E. split.
        + rewrite map_app. apply distinct_snoc; [exact Hs1|apply kget_none_keys; exact E].
        + intros r t1 Hin. apply in_app_or in Hin as [Hin|[Hin|[]]]; [eauto|congruence]. }
    destruct (match k with Some k0 => _ | None => _ end) as [[k0 old]|] eqn:E.
    - destruct k as [k1|]; [|discriminate]. destruct (kget k1 (fst t)) as [old'|] eqn:G; [|discriminate].
      injection E as -> ->. apply bind_ok in H2 as (new & w3 & w4 & H3 & H4 & _). injection H4 as <- _. apply Hset.
      destruct t as [data nk]. simpl in *.
      assert (Hold : iokd xml idn old).
      { destruct (kget_In _ _ _ G) as (k2 & Hin & _). apply (it_sub _ _ _ Ht). unfold temp_items. simpl. apply in_or_app. left.
        apply in_map_iff. exists (k2, old). auto. }
      eapply iokt_old; [exact Ht|exact G| |].
      + intros k' Hin _. destruct (it_key _ _ _ Ht k' old Hin) as (i & Hi & Hk). exists i. split; [|exact Hk].
        eapply merge_list_id; [exact H3|exact Hi].
      + eapply merge_iok; [exact Hold|exact Hd|exact H3].
    - apply bind_ok in H2 as (t' & w3 & w4 & H3 & H4 & _). injection H4 as <- _. apply Hset.
      eapply temp_append_iok; [exact Ht|exact Hnd|exact Hd|exact H3].
  Qed.
  Lemma rows_iok sheets x : In x (rows_of O sheets) -> NoDup (map fst (r_obj x)) /\ iokd xml idn (r_obj x).
  Proof.
    unfold rows_of. intros H. apply in_flat_map in H as (s & _ & H).
    assert (Hl : forall sheet hs lines j, In x (lines_rows O sheet hs j lines) -> NoDup (map fst (r_obj x)) /\ iokd xml idn (r_obj x)).
    { intros sheet hs lines. induction lines as [|l lines IH]; intros j; cbn [lines_rows]; [intros []|].
      intros Hin. apply in_app_or in Hin as [Hin|Hin]; [|eauto]. unfold line_row in Hin. destruct (forallb _ _); [destruct Hin|].
      destruct (line_cells O sheet hs j 0 l) as [cells w1|e w1]; [|destruct Hin]. simpl in Hin.
      destruct (unflatten_row _ _ _ _ cells) as [d w2|e w2] eqn:E; [|destruct Hin]. destruct Hin as [<-|[]]. simpl.
      eapply row_iok. exact E. }
    unfold sheet_rows in H. destruct (si_headings s) as [[|h hs]|]; [destruct H| |]; eapply Hl; exact H.
  Qed.
  Lemma place_all_stok rs : forall st st' w, stok st -> (forall x, In x rs -> NoDup (map fst (r_obj x)) /\ iokd xml idn (r_obj x)) ->
    place_all O rs st = Ok st' w -> stok st'.
  Proof.
    induction rs as [|x rs IH]; intros st st' w Hst Hr; simpl.
    - intros [= <- _]. exact Hst.
    - intros H. apply bind_ok in H as (s & w1 & w2 & H1 & H2 & _).
      eapply IH; [|intros; apply Hr; right; assumption|exact H2]. destruct (Hr x (or_introl eq_refl)). eapply place_stok; eassumption.
  Qed.
  Lemma run_stok sheets st w : do_sheets O sheets [] = Ok st w -> stok st.
  Proof.
    intros H. apply do_sheets_place in H as (w' & H & _). eapply place_all_stok; [| |exact H].
    - split; [constructor|intros r t []].
    - intros x Hx. eapply rows_iok. exact Hx.
  Qed.

  (** arrays inside the objects *)
  Theorem nested_ids_differ sheets r w : unflatten O sheets = Ok r w ->
    forall o k n l, In o r -> In (k, n) o -> inside (VList l) n -> ids_differ xml idn l.
  Proof.
    intros H o k n l Ho Hk Hl. apply unflatten_items in H as (st & H & ->). apply run_stok in H as [_ Hst].
    apply in_map_iff in Ho as (d & <- & Hd). unfold st_items in Hd. apply in_flat_map in Hd as ([rt t] & Hin & Hd).
    assert (Hi : iokd xml idn d) by (apply (it_sub _ _ _ (Hst _ _ Hin)); exact Hd).
    unfold tvd in Hk. apply in_map_iff in Hk as ([k' n'] & E & Hk). injection E as <- <-.
    eapply iok_inside; [eapply Hi; exact Hk|exact Hl].
  Qed.
  Lemma run_one_root sheets st w : o_root_id O = [] -> do_sheets O sheets [] = Ok st w -> forall k t, In (k, t) st -> k = SNone.
  Proof.
    intros Hroot H.
    apply do_sheets_place in H as (w' & H & _).
      assert (Hr : forall x, In x (rows_of O sheets) -> r_root x = SNone).
      { intros x Hx. unfold rows_of in Hx. apply in_flat_map in Hx as (s & _ & Hx).
        assert (Hl : forall sheet hs lines j, In x (lines_rows O sheet hs j lines) -> r_root x = SNone).
        { intros sheet hs lines. induction lines as [|l lines IH]; intros j; cbn [lines_rows]; [intros []|].
          intros Hin. apply in_app_or in Hin as [Hin|Hin]; [|eauto]. unfold line_row in Hin. destruct (forallb _ _); [destruct Hin|].
          destruct (bind _ _); [|destruct Hin]. destruct Hin as [<-|[]]. simpl. unfold line_root. rewrite Hroot. reflexivity. }
        unfold sheet_rows in Hx. destruct (si_headings s) as [[|h hs]|]; [destruct Hx| |]; eapply Hl; exact Hx. }
      assert (Hall : forall rs st0 st1 w1, (forall x, In x rs -> r_root x = SNone) -> (forall k t, In (k, t) st0 -> k = SNone) ->
                place_all O rs st0 = Ok st1 w1 -> forall k t, In (k, t) st1 -> k = SNone).
      { clear. induction rs as [|x rs IH]; intros st0 st1 w1 Hr H0; simpl; [intros [= <- _]; exact H0|].
        intros H. apply bind_ok in H as (s & w2 & w3 & H1 & H2 & _). eapply IH; [intros; apply Hr; right; assumption| |exact H2].
        assert (Hset : exists t', s = kset (r_root x) t' st0).
        { unfold place in H1. apply bind_ok in H1 as (k & w4 & w5 & _ & H4 & _).
          destruct (match k with Some k0 => _ | None => _ end) as [[k0 old]|];
            apply bind_ok in H4 as (y & w6 & w7 & _ & H5 & _); injection H5 as <- _; eauto. }
        destruct Hset as [t' ->]. intros k t Hin. rewrite (Hr x (or_introl eq_refl)) in Hin.
        pose proof (kset_split SNone t' st0) as S. destruct (kget SNone st0) as [old|].
        - destruct S as (a & k' & b & Ea & Eb & _ & _). rewrite Eb in Hin. subst st0. apply in_app_or in Hin as [Hin|[Hin|Hin]].
          + eapply H0. apply in_or_app. left. exact Hin.
          + injection Hin as <- _. eapply H0. apply in_or_app. right. left. reflexivity.
          + eapply H0. apply in_or_app. right. right. exact Hin.
        - rewrite S in Hin. apply in_app_or in Hin as [Hin|[Hin|[]]]; [eauto|congruence]. }
      eapply Hall; [exact Hr| |exact H]. intros k t [].
  Qed.
  (** the root list *)
  Theorem root_ids_differ sheets r w : o_root_id O = [] -> unflatten O sheets = Ok r w -> ids_differ xml idn r.
  Proof.
    intros Hroot H. apply unflatten_items in H as (st & H & ->). pose proof (run_stok _ _ _ H) as [Hd Hst].
    pose proof (run_one_root _ _ _ Hroot H) as Hkeys.
    destruct st as [|[k1 t1] st].
    - intros a x b y c E. destruct a; discriminate.
    - destruct st as [|[k2 t2] st].
      + unfold st_items. simpl. rewrite app_nil_r. apply iokt_differ. eapply Hst. left. reflexivity.
      + exfalso. inversion Hd as [|? ? H1 H2]; subst. rewrite Forall_forall in H1. specialize (H1 k2 (or_introl eq_refl)).
        rewrite (Hkeys k1 t1 (or_introl eq_refl)), (Hkeys k2 t2 (or_intror (or_introl eq_refl))) in H1. discriminate.
  Qed.

  (** with root ids: every group of the output *)
  Theorem groups_ids_differ sheets out w :
    (forall x, In x (rows_of O sheets) -> row_plain O x) ->
    do_unflatten O sheets = Ok out w ->
    exists groups, out = map dict_to_j (concat groups) /\
      Forall2 (fun r g => group O (filter (has_root r) (rows_of O sheets)) g /\
                          ids_differ xml idn (map (fun d => dict_to_v (dict_to_j d)) g))
        (roots (rows_of O sheets)) groups.
  Proof.
    intros Hp H. apply do_unflatten_items in H as (st & H & ->).
    exists (map (fun e => temp_items (snd e)) st). split; [unfold st_items; rewrite flat_map_concat_map; reflexivity|].
    destruct (run_stok _ _ _ H) as [_ Hst].
    apply do_sheets_place in H as (w' & H & _). pose proof (place_all_ginv _ _ _ _ Hp H) as G.
    unfold ginv, keyed, roots in G. clear H. unfold roots. revert Hst G. set (rs := rows_of O sheets). intros Hst G.
    remember (nub (map r_root rs)) as ks eqn:Eks. clear Eks. revert Hst.
    induction G as [|i e ks' st [_ Hq] _ IH]; simpl; intros Hst; constructor.
    - split; [apply tinv_group; exact Hq|]. rewrite (map_ext _ tvd).
      + apply iokt_differ. destruct e as [r t]. apply (Hst r t). left. reflexivity.
      + intros d. apply dict_to_v_j.
    - apply IH. intros r t Hin. apply (Hst r t). right. exact Hin.
  Qed.
End Run.
