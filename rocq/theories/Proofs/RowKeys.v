(** The keys of the objects built from a row are parts of its headings. *)
From Coq Require Import Permutation.
From Verif.Base Require Import PyStr PyNum PyVal PyDict Outcome.
From Verif.Model Require Import Warn Lib Convert Input.
From Verif.Proofs Require Import TreeInd RowWf.

Section Keys.
  Variable K : str -> Prop.
  Inductive rkey : rnode -> Prop :=
  | rkey_cell c : rkey (RCell c)
  | rkey_dict d : (forall k n, In (k, n) d -> K k /\ rkey n) -> rkey (RDict d)
  | rkey_lad l : (forall i d, In (i, d) l -> forall k n, In (k, n) d -> K k /\ rkey n) -> rkey (RLad l).
  Definition rkeyd (d : rdict) := forall k n, In (k, n) d -> K k /\ rkey n.
  Inductive tkey : tnode -> Prop :=
  | tkey_cell c : tkey (TCell c)
  | tkey_dict d : (forall k n, In (k, n) d -> K k /\ tkey n) -> tkey (TDict d)
  | tkey_temp data nk : (forall d, In d (map snd data ++ nk) -> forall k n, In (k, n) d -> K k /\ tkey n) -> tkey (TTemp data nk).
  Definition tkeyd (d : tdict) := forall k n, In (k, n) d -> K k /\ tkey n.
  Lemma rkey_dict_iff d : rkey (RDict d) <-> rkeyd d.
  Proof. split; [inversion 1; assumption|intros; constructor; assumption]. Qed.
  Lemma tkey_dict_iff d : tkey (TDict d) <-> tkeyd d.
  Proof. split; [inversion 1; assumption|intros; constructor; assumption]. Qed.
  Lemma rkey_lad_iff l : rkey (RLad l) <-> forall i d, In (i, d) l -> rkeyd d.
  Proof. split; [inversion 1; assumption|intros; constructor; assumption]. Qed.
  Lemma tkey_temp_iff data nk : tkey (TTemp data nk) <-> forall d, In d (map snd data ++ nk) -> tkeyd d.
  Proof. split; [inversion 1; assumption|intros; constructor; assumption]. Qed.
  Lemma rkeyd_sset k n d : K k -> rkeyd d -> rkey n -> rkeyd (sset k n d).
  Proof. intros Hk Hd Hn k' n' Hin. apply sset_In in Hin as [E|Hin]; [injection E as <- <-; auto|eauto]. Qed.
  Lemma tkeyd_sset k n d : K k -> tkeyd d -> tkey n -> tkeyd (sset k n d).
  Proof. intros Hk Hd Hn k' n' Hin. apply sset_In in Hin as [E|Hin]; [injection E as <- <-; auto|eauto]. Qed.
  Lemma tkeyd_aupdate e : forall d, tkeyd d -> tkeyd e -> tkeyd (aupdate str_eqb d e).
  Proof.
    unfold aupdate. induction e as [|[k n] e IH]; intros d Hd He; simpl; [exact Hd|].
    destruct (He k n (or_introl eq_refl)). apply IH; [apply tkeyd_sset; assumption|]. intros k' n' Hin. apply He. right. exact Hin.
  Qed.
  Lemma rkey_lad_zset i d l : (forall i d, In (i, d) l -> rkeyd d) -> rkeyd d -> rkey (RLad (zset i d l)).
  Proof.
    intros Hl Hd. apply rkey_lad_iff. intros j e Hin. apply aset_In in Hin as [E|Hin]; [simpl in E; subst; exact Hd|eapply Hl; exact Hin].
  Qed.

  Variable E : conv_env.
  Variable types : str -> str.
  Variable xml : bool.
  Variable idn : str.
  Hypothesis Htext : xml = true -> K text_key.

  Lemma walk_rkey h loc0 rest : (forall x, In x rest -> isint x = false -> K x) -> forall seen v cur cur' w, rkeyd cur ->
    walk E types xml h loc0 seen rest v cur = Ok cur' w -> rkeyd cur'.
  Proof.
    induction rest as [|item rest IH]; intros HK seen v cur cur' w Hcur; cbn [walk].
    - intros [= <- _]. exact Hcur.
    - specialize (IH (fun x Hx => HK x (or_intror Hx))).
      destruct (isint item) eqn:Ei.
      { intros H. apply bind_ok in H as (? & w1 & w2 & _ & H2 & _). eapply IH; eassumption. }
      assert (Hitem : K item) by (apply HK; [left; reflexivity|exact Ei]).
      set (ct := if (xml && _ && _ && _)%bool then _ else _). clearbody ct. set (till := path_till _). set (next := match rest with [] => [] | n :: _ => n end).
      assert (Harr : forall idx,
        match match sget item cur with None => Some [] | Some (RLad l) => Some l | Some _ => None end with
        | Some l =>
          let sub := match zget idx l with Some d => d | None => [] end in
          if (negb xml || (2 <=? Datatypes.length rest)%nat)%bool then
            bind (walk E types xml h loc0 (seen ++ [item]) rest v sub) (fun sub' => ret (sset item (RLad (zset idx sub' l)) cur))
          else bind (convert_type E [] v) (fun conv =>
            let sub1 := if cv_blank conv then sub
                        else if startswith item (u "@") then sset item (RCell (mk_cell conv loc0)) sub
                        else sset text_key (RCell (mk_cell conv loc0)) sub in
            bind (walk E types xml h loc0 (seen ++ [item]) rest conv sub1) (fun sub' => ret (sset item (RLad (zset idx sub' l)) cur)))
        | None => bind (warn1 (WColumnArray h till)) (fun _ => ret cur)
        end = Ok cur' w -> rkeyd cur').
      { intros idx H.
        destruct (match sget item cur with None => Some [] | Some (RLad l) => Some l | Some _ => None end) as [l|] eqn:El.
        2:{ injection H as <- _. exact Hcur. }
        assert (Hl : forall i d, In (i, d) l -> rkeyd d).
        { destruct (sget item cur) as [[c|d|l']|] eqn:Eg; try discriminate El; injection El as <-; [|intros i d []].
          apply sget_In in Eg. destruct (Hcur _ _ Eg) as [_ Hc]. apply rkey_lad_iff. exact Hc. }
        assert (Hsub : rkeyd (match zget idx l with Some d => d | None => [] end)).
        { destruct (zget idx l) eqn:Ez; [apply zget_In in Ez as (j & Hj); eapply Hl; exact Hj|intros ? ? []]. }
        destruct (negb xml || (2 <=? Datatypes.length rest)%nat)%bool eqn:Ex.
        - apply bind_ok in H as (sub' & w1 & w2 & H1 & H2 & _). injection H2 as <- _.
          apply rkeyd_sset; [exact Hitem|exact Hcur|]. apply rkey_lad_zset; [exact Hl|]. eapply IH; [exact Hsub|exact H1].
        - apply orb_false_iff in Ex as [Ex _]. apply negb_false_iff in Ex.
          apply bind_ok in H as (conv & w1 & w2 & H1 & H2 & _).
          apply bind_ok in H2 as (sub' & w3 & w4 & H3 & H4 & _). injection H4 as <- _.
          apply rkeyd_sset; [exact Hitem|exact Hcur|]. apply rkey_lad_zset; [exact Hl|]. eapply IH; [|exact H3].
          destruct (cv_blank conv); [exact Hsub|]. destruct (startswith item (u "@")); (apply rkeyd_sset; [auto|exact Hsub|constructor]). }
      destruct (parse_int next) as [idx|].
      { destruct (negb (is_empty ct) && negb (str_eqb ct (u "array")))%bool; [discriminate|]. apply Harr. }
      destruct (str_eqb ct (u "array")); [apply Harr|].
      destruct (str_eqb ct (u "object") || is_empty ct && negb (is_empty next))%bool.
      { intros H.
        destruct (match sget item cur with None => Some [] | Some (RDict d) => Some d | Some _ => None end) as [sub|] eqn:El.
        2:{ injection H as <- _. exact Hcur. }
        apply bind_ok in H as (sub' & w1 & w2 & H1 & H2 & _). injection H2 as <- _.
        apply rkeyd_sset; [exact Hitem|exact Hcur|]. apply rkey_dict_iff. eapply IH; [|exact H1].
        destruct (sget item cur) as [[c|d|l']|] eqn:Eg; try discriminate El; injection El as <-.
        - apply sget_In in Eg. destruct (Hcur _ _ Eg) as [_ Hc]. apply rkey_dict_iff. exact Hc.
        - intros ? ? []. }
      destruct (negb (is_empty ct) && negb (is_empty next))%bool; [discriminate|].
      assert (Hleaf : forall old, sget item cur = old ->
        bind (convert_type E ct v) (fun conv =>
          bind (if cv_blank conv then ret cur
                else if (negb xml || startswith item (u "@"))%bool then ret (sset item (RCell (mk_cell conv loc0)) cur)
                else match old with
                     | None => ret (sset item (RDict [(text_key, RCell (mk_cell conv loc0))]) cur)
                     | Some (RDict d) => ret (sset item (RDict (sset text_key (RCell (mk_cell conv loc0)) d)) cur)
                     | Some (RCell _) => Raise ETypeError []
                     | Some (RLad _) => Raise ETypeError []
                     end) (fun cur' => walk E types xml h loc0 (seen ++ [item]) rest conv cur')) = Ok cur' w -> rkeyd cur').
      { intros old Hold H. apply bind_ok in H as (conv & w1 & w2 & H1 & H2 & _).
        apply bind_ok in H2 as (cur1 & w3 & w4 & H3 & H4 & _). eapply IH; [|exact H4].
        destruct (cv_blank conv) eqn:Hb; [injection H3 as <- _; exact Hcur|].
        destruct (negb xml || startswith item (u "@"))%bool eqn:Ex; [injection H3 as <- _; apply rkeyd_sset; [exact Hitem|exact Hcur|constructor]|].
        apply orb_false_iff in Ex as [Ex _]. apply negb_false_iff in Ex.
        destruct old as [[c|d|l]|]; try discriminate; injection H3 as <- _; (apply rkeyd_sset; [exact Hitem|exact Hcur|]); apply rkey_dict_iff.
        - apply rkeyd_sset; [auto| |constructor]. apply sget_In in Hold. destruct (Hcur _ _ Hold) as [_ Hc]. apply rkey_dict_iff. exact Hc.
        - intros k n [Ek|[]]. injection Ek as <- <-. split; [auto|constructor]. }
      destruct (sget item cur) as [n|] eqn:Eg; specialize (Hleaf _ eq_refl); intros H.
      + destruct xml.
        * destruct n; apply Hleaf; exact H.
        * destruct n as [c|d|l]; [apply Hleaf; exact H| |];
            (apply bind_ok in H as (? & w1 & w2 & _ & H2 & _); eapply IH; eassumption).
      + destruct xml; apply Hleaf; exact H.
  Qed.
  Lemma build_row_rkey line : (forall h c x, In (h, c) line -> In x (path_items E h) -> isint x = false -> K x) -> forall cur cur' w,
    rkeyd cur -> build_row E types xml line cur = Ok cur' w -> rkeyd cur'.
  Proof.
    induction line as [|[h c] line IH]; intros HK cur cur' w Hcur; cbn [build_row].
    - intros [= <- _]. exact Hcur.
    - assert (HK' : forall h c x, In (h, c) line -> In x (path_items E h) -> isint x = false -> K x) by (intros h' c' x Hin; apply (HK h' c' x); right; exact Hin).
      destruct (cv_blank (c_val c)).
      + apply IH; [exact HK'|exact Hcur].
      + intros H. apply bind_ok in H as (cur1 & w1 & w2 & H1 & H2 & _).
        eapply IH; [exact HK'| |exact H2]. eapply walk_rkey; [|exact Hcur|exact H1]. intros x Hx Hi. eapply HK; [left; reflexivity|exact Hx|exact Hi].
  Qed.

  Lemma temp_append_tkeyd t item t' w :
    (forall d, In d (temp_items t) -> tkeyd d) -> tkeyd item ->
    temp_append xml idn t item = Ok t' w -> forall d, In d (temp_items t') -> tkeyd d.
  Proof.
    destruct t as [data nk]. unfold temp_append, temp_items. cbn [fst snd]. intros Ht Hi H.
    apply bind_ok in H as (k & w1 & w2 & _ & H2 & _). destruct k as [k|].
    - destruct (kget k data) as [old|] eqn:Ek; injection H2 as <- _; cbn [fst snd]; intros d Hd; apply in_app_or in Hd as [Hd|Hd];
        try (apply Ht; apply in_or_app; right; exact Hd).
      + apply in_map_iff in Hd as ([k' d'] & Hd' & Hin). simpl in Hd'. subst d'. apply aset_In in Hin as [Hin|Hin].
        * simpl in Hin. subst d. destruct (kget_In _ _ _ Ek) as (k2 & Hk2 & _). apply tkeyd_aupdate; [|apply Hi].
          apply Ht. apply in_or_app. left. apply in_map_iff. exists (k2, old). auto.
        * apply Ht. apply in_or_app. left. apply in_map_iff. exists (k', d). auto.
      + apply in_map_iff in Hd as ([k' d'] & Hd' & Hin). simpl in Hd'. subst d'. apply aset_In in Hin as [Hin|Hin].
        * simpl in Hin. subst d. exact Hi.
        * apply Ht. apply in_or_app. left. apply in_map_iff. exists (k', d). auto.
    - injection H2 as <- _. cbn [fst snd]. intros d Hd. apply in_app_or in Hd as [Hd|Hd]; [apply Ht; apply in_or_app; auto|].
      apply in_app_or in Hd as [Hd|[<-|[]]]; [apply Ht; apply in_or_app; auto|exact Hi].
  Qed.
  Lemma temp_of_list_tkeyd l : forall t t' w,
    (forall d, In d (temp_items t) -> tkeyd d) -> (forall d, In d l -> tkeyd d) ->
    temp_of_list xml idn t l = Ok t' w -> forall d, In d (temp_items t') -> tkeyd d.
  Proof.
    induction l as [|x l IH]; intros t t' w Ht Hl; cbn [temp_of_list].
    - intros [= <- _]. exact Ht.
    - intros H. apply bind_ok in H as (t1 & w1 & w2 & H1 & H2 & _).
      eapply IH; [|intros; apply Hl; right; assumption|exact H2].
      eapply temp_append_tkeyd; [exact Ht|apply Hl; left; reflexivity|exact H1].
  Qed.

  Definition fin_kok (n : rnode) : Prop := rkey n -> forall n' w, fin xml idn n = Ok n' w -> tkey n'.
  Lemma fin_dict_tkeyd d : Forall (fun kv => fin_kok (snd kv)) d -> rkeyd d ->
    forall d' w, fin_dict (fin xml idn) d = Ok d' w -> tkeyd d'.
  Proof.
    intros HF Hall d' w H. revert d' w H. induction HF as [|[k n] d Hn _ IH]; intros d' w; cbn [fin_dict].
    - intros [= <- _] k n [].
    - assert (Hall' : rkeyd d) by (intros k' n' Hin; apply Hall; right; exact Hin).
      assert (Hgen : bind (fin xml idn n) (fun n' => bind (fin_dict (fin xml idn) d) (fun r => ret ((k, n') :: r))) = Ok d' w -> tkeyd d').
      { intros H. apply bind_ok in H as (n' & w1 & w2 & H1 & H2 & _). apply bind_ok in H2 as (r & w3 & w4 & H3 & H4 & _).
        injection H4 as <- _. intros k2 n2 [E2|Hin].
        - injection E2 as <- <-. destruct (Hall k n (or_introl eq_refl)). split; [assumption|]. eapply Hn; eassumption.
        - eapply IH; eassumption. }
      destruct n as [c|[|x sub]|l]; try exact Hgen. intros H. eapply IH; eassumption.
  Qed.
  Lemma fin_items_tkeyd l : Forall (fun kd : Z * rdict => Forall (fun kv => fin_kok (snd kv)) (snd kd)) l ->
    (forall i d, In (i, d) l -> rkeyd d) ->
    forall l' w, fin_items (fin xml idn) l = Ok l' w -> forall i d, In (i, d) l' -> tkeyd d.
  Proof.
    intros HF. induction HF as [|[i d] l Hd _ IH]; intros Hall l' w; cbn [fin_items].
    - intros [= <- _] i d [].
    - assert (Hgen : bind (fin_dict (fin xml idn) d) (fun d' => bind (fin_items (fin xml idn) l) (fun r => ret ((i, d') :: r))) = Ok l' w ->
                     forall i d, In (i, d) l' -> tkeyd d).
      { intros H. apply bind_ok in H as (d' & w1 & w2 & H1 & H2 & _). apply bind_ok in H2 as (r & w3 & w4 & H3 & H4 & _).
        injection H4 as <- _. intros i2 d2 [E2|Hin].
        - injection E2 as <- <-. eapply fin_dict_tkeyd; [exact Hd|eapply Hall; left; reflexivity|exact H1].
        - eapply IH; [intros; eapply Hall; right; eassumption|exact H3|exact Hin]. }
      destruct d as [|x sub]; [|exact Hgen]. intros H. eapply IH; [intros; eapply Hall; right; eassumption|exact H].
  Qed.
  Lemma fin_tkey n : fin_kok n.
  Proof.
    induction n as [c|d IH|l IH] using rnode_ind'; intros Hr n' w; cbn [fin].
    - intros [= <- _]. constructor.
    - intros H. apply bind_ok in H as (d' & w1 & w2 & H1 & H2 & _). injection H2 as <- _.
      apply tkey_dict_iff. eapply fin_dict_tkeyd; [exact IH|apply rkey_dict_iff; exact Hr|exact H1].
    - intros H. apply bind_ok in H as (l' & w1 & w2 & H1 & H2 & _). apply bind_ok in H2 as (t & w3 & w4 & H3 & H4 & _).
      injection H4 as <- _. apply tkey_temp_iff. pose proof (proj1 (rkey_lad_iff _) Hr) as Hl.
      assert (Hi : forall i d, In (i, d) l' -> tkeyd d).
      { eapply fin_items_tkeyd; [exact IH|intros i d Hin; exact (Hl i d Hin)|exact H1]. }
      eapply temp_of_list_tkeyd; [| |exact H3]; [intros d []|].
      intros d Hd. apply in_map_iff in Hd as ([i d'] & Hd' & Hin). simpl in Hd'. subst d'. eapply Hi.
      eapply Permutation_in; [apply sort_z_perm|exact Hin].
  Qed.
  Theorem unflatten_row_tkeyd line d w : (forall h c x, In (h, c) line -> In x (path_items E h) -> isint x = false -> K x) ->
    unflatten_row E types xml idn line = Ok d w -> tkeyd d.
  Proof.
    intros HK H. unfold unflatten_row in H. apply bind_ok in H as (r & w1 & w2 & H1 & H2 & _).
    eapply fin_dict_tkeyd; [| |exact H2].
    - apply Forall_forall. intros kv _. apply fin_tkey.
    - eapply build_row_rkey; [exact HK| |exact H1]. intros ? ? [].
  Qed.
End Keys.
