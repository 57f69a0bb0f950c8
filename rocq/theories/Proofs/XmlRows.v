(** The shape of what is built from a row for XML: attributes and texts are
    values, everything else is an element or a list of elements. *)
From Coq Require Import Permutation.
From Verif.Base Require Import PyStr PyNum PyVal PyDict Outcome.
From Verif.Model Require Import Warn Lib Convert Input.
From Verif.Spec Require Import Rows.
From Verif.Proofs Require Import TreeInd EmbedFacts RowWf Distinct IdInv Grouping.

Definition single (c : cell) : Prop := exists s, c_val c = CV s.
Section Shape.
  Variables A K : str -> Prop.    (** keys of values, keys of elements *)
  Definition okr (k : str) (n : rnode) : Prop := match n with RCell c => A k /\ single c | _ => K k end.
  Definition okt (k : str) (n : tnode) : Prop := match n with TCell c => A k /\ single c | _ => K k end.
  Inductive rkey : rnode -> Prop :=
  | rkey_cell c : rkey (RCell c)
  | rkey_dict d : NoDup (map fst d) -> (forall k n, In (k, n) d -> okr k n /\ rkey n) -> rkey (RDict d)
  | rkey_lad l : (forall i d, In (i, d) l -> NoDup (map fst d)) -> (forall i d, In (i, d) l -> forall k n, In (k, n) d -> okr k n /\ rkey n) -> rkey (RLad l).
  Definition rkeyd (d : rdict) := NoDup (map fst d) /\ forall k n, In (k, n) d -> okr k n /\ rkey n.
  Inductive tkey : tnode -> Prop :=
  | tkey_cell c : tkey (TCell c)
  | tkey_dict d : NoDup (map fst d) -> (forall k n, In (k, n) d -> okt k n /\ tkey n) -> tkey (TDict d)
  | tkey_temp data nk : (forall d, In d (map snd data ++ nk) -> NoDup (map fst d)) -> (forall d, In d (map snd data ++ nk) -> forall k n, In (k, n) d -> okt k n /\ tkey n) -> tkey (TTemp data nk).
  Definition tkeyd (d : tdict) := NoDup (map fst d) /\ forall k n, In (k, n) d -> okt k n /\ tkey n.
  Lemma rkey_dict_iff d : rkey (RDict d) <-> rkeyd d.
  Proof. split; [inversion 1; split; assumption|intros []; constructor; assumption]. Qed.
  Lemma tkey_dict_iff d : tkey (TDict d) <-> tkeyd d.
  Proof. split; [inversion 1; split; assumption|intros []; constructor; assumption]. Qed.
  Lemma rkey_lad_iff l : rkey (RLad l) <-> forall i d, In (i, d) l -> rkeyd d.
  Proof. split; [inversion 1 as [| |? H1 H2]; subst; intros i d Hin; split; [eapply H1|eapply H2]; exact Hin|intros H; constructor; intros i d Hin; destruct (H i d Hin); assumption]. Qed.
  Lemma tkey_temp_iff data nk : tkey (TTemp data nk) <-> forall d, In d (map snd data ++ nk) -> tkeyd d.
  Proof. split; [inversion 1 as [| |? ? H1 H2]; subst; intros d Hin; split; [eapply H1|eapply H2]; exact Hin|intros H; constructor; intros d Hin; destruct (H d Hin); assumption]. Qed.
  Lemma rkeyd_nil : rkeyd [].
  Proof. split; [constructor|intros ? ? []]. Qed.
  Lemma rkeyd_sset k n d : okr k n -> rkeyd d -> rkey n -> rkeyd (sset k n d).
  Proof. intros Hk [Hd1 Hd] Hn. split; [apply sset_NoDup; exact Hd1|]. intros k' n' Hin. apply sset_In in Hin as [E|Hin]; [injection E as <- <-; auto|eauto]. Qed.
  Lemma tkeyd_sset k n d : okt k n -> tkeyd d -> tkey n -> tkeyd (sset k n d).
  Proof. intros Hk [Hd1 Hd] Hn. split; [apply sset_NoDup; exact Hd1|]. intros k' n' Hin. apply sset_In in Hin as [E|Hin]; [injection E as <- <-; auto|eauto]. Qed.
  Lemma tkeyd_aupdate e : forall d, tkeyd d -> (forall k n, In (k, n) e -> okt k n /\ tkey n) -> tkeyd (aupdate str_eqb d e).
  Proof.
    unfold aupdate. induction e as [|[k n] e IH]; intros d Hd He; simpl; [exact Hd|].
    destruct (He k n (or_introl eq_refl)). apply IH; [apply tkeyd_sset; assumption|]. intros k' n' Hin. apply He. right. exact Hin.
  Qed.
  Lemma rkey_lad_zset i d l : (forall i d, In (i, d) l -> rkeyd d) -> rkeyd d -> rkey (RLad (zset i d l)).
  Proof.
    intros Hl Hd. apply rkey_lad_iff. intros j e Hin. apply aset_In in Hin as [E|Hin]; [simpl in E; subst; exact Hd|eapply Hl; exact Hin].
  Qed.

  Variable E : conv_env.
  Variable types : str -> str.
  Notation xml := true.
  Variable idn : str.
  Hypothesis Htypes : forall p, types p = [].
  Hypothesis Htext : A text_key.
  Hypothesis HKA : forall k, K k -> startswith k (u "@") = false.
  (** names on the way are those of elements; the last may be an attribute *)
  Definition parts_ok (l : list str) : Prop :=
    forall pre x post, l = pre ++ x :: post -> isint x = false -> K x \/ (post = [] /\ startswith x (u "@") = true /\ A x).

  Lemma convert_single ty s c w : ty = [] \/ ty = u "date" -> convert_type E ty (CV s) = Ok c w -> exists s', c = CV s'.
  Proof.
    intros Hty. unfold convert_type. destruct (cv_blank (CV s)); [intros [= <- _]; eauto|].
    assert (N1 : str_eqb ty (u "number") = false) by (destruct Hty as [->| ->]; reflexivity).
    assert (N2 : str_eqb ty (u "integer") = false) by (destruct Hty as [->| ->]; reflexivity).
    assert (N3 : str_eqb ty (u "boolean") = false) by (destruct Hty as [->| ->]; reflexivity).
    assert (N4 : str_mem ty [u "array"; u "array_array"; u "string_array"; u "number_array"] = false) by (destruct Hty as [->| ->]; reflexivity).
    assert (N5 : str_eqb ty (u "string") = false) by (destruct Hty as [->| ->]; reflexivity).
    assert (N6 : str_eqb ty (u "geojson") = false) by (destruct Hty as [->| ->]; reflexivity).
    cbv zeta. rewrite N1, N2, N3, N4, N5, N6, andb_false_r. generalize (cv_str E (ce_repr E) (CV s)). intros sv H.
    destruct (str_eqb ty (u "date")); [destruct s; injection H as <- _; eauto|].
    destruct ty as [|c0 ty]; [|discriminate H]. destruct s as [| | | |f| |]; try (injection H as <- _; eauto).
    destruct f as [n m e| |]; try discriminate H. destruct (py_eqb _ _); injection H as <- _; eauto.
  Qed.

  Lemma walk_rkey h loc0 rest : parts_ok rest -> forall seen s cur cur' w, rkeyd cur ->
    walk E types xml h loc0 seen rest (CV s) cur = Ok cur' w -> rkeyd cur'.
  Proof.
    induction rest as [|item rest IH]; intros HK seen s cur cur' w Hcur; cbn [walk].
    - intros [= <- _]. exact Hcur.
    - assert (HK' : parts_ok rest) by (intros pre x post E1 Hx; apply (HK (item :: pre) x post); [rewrite E1; reflexivity|exact Hx]).
      specialize (IH HK').
      destruct (isint item) eqn:Ei.
      { intros H. apply bind_ok in H as (? & w1 & w2 & _ & H2 & _). eapply IH; eassumption. }
      pose proof (HK [] item rest eq_refl Ei) as Hitem.
      rewrite Htypes. set (v := CV s) in *.
      set (ct := if (xml && _ && _ && _)%bool then _ else _).
      assert (Hct : ct = [] \/ ct = u "date") by (unfold ct; destruct (xml && _ && _ && _)%bool; auto). clearbody ct.
      set (till := path_till _). 
      assert (Hnext : (match rest with [] => [] | n :: _ => n end) <> [] -> rest <> []) by (destruct rest; congruence).
      set (next := match rest with [] => [] | n :: _ => n end) in *.
      assert (Harr : rest <> [] -> forall idx,
        match match sget item cur with None => Some [] | Some (RLad l) => Some l | Some _ => None end with
        | Some l =>
          let sub := match zget idx l with Some d => d | None => [] end in
          if (negb xml || (2 <=? Datatypes.length rest)%nat)%bool then
            bind (walk E types xml h loc0 (seen ++ [item]) rest v sub) (fun sub' => ret (sset item (RLad (zset idx sub' l)) cur))
          else bind (convert_type E [] v) (fun conv =>
            let sub1 := if cv_blank conv then sub
                        else if startswith item (u "@") then sset item (RCell (mk_cell conv loc0)) sub
                        else sset text_key (RCell (mk_cell conv loc0)) sub in
            bind (walk E types xml h loc0 (seen ++ [item]) rest conv sub1) (fun sub' => ret (sset item (RLad (zset idx sub' l)) cur)))
        | None => bind (warn1 (WColumnArray h till)) (fun _ => ret cur)
        end = Ok cur' w -> rkeyd cur').
      { intros Hne idx H. assert (HKi : K item) by (destruct Hitem as [X|(X & _)]; [exact X|contradiction]).
        destruct (match sget item cur with None => Some [] | Some (RLad l) => Some l | Some _ => None end) as [l|] eqn:El.
        2:{ injection H as <- _. exact Hcur. }
        assert (Hl : forall i d, In (i, d) l -> rkeyd d).
        { destruct (sget item cur) as [[c|d|l']|] eqn:Eg; try discriminate El; injection El as <-; [|intros i d []].
          apply sget_In in Eg. destruct (proj2 Hcur _ _ Eg) as [_ Hc]. apply rkey_lad_iff. exact Hc. }
        assert (Hsub : rkeyd (match zget idx l with Some d => d | None => [] end)).
        { destruct (zget idx l) eqn:Ez; [apply zget_In in Ez as (j & Hj); eapply Hl; exact Hj|apply rkeyd_nil]. }
        destruct (negb xml || (2 <=? Datatypes.length rest)%nat)%bool eqn:Ex.
        - apply bind_ok in H as (sub' & w1 & w2 & H1 & H2 & _). injection H2 as <- _.
          apply rkeyd_sset; [exact HKi|exact Hcur|]. apply rkey_lad_zset; [exact Hl|]. eapply IH; [exact Hsub|exact H1].
        - apply bind_ok in H as (conv & w1 & w2 & H1 & H2 & _). destruct (convert_single [] s conv w1 (or_introl eq_refl) H1) as (s' & ->).
          apply bind_ok in H2 as (sub' & w3 & w4 & H3 & H4 & _). injection H4 as <- _.
          apply rkeyd_sset; [exact HKi|exact Hcur|]. apply rkey_lad_zset; [exact Hl|]. eapply IH; [|exact H3].
          destruct (cv_blank (CV s')); [exact Hsub|]. rewrite (HKA _ HKi). apply rkeyd_sset; [split; [exact Htext|eexists; reflexivity]|exact Hsub|constructor]. }
      destruct (parse_int next) as [idx|] eqn:Ep.
      { destruct (negb (is_empty ct) && negb (str_eqb ct (u "array")))%bool; [discriminate|]. apply Harr. apply Hnext. intros X. rewrite X in Ep. discriminate Ep. }
      assert (Na : str_eqb ct (u "array") = false) by (destruct Hct as [->| ->]; reflexivity). rewrite Na.
      assert (No : str_eqb ct (u "object") = false) by (destruct Hct as [->| ->]; reflexivity). rewrite No.
      destruct (false || is_empty ct && negb (is_empty next))%bool eqn:Eo.
      { assert (HKi : K item).
        { destruct Hitem as [X|(X & _)]; [exact X|]. exfalso. cbn [orb] in Eo. apply andb_true_iff in Eo as [_ Eo]. subst rest. discriminate Eo. }
        intros H.
        destruct (match sget item cur with None => Some [] | Some (RDict d) => Some d | Some _ => None end) as [sub|] eqn:El.
        2:{ injection H as <- _. exact Hcur. }
        apply bind_ok in H as (sub' & w1 & w2 & H1 & H2 & _). injection H2 as <- _.
        apply rkeyd_sset; [exact HKi|exact Hcur|]. apply rkey_dict_iff. eapply IH; [|exact H1].
        destruct (sget item cur) as [[c|d|l']|] eqn:Eg; try discriminate El; injection El as <-.
        - apply sget_In in Eg. destruct (proj2 Hcur _ _ Eg) as [_ Hc]. apply rkey_dict_iff. exact Hc.
        - apply rkeyd_nil. }
      destruct (negb (is_empty ct) && negb (is_empty next))%bool; [discriminate|].
      assert (Hleaf : forall old, sget item cur = old ->
        bind (convert_type E ct v) (fun conv =>
          bind (if cv_blank conv then ret cur
                else if (negb xml || startswith item (u "@"))%bool then ret (sset item (RCell (mk_cell conv loc0)) cur)
                else match old with
                     | None => ret (sset item (RDict [(text_key, RCell (mk_cell conv loc0))]) cur)
                     | Some (RDict d) => ret (sset item (RDict (sset text_key (RCell (mk_cell conv loc0)) d)) cur)
                     | Some (RCell _) => Raise ETypeError []
                     | Some (RLad _) => Raise ETypeError []
                     end) (fun cur' => walk E types xml h loc0 (seen ++ [item]) rest conv cur')) = Ok cur' w -> rkeyd cur').
      { intros old Hold H. apply bind_ok in H as (conv & w1 & w2 & H1 & H2 & _). destruct (convert_single ct s conv w1 Hct H1) as (s' & ->).
        assert (Sc : single (mk_cell (CV s') loc0)) by (eexists; reflexivity).
        apply bind_ok in H2 as (cur1 & w3 & w4 & H3 & H4 & _). eapply IH; [|exact H4].
        destruct (cv_blank (CV s')); [injection H3 as <- _; exact Hcur|]. cbn [negb orb] in H3.
        destruct (startswith item (u "@")) eqn:Es.
        { injection H3 as <- _. apply rkeyd_sset; [|exact Hcur|constructor]. split; [|exact Sc]. destruct Hitem as [X|(_ & _ & X)]; [|exact X]. rewrite (HKA _ X) in Es. discriminate Es. }
        assert (HKi : K item) by (destruct Hitem as [X|(_ & X & _)]; [exact X|congruence]).
        destruct old as [[c|d|l]|]; try discriminate; injection H3 as <- _; (apply rkeyd_sset; [exact HKi|exact Hcur|]); apply rkey_dict_iff.
        - apply rkeyd_sset; [split; assumption| |constructor]. apply sget_In in Hold. destruct (proj2 Hcur _ _ Hold) as [_ Hc]. apply rkey_dict_iff. exact Hc.
        - split; [constructor; [intros []|constructor]|]. intros k n [Ek|[]]. injection Ek as <- <-. split; [split; assumption|constructor]. }
      destruct (sget item cur) as [n|] eqn:Eg; specialize (Hleaf _ eq_refl); intros H; [destruct n|]; apply Hleaf; exact H.
  Qed.
  Lemma build_row_rkey line : (forall h c, In (h, c) line -> parts_ok (path_items E h) /\ single c) -> forall cur cur' w,
    rkeyd cur -> build_row E types xml line cur = Ok cur' w -> rkeyd cur'.
  Proof.
    induction line as [|[h c] line IH]; intros HK cur cur' w Hcur; cbn [build_row].
    - intros [= <- _]. exact Hcur.
    - assert (HK' : forall h c, In (h, c) line -> parts_ok (path_items E h) /\ single c) by (intros h' c' Hin; apply HK; right; exact Hin).
      destruct (cv_blank (c_val c)).
      + apply IH; [exact HK'|exact Hcur].
      + intros H. apply bind_ok in H as (cur1 & w1 & w2 & H1 & H2 & _). destruct (HK h c (or_introl eq_refl)) as [Hp (s & Hs)]. rewrite Hs in H1.
        eapply IH; [exact HK'| |exact H2]. eapply walk_rkey; [exact Hp|exact Hcur|exact H1].
  Qed.

  Lemma temp_append_tkeyd t item t' w :
    (forall d, In d (temp_items t) -> tkeyd d) -> tkeyd item ->
    temp_append xml idn t item = Ok t' w -> forall d, In d (temp_items t') -> tkeyd d.
  Proof.
    destruct t as [data nk]. unfold temp_append, temp_items. cbn [fst snd]. intros Ht Hi H.
    apply bind_ok in H as (k & w1 & w2 & _ & H2 & _). destruct k as [k|].
    - destruct (kget k data) as [old|] eqn:Ek; injection H2 as <- _; cbn [fst snd]; intros d Hd; apply in_app_or in Hd as [Hd|Hd];
        try (apply Ht; apply in_or_app; right; exact Hd).
      + apply in_map_iff in Hd as ([k' d'] & Hd' & Hin). simpl in Hd'. subst d'. apply aset_In in Hin as [Hin|Hin].
        * simpl in Hin. subst d. destruct (kget_In _ _ _ Ek) as (k2 & Hk2 & _). apply tkeyd_aupdate; [|apply (proj2 Hi)].
          apply Ht. apply in_or_app. left. apply in_map_iff. exists (k2, old). auto.
        * apply Ht. apply in_or_app. left. apply in_map_iff. exists (k', d). auto.
      + apply in_map_iff in Hd as ([k' d'] & Hd' & Hin). simpl in Hd'. subst d'. apply aset_In in Hin as [Hin|Hin].
        * simpl in Hin. subst d. exact Hi.
        * apply Ht. apply in_or_app. left. apply in_map_iff. exists (k', d). auto.
    - injection H2 as <- _. cbn [fst snd]. intros d Hd. apply in_app_or in Hd as [Hd|Hd]; [apply Ht; apply in_or_app; auto|].
      apply in_app_or in Hd as [Hd|[<-|[]]]; [apply Ht; apply in_or_app; auto|exact Hi].
  Qed.
  Lemma temp_of_list_tkeyd l : forall t t' w,
    (forall d, In d (temp_items t) -> tkeyd d) -> (forall d, In d l -> tkeyd d) ->
    temp_of_list xml idn t l = Ok t' w -> forall d, In d (temp_items t') -> tkeyd d.
  Proof.
    induction l as [|x l IH]; intros t t' w Ht Hl; cbn [temp_of_list].
    - intros [= <- _]. exact Ht.
    - intros H. apply bind_ok in H as (t1 & w1 & w2 & H1 & H2 & _).
      eapply IH; [|intros; apply Hl; right; assumption|exact H2].
      eapply temp_append_tkeyd; [exact Ht|apply Hl; left; reflexivity|exact H1].
  Qed.

  Definition fin_kok (n : rnode) : Prop := rkey n -> forall n' w, fin xml idn n = Ok n' w -> tkey n'.
  Lemma fin_same k n n' w : fin xml idn n = Ok n' w -> okr k n -> okt k n'.
  Proof.
    destruct n as [c|d|l]; cbn [fin]; intros H Ho.
    - injection H as <- _. exact Ho.
    - apply bind_ok in H as (d' & w1 & w2 & _ & H2 & _). injection H2 as <- _. exact Ho.
    - apply bind_ok in H as (l' & w1 & w2 & _ & H2 & _). apply bind_ok in H2 as (t & w3 & w4 & _ & H4 & _). injection H4 as <- _. exact Ho.
  Qed.
  Lemma fin_dict_tkeyd d : Forall (fun kv => fin_kok (snd kv)) d -> rkeyd d ->
    forall d' w, fin_dict (fin xml idn) d = Ok d' w -> tkeyd d'.
  Proof.
    intros HF [Hnd Hall] d' w H. split; [eapply fin_dict_NoDup; eassumption|]. clear Hnd. revert d' w H. induction HF as [|[k n] d Hn _ IH]; intros d' w; cbn [fin_dict].
    - intros [= <- _] k n [].
    - assert (Hall' : forall k n, In (k, n) d -> okr k n /\ rkey n) by (intros k' n' Hin; apply Hall; right; exact Hin).
      assert (Hgen : bind (fin xml idn n) (fun n' => bind (fin_dict (fin xml idn) d) (fun r => ret ((k, n') :: r))) = Ok d' w -> forall k n, In (k, n) d' -> okt k n /\ tkey n).
      { intros H. apply bind_ok in H as (n' & w1 & w2 & H1 & H2 & _). apply bind_ok in H2 as (r & w3 & w4 & H3 & H4 & _).
        injection H4 as <- _. intros k2 n2 [E2|Hin].
        - injection E2 as <- <-. destruct (Hall k n (or_introl eq_refl)). split; [eapply fin_same; eassumption|]. eapply Hn; eassumption.
        - eapply IH; eassumption. }
      destruct n as [c|[|x sub]|l]; try exact Hgen. intros H. eapply IH; eassumption.
  Qed.
  Lemma fin_items_tkeyd l : Forall (fun kd : Z * rdict => Forall (fun kv => fin_kok (snd kv)) (snd kd)) l ->
    (forall i d, In (i, d) l -> rkeyd d) ->
    forall l' w, fin_items (fin xml idn) l = Ok l' w -> forall i d, In (i, d) l' -> tkeyd d.
  Proof.
    intros HF. induction HF as [|[i d] l Hd _ IH]; intros Hall l' w; cbn [fin_items].
    - intros [= <- _] i d [].
    - assert (Hgen : bind (fin_dict (fin xml idn) d) (fun d' => bind (fin_items (fin xml idn) l) (fun r => ret ((i, d') :: r))) = Ok l' w ->
                     forall i d, In (i, d) l' -> tkeyd d).
      { intros H. apply bind_ok in H as (d' & w1 & w2 & H1 & H2 & _). apply bind_ok in H2 as (r & w3 & w4 & H3 & H4 & _).
        injection H4 as <- _. intros i2 d2 [E2|Hin].
        - injection E2 as <- <-. eapply fin_dict_tkeyd; [exact Hd|eapply Hall; left; reflexivity|exact H1].
        - eapply IH; [intros; eapply Hall; right; eassumption|exact H3|exact Hin]. }
      destruct d as [|x sub]; [|exact Hgen]. intros H. eapply IH; [intros; eapply Hall; right; eassumption|exact H].
  Qed.
  Lemma fin_tkey n : fin_kok n.
  Proof.
    induction n as [c|d IH|l IH] using rnode_ind'; intros Hr n' w; cbn [fin].
    - intros [= <- _]. constructor.
    - intros H. apply bind_ok in H as (d' & w1 & w2 & H1 & H2 & _). injection H2 as <- _.
      apply tkey_dict_iff. eapply fin_dict_tkeyd; [exact IH|apply rkey_dict_iff; exact Hr|exact H1].
    - intros H. apply bind_ok in H as (l' & w1 & w2 & H1 & H2 & _). apply bind_ok in H2 as (t & w3 & w4 & H3 & H4 & _).
      injection H4 as <- _. apply tkey_temp_iff. pose proof (proj1 (rkey_lad_iff _) Hr) as Hl.
      assert (Hi : forall i d, In (i, d) l' -> tkeyd d).
      { eapply fin_items_tkeyd; [exact IH|intros i d Hin; exact (Hl i d Hin)|exact H1]. }
      eapply temp_of_list_tkeyd; [| |exact H3]; [intros d []|].
      intros d Hd. apply in_map_iff in Hd as ([i d'] & Hd' & Hin). simpl in Hd'. subst d'. eapply Hi.
      eapply Permutation_in; [apply sort_z_perm|exact Hin].
  Qed.
  Theorem unflatten_row_tkeyd line d w : (forall h c, In (h, c) line -> parts_ok (path_items E h) /\ single c) ->
    unflatten_row E types xml idn line = Ok d w -> tkeyd d.
  Proof.
    intros HK H. unfold unflatten_row in H. apply bind_ok in H as (r & w1 & w2 & H1 & H2 & _).
    eapply fin_dict_tkeyd; [| |exact H2].
    - apply Forall_forall. intros kv _. apply fin_tkey.
    - eapply build_row_rkey; [exact HK| |exact H1]. apply rkeyd_nil.
  Qed.

  (** ** merging *)
  Section Merge.
    Variable dbg : debug.
    Definition mok (v : tnode) : Prop := forall k base base' w, tkeyd base -> okt k v -> tkey v -> merge_item dbg k v base = Ok base' w -> tkeyd base'.
    Lemma merge_list_ok m : Forall (fun kv => mok (snd kv)) m -> (forall k n, In (k, n) m -> okt k n /\ tkey n) ->
      forall base base' w, tkeyd base -> merge_list (merge_item dbg) m base = Ok base' w -> tkeyd base'.
    Proof.
      induction 1 as [|[k v] m Hv _ IH]; intros Hm base base' w Hb; cbn [merge_list].
      - intros [= <- _]. exact Hb.
      - intros H. apply bind_ok in H as (b1 & w1 & w2 & H1 & H2 & _). eapply IH; [intros k' n' Hin; eapply Hm; right; exact Hin| |exact H2].
        destruct (Hm k v (or_introl eq_refl)). eapply Hv; [exact Hb|eassumption|eassumption|exact H1].
    Qed.
    Lemma kset_values {V} k (v : V) d x : In x (map snd (kset k v d)) -> x = v \/ In x (map snd d).
    Proof. intros H. apply in_map_iff in H as ([k' y] & <- & Hin). apply aset_In in Hin as [Hin|Hin]; [left; exact Hin|right; apply in_map_iff; eauto]. Qed.
    Lemma merge_data_ok data : Forall (fun kd => Forall (fun kv => mok (snd kv)) (snd kd)) data ->
      (forall d, In d (map snd data) -> tkeyd d) ->
      forall bdata bdata' w, (forall d, In d (map snd bdata) -> tkeyd d) -> merge_data (merge_item dbg) data bdata = Ok bdata' w -> forall d, In d (map snd bdata') -> tkeyd d.
    Proof.
      induction 1 as [|[k d] data Hd _ IH]; intros Hm bdata bdata' w Hb; cbn [merge_data].
      - intros [= <- _]. exact Hb.
      - pose proof (Hm d (or_introl eq_refl)) as Hdk.
        assert (Hm' : forall d, In d (map snd data) -> tkeyd d) by (intros d0 H0; apply Hm; right; exact H0).
        destruct (kget k bdata) as [b|] eqn:G.
        + intros H. apply bind_ok in H as (b' & w1 & w2 & H1 & H2 & _). eapply IH; [exact Hm'| |exact H2].
          destruct (kget_In _ _ _ G) as (k2 & Hin2 & _). intros x Hx. apply kset_values in Hx as [->|Hx]; [|apply Hb; exact Hx].
          eapply merge_list_ok; [exact Hd|exact (proj2 Hdk)| |exact H1]. apply Hb. apply in_map_iff. exists (k2, b). auto.
        + intros H. eapply IH; [exact Hm'| |exact H]. intros x Hx. apply kset_values in Hx as [->|Hx]; auto.
    Qed.
    Lemma merge_item_ok v : mok v.
    Proof.
      induction v as [c|d IH|data nk IHd IHn] using tnode_ind'; intros k base base' w Hb Ho Hv; cbn [merge_item];
        (destruct (sget k base) as [b|] eqn:Eb; [|intros [= <- _]; apply tkeyd_sset; assumption]).
      - destruct (c_val c); destruct b as [bc|bd|bdata bnk];
          try (intros [= <- _]; exact Hb);
          (destruct (cv_eqb _ _); intros [= <- _]; [|exact Hb]; apply tkeyd_sset; [|exact Hb|constructor];
           apply sget_In in Eb; destruct (proj2 Hb _ _ Eb) as [X _]; exact X).
      - destruct b as [bc|bd|bdata bnk]; try (intros [= <- _]; exact Hb).
        intros H. apply bind_ok in H as (bd' & w1 & w2 & H1 & H2 & _). injection H2 as <- _. apply tkeyd_sset; [exact Ho|exact Hb|].
        apply tkey_dict_iff. eapply merge_list_ok; [exact IH|apply tkey_dict_iff in Hv; exact (proj2 Hv)| |exact H1].
        apply sget_In in Eb. apply tkey_dict_iff. exact (proj2 (proj2 Hb _ _ Eb)).
      - destruct b as [bc|bd|bdata bnk]; try (intros [= <- _]; exact Hb).
        intros H. apply bind_ok in H as (bd' & w1 & w2 & H1 & H2 & _). injection H2 as <- _. apply tkeyd_sset; [exact Ho|exact Hb|].
        apply sget_In in Eb. pose proof (proj1 (tkey_temp_iff _ _) (proj2 (proj2 Hb _ _ Eb))) as Hbt. pose proof (proj1 (tkey_temp_iff _ _) Hv) as Hvt.
        apply tkey_temp_iff. intros x Hx. apply in_app_or in Hx as [Hx|Hx].
        + eapply merge_data_ok; [exact IHd| | |exact H1|exact Hx]; intros y Hy; [apply Hvt|apply Hbt]; apply in_or_app; left; exact Hy.
        + apply in_app_or in Hx as [Hx|Hx]; [apply Hbt|apply Hvt]; apply in_or_app; right; exact Hx.
    Qed.
    Lemma merge_ok base m base' w : tkeyd base -> tkeyd m -> merge dbg base m = Ok base' w -> tkeyd base'.
    Proof. intros Hb Hm. apply merge_list_ok; [|exact (proj2 Hm)|exact Hb]. apply Forall_forall. intros kv _. apply merge_item_ok. Qed.
  End Merge.
End Shape.

(** ** the run *)
Section Run.
  Variables (A K : str -> Prop) (O : opts) (sheets : list sheet_in).
  Hypothesis Hx : o_xml O = true.
  Hypothesis Htypes : forall p, o_types O p = [].
  Hypothesis Htext : A text_key.
  Hypothesis HKA : forall k, K k -> startswith k (u "@") = false.
  Hypothesis Hh : forall s l h v, In s sheets -> In l (si_lines s) -> In (h, v) l -> parts_ok A K (path_items (o_conv O) h).
  Definition state_ok (st : main_state) : Prop := forall r t, In (r, t) st -> forall d, In d (temp_items t) -> tkeyd A K d.
  Lemma line_cells_single sheet hs j line : forall k cells w, line_cells O sheet hs j k line = Ok cells w -> forall h c, In (h, c) cells -> single c /\ exists v, In (h, v) line.
  Proof.
    induction line as [|[h0 v0] line IH]; intros k cells w; cbn [line_cells].
    - intros [= <- _] h c [].
    - intros H. apply bind_ok in H as (hd0 & w1 & w2 & _ & H & _). apply bind_ok in H as (r & w3 & w4 & H3 & H4 & _). injection H4 as <- _.
      intros h c [[= <- <-]|Hin]; [split; [eexists; reflexivity|exists v0; left; reflexivity]|]. destruct (IH _ _ _ H3 h c Hin) as (S1 & v & Hv). split; [exact S1|]. exists v. right. exact Hv.
  Qed.
  Lemma rows_ok x : In x (rows_of O sheets) -> tkeyd A K (r_obj x).
  Proof.
    unfold rows_of. intros H. apply in_flat_map in H as (s & Hs & H).
    assert (Hl : forall sheet hs lines j, (forall l, In l lines -> In l (si_lines s)) -> In x (lines_rows O sheet hs j lines) -> tkeyd A K (r_obj x)).
    { intros sheet hs lines. induction lines as [|l lines IH]; intros j Hi; cbn [lines_rows]; [intros []|].
      intros Hin. apply in_app_or in Hin as [Hin|Hin]; [|eapply IH; [|exact Hin]; intros; apply Hi; right; assumption]. unfold line_row in Hin. destruct (forallb _ _); [destruct Hin|].
      destruct (line_cells O sheet hs j 0 l) as [cells w1|e w1] eqn:Ec; [|destruct Hin]. simpl in Hin.
      destruct (unflatten_row _ _ _ _ cells) as [d w2|e w2] eqn:E; [|destruct Hin]. destruct Hin as [<-|[]]. simpl. rewrite Hx in E.
      eapply unflatten_row_tkeyd; [exact Htypes|exact Htext|exact HKA| |exact E]. intros h c Hin. destruct (line_cells_single _ _ _ _ _ _ _ Ec h c Hin) as (S1 & v & Hv).
      split; [|exact S1]. eapply Hh; [exact Hs|apply Hi; left; reflexivity|exact Hv]. }
    unfold sheet_rows in H. destruct (si_headings s) as [[|h hs]|]; [destruct H| |]; (eapply Hl; [|exact H]; auto).
  Qed.
  Lemma place_ok sheet root d st st' w : state_ok st -> tkeyd A K d -> place O sheet root d st = Ok st' w -> state_ok st'.
  Proof.
    intros Hs Hd H. unfold place in H. rewrite Hx in H. apply bind_ok in H as (k & w1 & w2 & _ & H2 & _).
    set (t := match kget root st with Some t => t | None => ([], []) end) in *.
    assert (Ht : forall d, In d (temp_items t) -> tkeyd A K d).
    { unfold t. destruct (kget root st) as [t0|] eqn:E; [|intros ? []]. destruct (kget_In _ _ _ E) as (r' & Hin & _). eapply Hs. exact Hin. }
    assert (Hset : forall t', (forall d, In d (temp_items t') -> tkeyd A K d) -> state_ok (kset root t' st)).
    { intros t' Ht' r t1 Hin. apply aset_In in Hin as [Hin|Hin]; [cbn [snd] in Hin; subst t1; exact Ht'|eapply Hs; exact Hin]. }
    destruct (match k with Some k0 => _ | None => _ end) as [[k0 old]|] eqn:E.
    - destruct k as [k1|]; [|discriminate]. destruct (kget k1 (fst t)) as [old'|] eqn:G; [|discriminate].
      injection E as -> ->. apply bind_ok in H2 as (new & w3 & w4 & H3 & H4 & _). injection H4 as <- _. apply Hset.
      destruct (kget_In _ _ _ G) as (k2 & Hin & _).
      assert (Hn : tkeyd A K new).
      { eapply merge_ok; [|exact Hd|exact H3]. apply Ht. unfold temp_items. apply in_or_app. left. apply in_map_iff. exists (k2, old). auto. }
      intros x Hin'. unfold temp_items in Hin'. cbn [fst snd] in Hin'. apply in_app_or in Hin' as [Hin'|Hin'].
      + apply kset_values in Hin' as [->|Hin']; [exact Hn|]. apply Ht. unfold temp_items. apply in_or_app. left. exact Hin'.
      + apply Ht. unfold temp_items. apply in_or_app. right. exact Hin'.
    - apply bind_ok in H2 as (t' & w3 & w4 & H3 & H4 & _). injection H4 as <- _. apply Hset. intros x Hin.
      eapply temp_append_tkeyd; [exact Ht|exact Hd|exact H3|exact Hin].
  Qed.
  Lemma place_all_ok rs : forall st st' w, state_ok st -> (forall x, In x rs -> tkeyd A K (r_obj x)) -> place_all O rs st = Ok st' w -> state_ok st'.
  Proof.
    induction rs as [|x rs IH]; intros st st' w Hst Hr; simpl.
    - intros [= <- _]. exact Hst.
    - intros H. apply bind_ok in H as (s & w1 & w2 & H1 & H2 & _).
      eapply IH; [|intros; apply Hr; right; assumption|exact H2]. eapply place_ok; [exact Hst|apply Hr; left; reflexivity|exact H1].
  Qed.
  Theorem records_ok r w : unflatten O sheets = Ok r w -> exists l, r = map tvd l /\ forall d, In d l -> tkeyd A K d.
  Proof.
    intros H. apply unflatten_items in H as (st & H & ->). exists (st_items st). split; [reflexivity|].
    apply do_sheets_place in H as (w' & H & _).
    assert (S1 : state_ok st) by (eapply place_all_ok; [|intros x Hin; apply rows_ok; exact Hin|exact H]; intros ? ? []).
    intros d Hd. unfold st_items in Hd. apply in_flat_map in Hd as ([rt t] & Hin & Hd). exact (S1 _ _ Hin d Hd).
  Qed.
End Run.
