(** Structural invariants of one row, and the whole run at the level of cells. *)
From Coq Require Import Permutation.
From Verif.Base Require Import PyStr PyNum PyVal PyDict Outcome.
From Verif.Model Require Import Warn Lib Convert Input.
From Verif.Spec Require Import Source.
From Verif.Proofs Require Import TreeInd.

Lemma conv_of_trans E T a b c : conv_of E T a b -> conv_of E T b c -> conv_of E T a c.
Proof. intros H1 H2. induction H2; [exact H1|econstructor; eassumption]. Qed.
Lemma stored_step E T v ty c w x : col_type T ty -> convert_type E ty v = Ok c w -> stored E T c x -> stored E T v x.
Proof.
  intros Ht H (x0 & ty' & w' & H1 & H2). exists x0, ty', w'. split; [|exact H2].
  eapply conv_of_trans; [econstructor; [constructor|exact Ht|exact H]|exact H1].
Qed.
Lemma stored_here E T v ty c w : col_type T ty -> convert_type E ty v = Ok c w -> cv_blank c = false -> stored E T v c.
Proof. intros Ht H Hb. exists v, ty, w. split; [constructor|auto]. Qed.

(** all cells satisfy [P] and dict keys are distinct *)
Inductive rall (P : cell -> Prop) : rnode -> Prop :=
| rall_cell c : P c -> rall P (RCell c)
| rall_dict d : NoDup (map fst d) -> (forall k n, In (k, n) d -> rall P n) -> rall P (RDict d)
| rall_lad l : (forall i d, In (i, d) l -> NoDup (map fst d)) ->
               (forall i d, In (i, d) l -> forall k n, In (k, n) d -> rall P n) -> rall P (RLad l).
Definition ralld P (d : rdict) := NoDup (map fst d) /\ forall k n, In (k, n) d -> rall P n.
Inductive tall (P : cell -> Prop) : tnode -> Prop :=
| tall_cell c : P c -> tall P (TCell c)
| tall_dict d : NoDup (map fst d) -> (forall k n, In (k, n) d -> tall P n) -> tall P (TDict d)
| tall_temp data nk :
    (forall d, In d (map snd data ++ nk) -> NoDup (map fst d)) ->
    (forall d, In d (map snd data ++ nk) -> forall k n, In (k, n) d -> tall P n) -> tall P (TTemp data nk).
Definition talld P (d : tdict) := NoDup (map fst d) /\ forall k n, In (k, n) d -> tall P n.

Lemma rall_dict_iff P d : rall P (RDict d) <-> ralld P d.
Proof. split; [inversion 1; split; assumption|intros []; constructor; assumption]. Qed.
Lemma tall_dict_iff P d : tall P (TDict d) <-> talld P d.
Proof. split; [inversion 1; split; assumption|intros []; constructor; assumption]. Qed.

Lemma rall_lad_iff P l : rall P (RLad l) <-> forall i d, In (i, d) l -> ralld P d.
Proof.
  split.
  - inversion 1 as [| |? H1 H2]; subst. intros i d Hin. split; [eapply H1|eapply H2]; exact Hin.
  - intros H. constructor; intros i d Hin; destruct (H i d Hin); assumption.
Qed.
Lemma tall_temp_iff P data nk : tall P (TTemp data nk) <-> forall d, In d (map snd data ++ nk) -> talld P d.
Proof.
  split.
  - inversion 1 as [| |? ? H1 H2]; subst. intros d Hin. split; [eapply H1|eapply H2]; exact Hin.
  - intros H. constructor; intros d Hin; destruct (H d Hin); assumption.
Qed.

Lemma talld_sset P k n d : talld P d -> tall P n -> talld P (sset k n d).
Proof.
  intros [H1 H2] Hn. split; [apply sset_NoDup; exact H1|].
  intros k' n' Hin. apply sset_In in Hin as [E|Hin]; [congruence|eauto].
Qed.
Lemma ralld_sset P k n d : ralld P d -> rall P n -> ralld P (sset k n d).
Proof.
  intros [H1 H2] Hn. split; [apply sset_NoDup; exact H1|].
  intros k' n' Hin. apply sset_In in Hin as [E|Hin]; [congruence|eauto].
Qed.
Lemma talld_aupdate P e : forall d, talld P d -> (forall k n, In (k, n) e -> tall P n) -> talld P (aupdate str_eqb d e).
Proof.
  unfold aupdate. induction e as [|[k n] e IH]; intros d Hd He; simpl; [exact Hd|].
  apply IH; [apply talld_sset; [exact Hd|eapply He; left; reflexivity]|]. intros; eapply He; right; eassumption.
Qed.
Lemma aset_In {K V} (eqb : K -> K -> bool) k (v : V) d kv : In kv (aset eqb k v d) -> snd kv = v \/ In kv d.
Proof.
  induction d as [|[k' v'] d IH]; simpl.
  - intros [<-|[]]; auto.
  - destruct (eqb k k'); simpl; intros [<-|H]; auto. destruct (IH H); auto.
Qed.
Lemma rall_lad_zset P i d l :
  (forall i d, In (i, d) l -> ralld P d) -> ralld P d -> rall P (RLad (zset i d l)).
Proof.
  intros Hl Hd. apply rall_lad_iff. intros j e Hin. apply aset_In in Hin as [E|Hin]; [simpl in E; subst; exact Hd|eapply Hl; exact Hin].
Qed.

Section Row.
  Variable E : conv_env.
  Variable types : str -> str.
  Variable xml : bool.
  Variable idn : str.
  Variable P : cell -> Prop.

  Lemma zget_In {V} i (l : list (Z * V)) d : zget i l = Some d -> exists j, In (j, d) l.
  Proof.
    induction l as [|[j e] l IH]; unfold zget in *; simpl; [discriminate|].
    destruct (i =? j)%Z; [intros [= ->]; eauto|]. intros H. destruct (IH H) as (j' & Hj). eauto.
  Qed.

  Lemma walk_rall h loc0 rest : forall seen v cur cur' w,
    (forall x, stored E types v x -> P (mk_cell x loc0)) -> ralld P cur ->
    walk E types xml h loc0 seen rest v cur = Ok cur' w -> ralld P cur'.
  Proof.
    induction rest as [|item rest IH]; intros seen v cur cur' w HP Hcur; cbn [walk].
    - intros [= <- _]. exact Hcur.
    - destruct (isint item).
      { intros H. apply bind_ok in H as (? & w1 & w2 & _ & H2 & _). eapply IH; eassumption. }
      set (ct := if (xml && _ && _ && _)%bool then _ else _).
      assert (Hct : col_type types ct).
      { unfold ct. destruct (xml && _ && _ && _)%bool; [right; left; reflexivity|right; right; eexists; reflexivity]. }
      assert (Hnil : col_type types []) by (left; reflexivity).
      clearbody ct. set (till := path_till _). set (next := match rest with [] => [] | n :: _ => n end).
      assert (Harr : forall idx,
        match match sget item cur with None => Some [] | Some (RLad l) => Some l | Some _ => None end with
        | Some l =>
          let sub := match zget idx l with Some d => d | None => [] end in
          if (negb xml || (2 <=? Datatypes.length rest)%nat)%bool then
            bind (walk E types xml h loc0 (seen ++ [item]) rest v sub) (fun sub' => ret (sset item (RLad (zset idx sub' l)) cur))
          else bind (convert_type E [] v) (fun conv =>
            let sub1 := if cv_blank conv then sub
                        else if startswith item (u "@") then sset item (RCell (mk_cell conv loc0)) sub
                        else sset text_key (RCell (mk_cell conv loc0)) sub in
            bind (walk E types xml h loc0 (seen ++ [item]) rest conv sub1) (fun sub' => ret (sset item (RLad (zset idx sub' l)) cur)))
        | None => bind (warn1 (WColumnArray h till)) (fun _ => ret cur)
        end = Ok cur' w -> ralld P cur').
      { intros idx H.
        destruct (match sget item cur with None => Some [] | Some (RLad l) => Some l | Some _ => None end) as [l|] eqn:El.
        2:{ injection H as <- _. exact Hcur. }
        assert (Hl : forall i d, In (i, d) l -> ralld P d).
        { destruct (sget item cur) as [[c|d|l']|] eqn:Eg; try discriminate El; injection El as <-; [|intros i d []].
          apply sget_In in Eg. destruct Hcur as [_ Hc]. specialize (Hc _ _ Eg). apply rall_lad_iff. exact Hc. }
        assert (Hsub : ralld P (match zget idx l with Some d => d | None => [] end)).
        { destruct (zget idx l) eqn:Ez; [apply zget_In in Ez as (j & Hj); eapply Hl; exact Hj|split; [constructor|intros ? ? []]]. }
        destruct ((negb xml || (2 <=? Datatypes.length rest)%nat)%bool).
        - apply bind_ok in H as (sub' & w1 & w2 & H1 & H2 & _). injection H2 as <- _.
          apply ralld_sset; [exact Hcur|]. apply rall_lad_zset; [exact Hl|]. eapply IH; [exact HP|exact Hsub|exact H1].
        - apply bind_ok in H as (conv & w1 & w2 & H1 & H2 & _).
          assert (HP' : forall x, stored E types conv x -> P (mk_cell x loc0)).
          { intros x Hx. apply HP. eapply stored_step; [|exact H1|exact Hx]; assumption. }
          apply bind_ok in H2 as (sub' & w3 & w4 & H3 & H4 & _). injection H4 as <- _.
          apply ralld_sset; [exact Hcur|]. apply rall_lad_zset; [exact Hl|]. eapply IH; [exact HP'| |exact H3].
          destruct (cv_blank conv) eqn:Hb; [exact Hsub|]. destruct (startswith item (u "@"));
            (apply ralld_sset; [exact Hsub|constructor; apply HP; eapply stored_here; [|exact H1|exact Hb]; assumption]). }
      destruct (parse_int next) as [idx|].
      { destruct (negb (is_empty ct) && negb (str_eqb ct (u "array")))%bool; [discriminate|]. apply Harr. }
      destruct (str_eqb ct (u "array")); [apply Harr|].
      destruct (str_eqb ct (u "object") || is_empty ct && negb (is_empty next))%bool.
      { intros H.
        destruct (match sget item cur with None => Some [] | Some (RDict d) => Some d | Some _ => None end) as [sub|] eqn:El.
        2:{ injection H as <- _. exact Hcur. }
        apply bind_ok in H as (sub' & w1 & w2 & H1 & H2 & _). injection H2 as <- _.
        apply ralld_sset; [exact Hcur|]. apply rall_dict_iff. eapply IH; [exact HP| |exact H1].
        destruct (sget item cur) as [[c|d|l']|] eqn:Eg; try discriminate El; injection El as <-.
        - apply sget_In in Eg. destruct Hcur as [_ Hc]. apply rall_dict_iff. eapply Hc; exact Eg.
        - split; [constructor|intros ? ? []]. }
      destruct (negb (is_empty ct) && negb (is_empty next))%bool; [discriminate|].
      assert (Hleaf : forall old, sget item cur = old ->
        bind (convert_type E ct v) (fun conv =>
          bind (if cv_blank conv then ret cur
                else if (negb xml || startswith item (u "@"))%bool then ret (sset item (RCell (mk_cell conv loc0)) cur)
                else match old with
                     | None => ret (sset item (RDict [(text_key, RCell (mk_cell conv loc0))]) cur)
                     | Some (RDict d) => ret (sset item (RDict (sset text_key (RCell (mk_cell conv loc0)) d)) cur)
                     | Some (RCell _) => Raise ETypeError []
                     | Some (RLad _) => Raise ETypeError []
                     end) (fun cur' => walk E types xml h loc0 (seen ++ [item]) rest conv cur')) = Ok cur' w -> ralld P cur').
      { intros old Hold H. apply bind_ok in H as (conv & w1 & w2 & H1 & H2 & _).
        assert (HP' : forall x, stored E types conv x -> P (mk_cell x loc0)).
        { intros x Hx. apply HP. eapply stored_step; [|exact H1|exact Hx]; assumption. }
        apply bind_ok in H2 as (cur1 & w3 & w4 & H3 & H4 & _). eapply IH; [exact HP'| |exact H4].
        destruct (cv_blank conv) eqn:Hb; [injection H3 as <- _; exact Hcur|].
        assert (Hcell : rall P (RCell (mk_cell conv loc0))) by (constructor; apply HP; eapply stored_here; [|exact H1|exact Hb]; assumption).
        destruct (negb xml || startswith item (u "@"))%bool; [injection H3 as <- _; apply ralld_sset; assumption|].
        destruct old as [[c|d|l]|]; try discriminate; injection H3 as <- _; (apply ralld_sset; [exact Hcur|]).
        - apply rall_dict_iff. apply ralld_sset; [|exact Hcell]. apply sget_In in Hold. destruct Hcur as [_ Hc]. apply rall_dict_iff. eapply Hc; exact Hold.
        - constructor; [constructor; [intros []|constructor]|]. intros k n [Ek|[]]. injection Ek as <- <-. exact Hcell. }
      destruct (sget item cur) as [n|] eqn:Eg; specialize (Hleaf _ eq_refl); intros H.
      + destruct xml.
        * destruct n; apply Hleaf; exact H.
        * destruct n as [c|d|l]; [apply Hleaf; exact H| |];
            (apply bind_ok in H as (? & w1 & w2 & _ & H2 & _); eapply IH; eassumption).
      + destruct xml; apply Hleaf; exact H.
  Qed.

  Lemma build_row_rall line : forall cur cur' w,
    (forall h c x, In (h, c) line -> stored E types (c_val c) x -> P (mk_cell x (c_loc c))) ->
    ralld P cur -> build_row E types xml line cur = Ok cur' w -> ralld P cur'.
  Proof.
    induction line as [|[h c] line IH]; intros cur cur' w HP Hcur; cbn [build_row].
    - intros [= <- _]. exact Hcur.
    - destruct (cv_blank (c_val c)).
      + apply IH; [|exact Hcur]. intros; eapply HP; [right|]; eassumption.
      + intros H. apply bind_ok in H as (cur1 & w1 & w2 & H1 & H2 & _).
        eapply IH; [| |exact H2]; [intros; eapply HP; [right|]; eassumption|].
        eapply walk_rall; [|exact Hcur|exact H1]. intros x Hx. eapply HP; [left; reflexivity|exact Hx].
  Qed.

  Lemma temp_append_talld t item t' w :
    (forall d, In d (temp_items t) -> talld P d) -> talld P item ->
    temp_append xml idn t item = Ok t' w -> forall d, In d (temp_items t') -> talld P d.
  Proof.
    destruct t as [data nk]. unfold temp_append, temp_items. cbn [fst snd]. intros Ht Hi H.
    apply bind_ok in H as (k & w1 & w2 & _ & H2 & _). destruct k as [k|].
    - destruct (kget k data) as [old|] eqn:Ek; injection H2 as <- _; cbn [fst snd]; intros d Hd; apply in_app_or in Hd as [Hd|Hd];
        try (apply Ht; apply in_or_app; right; exact Hd).
      + apply in_map_iff in Hd as ([k' d'] & Hd' & Hin). simpl in Hd'. subst d'. apply aset_In in Hin as [Hin|Hin].
        * simpl in Hin. subst d. destruct (kget_In _ _ _ Ek) as (k2 & Hk2 & _). apply talld_aupdate; [|apply Hi].
          apply Ht. apply in_or_app. left. apply in_map_iff. exists (k2, old). auto.
        * apply Ht. apply in_or_app. left. apply in_map_iff. exists (k', d). auto.
      + apply in_map_iff in Hd as ([k' d'] & Hd' & Hin). simpl in Hd'. subst d'. apply aset_In in Hin as [Hin|Hin].
        * simpl in Hin. subst d. exact Hi.
        * apply Ht. apply in_or_app. left. apply in_map_iff. exists (k', d). auto.
    - injection H2 as <- _. cbn [fst snd]. intros d Hd. apply in_app_or in Hd as [Hd|Hd]; [apply Ht; apply in_or_app; auto|].
      apply in_app_or in Hd as [Hd|[<-|[]]]; [apply Ht; apply in_or_app; auto|exact Hi].
  Qed.
  Lemma temp_of_list_talld l : forall t t' w,
    (forall d, In d (temp_items t) -> talld P d) -> (forall d, In d l -> talld P d) ->
    temp_of_list xml idn t l = Ok t' w -> forall d, In d (temp_items t') -> talld P d.
  Proof.
    induction l as [|x l IH]; intros t t' w Ht Hl; cbn [temp_of_list].
    - intros [= <- _]. exact Ht.
    - intros H. apply bind_ok in H as (t1 & w1 & w2 & H1 & H2 & _).
      eapply IH; [|intros; apply Hl; right; assumption|exact H2].
      eapply temp_append_talld; [exact Ht|apply Hl; left; reflexivity|exact H1].
  Qed.
  Lemma insert_z_perm {V} x (l : list (Z * V)) : Permutation (insert_z x l) (x :: l).
  Proof.
    induction l as [|y l IH]; simpl; [reflexivity|]. destruct (fst x <=? fst y)%Z; [reflexivity|].
    rewrite IH. apply perm_swap.
  Qed.
  Lemma sort_z_perm {V} (l : list (Z * V)) : Permutation (sort_z l) l.
  Proof. induction l as [|x l IH]; simpl; [reflexivity|]. rewrite insert_z_perm, IH. reflexivity. Qed.

  (** keys of a finished dict are among those of the row dict *)
  Lemma fin_dict_keys f d : forall d' w, fin_dict f d = Ok d' w -> incl (map fst d') (map fst d).
  Proof.
    induction d as [|[k n] d IH]; intros d' w; cbn [fin_dict].
    - intros [= <- _]. apply incl_refl.
    - assert (Hgen : bind (f n) (fun n' => bind (fin_dict f d) (fun r => ret ((k, n') :: r))) = Ok d' w ->
                     incl (map fst d') (map fst ((k, n) :: d))).
      { intros H. apply bind_ok in H as (n' & w1 & w2 & H1 & H2 & _). apply bind_ok in H2 as (r & w3 & w4 & H3 & H4 & _).
        injection H4 as <- _. simpl. intros x [<-|Hx]; [left; reflexivity|right; eapply IH; eassumption]. }
      destruct n as [c|[|x sub]|l]; try exact Hgen. intros H x Hx. right. eapply IH; eassumption.
  Qed.
  Lemma fin_dict_NoDup f d : forall d' w, NoDup (map fst d) -> fin_dict f d = Ok d' w -> NoDup (map fst d').
  Proof.
    induction d as [|[k n] d IH]; intros d' w Hnd; cbn [fin_dict].
    - intros [= <- _]. constructor.
    - simpl in Hnd. inversion Hnd as [|? ? Hni Hnd']; subst.
      assert (Hgen : bind (f n) (fun n' => bind (fin_dict f d) (fun r => ret ((k, n') :: r))) = Ok d' w -> NoDup (map fst d')).
      { intros H. apply bind_ok in H as (n' & w1 & w2 & H1 & H2 & _). apply bind_ok in H2 as (r & w3 & w4 & H3 & H4 & _).
        injection H4 as <- _. simpl. constructor; [|eapply IH; eassumption].
        intros Hin. apply Hni. eapply fin_dict_keys; eassumption. }
      destruct n as [c|[|x sub]|l]; try exact Hgen. intros H. eapply IH; eassumption.
  Qed.

  Definition fin_ok (n : rnode) : Prop := rall P n -> forall n' w, fin xml idn n = Ok n' w -> tall P n'.
  Lemma fin_dict_talld d : Forall (fun kv => fin_ok (snd kv)) d -> ralld P d ->
    forall d' w, fin_dict (fin xml idn) d = Ok d' w -> talld P d'.
  Proof.
    intros HF [Hnd Hall] d' w H. split; [eapply fin_dict_NoDup; eassumption|].
    clear Hnd. revert d' w H. induction HF as [|[k n] d Hn _ IH]; intros d' w; cbn [fin_dict].
    - intros [= <- _] k n [].
    - assert (Hgen : bind (fin xml idn n) (fun n' => bind (fin_dict (fin xml idn) d) (fun r => ret ((k, n') :: r))) = Ok d' w ->
                     forall k n, In (k, n) d' -> tall P n).
      { intros H. apply bind_ok in H as (n' & w1 & w2 & H1 & H2 & _). apply bind_ok in H2 as (r & w3 & w4 & H3 & H4 & _).
        injection H4 as <- _. intros k2 n2 [E2|Hin].
        - injection E2 as <- <-. eapply Hn; [eapply Hall; left; reflexivity|exact H1].
        - eapply IH; [intros; eapply Hall; right; eassumption|exact H3|exact Hin]. }
      destruct n as [c|[|x sub]|l]; try exact Hgen. intros H. eapply IH; [intros; eapply Hall; right; eassumption|exact H].
  Qed.
  Lemma fin_items_talld l : Forall (fun kd : Z * rdict => Forall (fun kv => fin_ok (snd kv)) (snd kd)) l ->
    (forall i d, In (i, d) l -> ralld P d) ->
    forall l' w, fin_items (fin xml idn) l = Ok l' w -> forall i d, In (i, d) l' -> talld P d.
  Proof.
    intros HF. induction HF as [|[i d] l Hd _ IH]; intros Hall l' w; cbn [fin_items].
    - intros [= <- _] i d [].
    - assert (Hgen : bind (fin_dict (fin xml idn) d) (fun d' => bind (fin_items (fin xml idn) l) (fun r => ret ((i, d') :: r))) = Ok l' w ->
                     forall i d, In (i, d) l' -> talld P d).
      { intros H. apply bind_ok in H as (d' & w1 & w2 & H1 & H2 & _). apply bind_ok in H2 as (r & w3 & w4 & H3 & H4 & _).
        injection H4 as <- _. intros i2 d2 [E2|Hin].
        - injection E2 as <- <-. eapply fin_dict_talld; [exact Hd|eapply Hall; left; reflexivity|exact H1].
        - eapply IH; [intros; eapply Hall; right; eassumption|exact H3|exact Hin]. }
      destruct d as [|x sub]; [|exact Hgen]. intros H. eapply IH; [intros; eapply Hall; right; eassumption|exact H].
  Qed.
  Lemma fin_tall n : fin_ok n.
  Proof.
    induction n as [c|d IH|l IH] using rnode_ind'; intros Hr n' w; cbn [fin].
    - intros [= <- _]. inversion Hr; subst. constructor. assumption.
    - intros H. apply bind_ok in H as (d' & w1 & w2 & H1 & H2 & _). injection H2 as <- _.
      apply tall_dict_iff. eapply fin_dict_talld; [exact IH|apply rall_dict_iff; exact Hr|exact H1].
    - intros H. apply bind_ok in H as (l' & w1 & w2 & H1 & H2 & _). apply bind_ok in H2 as (t & w3 & w4 & H3 & H4 & _).
      injection H4 as <- _. apply tall_temp_iff. pose proof (proj1 (rall_lad_iff _ _) Hr) as Hl.
      assert (Hi : forall i d, In (i, d) l' -> talld P d).
      { eapply fin_items_talld; [exact IH|intros i d Hin; exact (Hl i d Hin)|exact H1]. }
      eapply temp_of_list_talld; [| |exact H3]; [intros d []|].
      intros d Hd. apply in_map_iff in Hd as ([i d'] & Hd' & Hin). simpl in Hd'. subst d'. eapply Hi.
      eapply Permutation_in; [apply sort_z_perm|exact Hin].
  Qed.

  Theorem unflatten_row_talld line d w :
    (forall h c x, In (h, c) line -> stored E types (c_val c) x -> P (mk_cell x (c_loc c))) ->
    unflatten_row E types xml idn line = Ok d w -> talld P d.
  Proof.
    intros HP H. unfold unflatten_row in H. apply bind_ok in H as (r & w1 & w2 & H1 & H2 & _).
    eapply fin_dict_talld; [| |exact H2].
    - apply Forall_forall. intros kv _. apply fin_tall.
    - eapply build_row_rall; [exact HP| |exact H1]. split; [constructor|intros ? ? []].
  Qed.
End Row.

