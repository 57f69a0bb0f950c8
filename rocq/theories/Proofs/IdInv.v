(** Arrays never hold two objects with equal ids. *)
From Coq Require Import Permutation.
From Verif.Base Require Import PyStr PyNum PyVal PyDict Outcome.
From Verif.Model Require Import Warn Lib Convert Input.
From Verif.Spec Require Import Ids.
From Verif.Proofs Require Import TreeInd RowWf Distinct.

(** ** Finishing a row: a predicate closed under the constructions holds *)
Section FinClosed.
  Variables (xml : bool) (idn : str) (Q : tnode -> Prop).
  Hypothesis Qcell : forall c, Q (TCell c).
  Hypothesis Qdict : forall d, NoDup (map fst d) -> (forall k n, In (k, n) d -> Q n) -> Q (TDict d).
  Hypothesis Qtemp : forall items t w,
    (forall d, In d items -> NoDup (map fst d) /\ forall k n, In (k, n) d -> Q n) ->
    temp_of_list xml idn ([], []) items = Ok t w -> Q (TTemp (fst t) (snd t)).
  Let T := fun _ : cell => True.

  Definition finq (n : rnode) : Prop := rall T n -> forall n' w, fin xml idn n = Ok n' w -> Q n'.
  Lemma fin_dict_q d : Forall (fun kv => finq (snd kv)) d -> (forall k n, In (k, n) d -> rall T n) ->
    forall d' w, fin_dict (fin xml idn) d = Ok d' w -> forall k n, In (k, n) d' -> Q n.
  Proof.
    intros HF. induction HF as [|[k n] d Hn _ IH]; intros Hall d' w; cbn [fin_dict].
    - intros [= <- _] k n [].
    - assert (Hgen : bind (fin xml idn n) (fun n' => bind (fin_dict (fin xml idn) d) (fun r => ret ((k, n') :: r))) = Ok d' w ->
                     forall k n, In (k, n) d' -> Q n).
      { intros H. apply bind_ok in H as (n' & w1 & w2 & H1 & H2 & _). apply bind_ok in H2 as (r & w3 & w4 & H3 & H4 & _).
        injection H4 as <- _. intros k2 n2 [E2|Hin].
        - injection E2 as <- <-. eapply Hn; [eapply Hall; left; reflexivity|exact H1].
        - eapply IH; [intros; eapply Hall; right; eassumption|exact H3|exact Hin]. }
      destruct n as [c|[|x sub]|l]; try exact Hgen. intros H. eapply IH; [intros; eapply Hall; right; eassumption|exact H].
  Qed.
  Lemma fin_items_q l : Forall (fun kd : Z * rdict => Forall (fun kv => finq (snd kv)) (snd kd)) l ->
    (forall i d, In (i, d) l -> ralld T d) ->
    forall l' w, fin_items (fin xml idn) l = Ok l' w -> forall i d, In (i, d) l' -> NoDup (map fst d) /\ forall k n, In (k, n) d -> Q n.
  Proof.
    intros HF. induction HF as [|[i d] l Hd _ IH]; intros Hall l' w; cbn [fin_items].
    - intros [= <- _] i d [].
    - assert (Hgen : bind (fin_dict (fin xml idn) d) (fun d' => bind (fin_items (fin xml idn) l) (fun r => ret ((i, d') :: r))) = Ok l' w ->
                     forall i d, In (i, d) l' -> NoDup (map fst d) /\ forall k n, In (k, n) d -> Q n).
      { intros H. apply bind_ok in H as (d' & w1 & w2 & H1 & H2 & _). apply bind_ok in H2 as (r & w3 & w4 & H3 & H4 & _).
        injection H4 as <- _. intros i2 d2 [E2|Hin].
        - injection E2 as <- <-. destruct (Hall i d (or_introl eq_refl)) as [Hnd Hr]. split.
          + eapply fin_dict_NoDup; eassumption.
          + eapply fin_dict_q; eassumption.
        - eapply IH; [intros; eapply Hall; right; eassumption|exact H3|exact Hin]. }
      destruct d as [|x sub]; [|exact Hgen]. intros H. eapply IH; [intros; eapply Hall; right; eassumption|exact H].
  Qed.
  Lemma fin_q n : finq n.
  Proof.
    induction n as [c|d IH|l IH] using rnode_ind'; intros Hr n' w; cbn [fin].
    - intros [= <- _]. apply Qcell.
    - intros H. apply bind_ok in H as (d' & w1 & w2 & H1 & H2 & _). injection H2 as <- _.
      apply rall_dict_iff in Hr as [Hnd Hr]. apply Qdict; [eapply fin_dict_NoDup; eassumption|eapply fin_dict_q; eassumption].
    - intros H. apply bind_ok in H as (l' & w1 & w2 & H1 & H2 & _). apply bind_ok in H2 as (t & w3 & w4 & H3 & H4 & _).
      injection H4 as <- _. pose proof (proj1 (rall_lad_iff _ _) Hr) as Hl.
      eapply Qtemp; [|exact H3]. intros d Hd. apply in_map_iff in Hd as ([i d'] & Hd' & Hin). simpl in Hd'. subst d'.
      eapply fin_items_q; [exact IH|intros i0 d0 Hin0; exact (Hl i0 d0 Hin0)|exact H1|].
      eapply Permutation_in; [apply sort_z_perm|exact Hin].
  Qed.
  Lemma unflatten_row_q E types line d w :
    unflatten_row E types xml idn line = Ok d w -> NoDup (map fst d) /\ forall k n, In (k, n) d -> Q n.
  Proof.
    intros H. unfold unflatten_row in H. apply bind_ok in H as (r & w1 & w2 & H1 & H2 & _).
    assert (Hr : ralld T r).
    { eapply (build_row_rall E types xml T); [intros; exact I| |exact H1]. split; [constructor|intros ? ? []]. }
    destruct Hr as [Hnd Hr]. split; [eapply fin_dict_NoDup; eassumption|].
    eapply fin_dict_q; [|exact Hr|exact H2]. apply Forall_forall. intros kv _. apply fin_q.
  Qed.
End FinClosed.

(** ** The invariant *)
Section Inv.
  Variables (xml : bool) (idn : str).
  Notation idof := (id_of xml idn).

  Definition sameK (k i : scalar) : Prop := k = i \/ py_eqb k i = true.

  Inductive iok : tnode -> Prop :=
  | iok_cell c : iok (TCell c)
  | iok_dict d : (forall k n, In (k, n) d -> iok n) -> iok (TDict d)
  | iok_temp data nk :
      distinct (map fst data) ->
      (forall k d, In (k, d) data -> exists i, idof d = Some i /\ sameK k i) ->
      (forall d, In d nk -> idof d = None) ->
      (forall d, In d (map snd data ++ nk) -> forall k n, In (k, n) d -> iok n) ->
      iok (TTemp data nk).
  Definition iokd (d : tdict) : Prop := forall k n, In (k, n) d -> iok n.
  (** an array under construction *)
  Record iokt (t : ttemp) : Prop := {
    it_distinct : distinct (map fst (fst t));
    it_key : forall k d, In (k, d) (fst t) -> exists i, idof d = Some i /\ sameK k i;
    it_nokey : forall d, In d (snd t) -> idof d = None;
    it_sub : forall d, In d (temp_items t) -> iokd d }.
  Lemma iok_temp_iff data nk : iok (TTemp data nk) <-> iokt (data, nk).
  Proof.
    split.
    - inversion 1; subst. constructor; auto.
    - intros [H1 H2 H3 H4]. constructor; auto.
  Qed.
  Lemma iok_dict_iff d : iok (TDict d) <-> iokd d.
  Proof. split; [inversion 1; assumption|constructor; assumption]. Qed.
  Lemma iokt_nil : iokt ([], []).
  Proof. constructor; simpl; try (intros; contradiction). constructor. Qed.

  Lemma item_key_idof d k w : item_key xml idn d = Ok k w -> k = idof d.
  Proof.
    unfold item_key, id_of. destruct (sget idn d) as [[c|e|data nk]|].
    - destruct (c_val c) as [s| | |]; try discriminate. destruct (hashable (CV s)); [|discriminate]. intros [= <- _]. reflexivity.
    - destruct xml; [|discriminate]. destruct (sget text_key e) as [[c|?|? ?]|]; try discriminate.
      destruct (c_val c) as [s| | |]; try discriminate. destruct (hashable (CV s)); [|discriminate]. intros [= <- _]. reflexivity.
    - destruct xml; discriminate.
    - intros [= <- _]. reflexivity.
  Qed.

  Lemma distinct_snoc l y : distinct l -> (forall x, In x l -> py_eqb x y = false) -> distinct (l ++ [y]).
  Proof.
    unfold distinct. induction 1 as [|x l H _ IH]; simpl; intros Hy; [constructor; constructor|].
    constructor; [|apply IH; auto]. apply Forall_forall. intros z Hz. rewrite Forall_forall in H. apply in_app_or in Hz as [Hz|[<-|[]]]; auto.
  Qed.
  Lemma kget_none_keys {V} k (data : list (scalar * V)) : kget k data = None -> forall x, In x (map fst data) -> py_eqb x k = false.
  Proof.
    intros H x Hx. apply in_map_iff in Hx as ([k' v] & <- & Hin). rewrite py_eqb_sym. rewrite kget_None in H. eapply H. exact Hin.
  Qed.

  (** adding / replacing a keyed item *)
  Lemma iokt_new k d data nk : iokt (data, nk) -> kget k data = None ->
    (exists i, idof d = Some i /\ sameK k i) -> iokd d -> iokt (kset k d data, nk).
  Proof.
    intros [H1 H2 H3 H4] Hg Hi Hd. rewrite kset_new by exact Hg. constructor; simpl in *.
    - rewrite map_app. simpl. apply distinct_snoc; [exact H1|apply kget_none_keys; exact Hg].
    - intros k0 d0 Hin. apply in_app_or in Hin as [Hin|[E|[]]]; [eauto|]. injection E as <- <-. exact Hi.
    - exact H3.
    - unfold temp_items in *. simpl in *. intros d0 Hin. rewrite map_app in Hin. rewrite !in_app_iff in Hin. simpl in Hin.
      destruct Hin as [[Hin|[<-|[]]]|Hin]; [apply H4; apply in_or_app; auto|exact Hd|apply H4; apply in_or_app; auto].
  Qed.
  Lemma iokt_old k d old data nk : iokt (data, nk) -> kget k data = Some old ->
    (forall k', In (k', old) data -> py_eqb k k' = true -> exists i, idof d = Some i /\ sameK k' i) -> iokd d -> iokt (kset k d data, nk).
  Proof.
    intros [H1 H2 H3 H4] Hg Hi Hd. destruct (kset_old k d data old Hg) as (a & k' & b & Ea & Eb & Hk & _). rewrite Eb.
    subst data. constructor; simpl in *.
    - rewrite map_app in *. exact H1.
    - intros k0 d0 Hin. apply in_app_or in Hin as [Hin|[E|Hin]].
      + apply H2. apply in_or_app. auto.
      + injection E as <- <-. apply Hi; [apply in_or_app; right; left; reflexivity|exact Hk].
      + apply H2. apply in_or_app. right. right. exact Hin.
    - exact H3.
    - unfold temp_items in *. simpl in *. intros d0 Hin. rewrite map_app in *. simpl in *. rewrite !in_app_iff in Hin. simpl in Hin.
      destruct Hin as [[Hin|[<-|Hin]]|Hin]; [|exact Hd| |]; apply H4; rewrite !in_app_iff; simpl; auto.
  Qed.

  Lemma sget_aupdate_found k (e : tdict) : forall d n, NoDup (map fst e) -> sget k e = Some n -> sget k (aupdate str_eqb d e) = Some n.
  Proof.
    unfold aupdate. assert (Hnot : forall (e : tdict) d, ~ In k (map fst e) -> sget k (fold_left (fun d kv => aset str_eqb (fst kv) (snd kv) d) e d) = sget k d).
    { clear e. induction e as [|[k' n'] e IH]; intros d Hni; simpl; [reflexivity|]. rewrite IH by (intros H; apply Hni; right; exact H).
      apply sget_sset_neq. intros ->. apply Hni. left. reflexivity. }
    induction e as [|[k' n'] e IH]; intros d n Hnd; simpl; [discriminate|]. inversion Hnd as [|? ? Hni Hnd']; subst.
    unfold sget at 1; simpl. destruct (str_eqb_spec k k') as [->|Hne].
    - intros [= ->]. rewrite Hnot by exact Hni. apply sget_sset_eq.
    - intros H. apply IH; [exact Hnd'|exact H].
  Qed.
  Lemma idof_aupdate d e i : NoDup (map fst e) -> idof e = Some i -> idof (aupdate str_eqb d e) = Some i.
  Proof.
    intros Hnd H. unfold id_of in *. destruct (sget idn e) as [n|] eqn:E; [|discriminate].
    rewrite (sget_aupdate_found _ _ d n Hnd E). exact H.
  Qed.
  Lemma iokd_aupdate e : forall d, iokd d -> iokd e -> iokd (aupdate str_eqb d e).
  Proof.
    unfold aupdate. induction e as [|[k n] e IH]; intros d Hd He; simpl; [exact Hd|]. apply IH.
    - intros k' n' Hin. apply sset_In in Hin as [E|Hin]; [injection E as -> ->; eapply He; left; reflexivity|eauto].
    - intros k' n' Hin. eapply He. right. exact Hin.
  Qed.

  Lemma temp_append_iok t d t' w : iokt t -> NoDup (map fst d) -> iokd d -> temp_append xml idn t d = Ok t' w -> iokt t'.
  Proof.
    destruct t as [data nk]. unfold temp_append. intros Ht Hnd Hd H. apply bind_ok in H as (k & w1 & w2 & H1 & H2 & _).
    pose proof (item_key_idof _ _ _ H1) as Ek. destruct k as [k|].
    - destruct (kget k data) as [old|] eqn:G; injection H2 as <- _.
      + eapply iokt_old; [exact Ht|exact G| |].
        * intros k' Hin Hk'. exists k. split; [apply idof_aupdate; auto|]. right. rewrite py_eqb_sym. exact Hk'.
        * apply iokd_aupdate; [|exact Hd]. destruct (kget_In _ _ _ G) as (k2 & Hin & _). apply (it_sub _ Ht). unfold temp_items. simpl.
          apply in_or_app. left. apply in_map_iff. exists (k2, old). auto.
      + apply iokt_new; auto. exists k. split; [auto|left; reflexivity].
    - injection H2 as <- _. destruct Ht as [A B C D]. constructor; simpl in *; auto.
      + intros d0 Hin. apply in_app_or in Hin as [Hin|[<-|[]]]; auto.
      + unfold temp_items in *. simpl in *. intros d0 Hin. rewrite !in_app_iff in Hin. simpl in Hin.
        destruct Hin as [Hin|[Hin|[<-|[]]]]; [apply D; apply in_or_app; auto..|exact Hd].
  Qed.
  Lemma temp_of_list_iok l : forall t t' w, iokt t -> (forall d, In d l -> NoDup (map fst d) /\ iokd d) ->
    temp_of_list xml idn t l = Ok t' w -> iokt t'.
  Proof.
    induction l as [|x l IH]; intros t t' w Ht Hl; cbn [temp_of_list].
    - intros [= <- _]. exact Ht.
    - intros H. apply bind_ok in H as (t1 & w1 & w2 & H1 & H2 & _).
      eapply IH; [|intros; apply Hl; right; assumption|exact H2].
      destruct (Hl x (or_introl eq_refl)). eapply temp_append_iok; eassumption.
  Qed.

  Lemma row_iok E types line d w : unflatten_row E types xml idn line = Ok d w -> NoDup (map fst d) /\ iokd d.
  Proof.
    apply unflatten_row_q with (Q := iok).
    - constructor.
    - intros d0 _ H. constructor. exact H.
    - intros items [data nk] w0 Hi H. apply iok_temp_iff. eapply temp_of_list_iok; [exact iokt_nil| |exact H]. exact Hi.
  Qed.

  (** ** Merging *)
  Section Merge.
    Variable dbg : debug.
    (** an existing cell keeps its value *)
    Lemma merge_item_cell k v base base' w k0 c : merge_item dbg k v base = Ok base' w ->
      sget k0 base = Some (TCell c) -> exists c', sget k0 base' = Some (TCell c') /\ c_val c' = c_val c.
    Proof.
      intros H Hc. destruct (str_eqb_spec k0 k) as [->|Hne].
      - destruct v as [cv|d|data nk]; cbn [merge_item] in H; rewrite Hc in H; cbn iota in H.
        + destruct (c_val cv) eqn:Ev; [| | |injection H as <- _; eauto];
            (destruct (cv_eqb _ _); injection H as <- _; [eexists; split; [apply sget_sset_eq|reflexivity]|eauto]).
        + injection H as <- _; eauto.
        + injection H as <- _; eauto.
      - assert (Hset : forall n, sget k0 (sset k n base) = Some (TCell c)) by (intros n; rewrite sget_sset_neq; auto).
        destruct v as [cv|d|data nk]; cbn [merge_item] in H; destruct (sget k base) as [[bc|bd|bdata bnk]|];
          try (injection H as <- _; eauto; fail).
        + destruct (c_val cv); try (injection H as <- _; eauto; fail); (destruct (cv_eqb _ _); injection H as <- _; eauto).
        + destruct (c_val cv); injection H as <- _; eauto.
        + destruct (c_val cv); injection H as <- _; eauto.
        + apply bind_ok in H as (x & w1 & w2 & _ & H2 & _). injection H2 as <- _. eauto.
        + apply bind_ok in H as (x & w1 & w2 & _ & H2 & _). injection H2 as <- _. eauto.
    Qed.
    Lemma merge_list_cell m k0 : forall base base' c w, merge_list (merge_item dbg) m base = Ok base' w ->
      sget k0 base = Some (TCell c) -> exists c', sget k0 base' = Some (TCell c') /\ c_val c' = c_val c.
    Proof.
      induction m as [|[k v] m IH]; intros base base' c w; cbn [merge_list].
      - intros [= <- _] H. eauto.
      - intros H Hc. apply bind_ok in H as (b1 & w1 & w2 & H1 & H2 & _).
        destruct (merge_item_cell _ _ _ _ _ _ _ H1 Hc) as (c1 & Hc1 & E1). destruct (IH _ _ _ _ H2 Hc1) as (c2 & Hc2 & E2).
        exists c2. split; [exact Hc2|congruence].
    Qed.
    Lemma merge_item_id k v base base' w i : merge_item dbg k v base = Ok base' w -> idof base = Some i -> idof base' = Some i.
    Proof.
      unfold id_of. intros H Hi. destruct (sget idn base) as [[c|e|? ?]|] eqn:E; try discriminate.
      - destruct (merge_item_cell _ _ _ _ _ _ _ H E) as (c' & -> & ->). exact Hi.
      - destruct xml eqn:Hxml; [|discriminate]. destruct (sget text_key e) as [[c|?|? ?]|] eqn:Et; try discriminate.
        assert (Hsame : base' = base \/ (exists n, k <> idn /\ base' = sset k n base) \/
                  exists e' d w', v = TDict d /\ k = idn /\ merge_list (merge_item dbg) d e = Ok e' w' /\ base' = sset k (TDict e') base).
        { destruct (str_eqb_spec k idn) as [->|Hne].
          - destruct v as [cv|d|data nk]; cbn [merge_item] in H; rewrite E in H; cbn iota in H.
            + left. destruct (c_val cv); injection H as <- _; reflexivity.
            + right. right. apply bind_ok in H as (x & w1 & w2 & H1 & H2 & _). injection H2 as <- _. exists x, d, w1. auto.
            + left. injection H as <- _. reflexivity.
          - destruct v as [cv|d|data nk]; cbn [merge_item] in H; destruct (sget k base) as [[bc|bd|bdata bnk]|];
              try (injection H as <- _; eauto; fail).
            + destruct (c_val cv); try (injection H as <- _; eauto; fail); (destruct (cv_eqb _ _); injection H as <- _; eauto).
            + destruct (c_val cv); injection H as <- _; eauto.
            + destruct (c_val cv); injection H as <- _; eauto.
            + apply bind_ok in H as (x & w1 & w2 & _ & H2 & _). injection H2 as <- _. eauto.
            + apply bind_ok in H as (x & w1 & w2 & _ & H2 & _). injection H2 as <- _. eauto. }
        destruct Hsame as [->|[(n & Hne & ->)|(e' & d & w' & -> & -> & Hm & ->)]].
        + rewrite E, Et. exact Hi.
        + rewrite sget_sset_neq by congruence. rewrite E, Et. exact Hi.
        + rewrite sget_sset_eq. destruct (merge_list_cell _ _ _ _ _ _ Hm Et) as (c' & -> & ->). exact Hi.
    Qed.
    Lemma merge_list_id m : forall base base' w i, merge_list (merge_item dbg) m base = Ok base' w -> idof base = Some i -> idof base' = Some i.
    Proof.
      induction m as [|[k v] m IH]; intros base base' w i; cbn [merge_list].
      - intros [= <- _] H. exact H.
      - intros H Hi. apply bind_ok in H as (b1 & w1 & w2 & H1 & H2 & _). eapply IH; [exact H2|]. eapply merge_item_id; eassumption.
    Qed.

    Definition miok (v : tnode) : Prop := forall k base base' w, iokd base -> iok v -> merge_item dbg k v base = Ok base' w -> iokd base'.
    Lemma merge_list_iok m : Forall (fun kv => miok (snd kv)) m -> iokd m ->
      forall base base' w, iokd base -> merge_list (merge_item dbg) m base = Ok base' w -> iokd base'.
    Proof.
      induction 1 as [|[k v] m Hv _ IH]; intros Hm base base' w Hb; cbn [merge_list].
      - intros [= <- _]. exact Hb.
      - intros H. apply bind_ok in H as (b1 & w1 & w2 & H1 & H2 & _). eapply IH; [intros k' n' Hin; eapply Hm; right; exact Hin| |exact H2].
        eapply Hv; [exact Hb|eapply Hm; left; reflexivity|exact H1].
    Qed.
    Lemma iokd_sset k n d : iokd d -> iok n -> iokd (sset k n d).
    Proof. intros Hd Hn k' n' Hin. apply sset_In in Hin as [E|Hin]; [congruence|eauto]. Qed.
    Lemma merge_data_iok data : Forall (fun kd => Forall (fun kv => miok (snd kv)) (snd kd)) data ->
      (forall k d, In (k, d) data -> (exists i, idof d = Some i /\ sameK k i) /\ iokd d) ->
      forall bdata bnk bdata' w, iokt (bdata, bnk) -> merge_data (merge_item dbg) data bdata = Ok bdata' w -> iokt (bdata', bnk).
    Proof.
      induction 1 as [|[k d] data Hd _ IH]; intros Hm bdata bnk bdata' w Hb; cbn [merge_data].
      - intros [= <- _]. exact Hb.
      - destruct (Hm k d (or_introl eq_refl)) as [Hi Hdk].
        assert (Hm' : forall k d, In (k, d) data -> (exists i, idof d = Some i /\ sameK k i) /\ iokd d) by (intros k0 d0 H0; apply Hm; right; exact H0).
        destruct (kget k bdata) as [b|] eqn:G.
        + intros H. apply bind_ok in H as (b' & w1 & w2 & H1 & H2 & _). eapply IH; [exact Hm'| |exact H2].
          destruct (kget_In _ _ _ G) as (k2 & Hin2 & _).
          assert (Hbi : iokd b) by (apply (it_sub _ Hb); unfold temp_items; simpl; apply in_or_app; left; apply in_map_iff; exists (k2, b); auto).
          eapply iokt_old; [exact Hb|exact G| |].
          * intros k' Hin _. destruct (it_key _ Hb k' b Hin) as (i & Hi' & Hs). exists i. split; [eapply merge_list_id; eassumption|exact Hs].
          * eapply merge_list_iok; [exact Hd|exact Hdk|exact Hbi|exact H1].
        + intros H. eapply IH; [exact Hm'| |exact H]. apply iokt_new; auto.
    Qed.
    Lemma merge_item_iok v : miok v.
    Proof.
      induction v as [c|d IH|data nk IHd IHn] using tnode_ind'; intros k base base' w Hb Hv; cbn [merge_item];
        (destruct (sget k base) as [b|] eqn:Eb; [|intros [= <- _]; apply iokd_sset; assumption]).
      - destruct (c_val c); destruct b as [bc|bd|bdata bnk];
          try (intros [= <- _]; exact Hb);
          (destruct (cv_eqb _ _); intros [= <- _]; [apply iokd_sset; [exact Hb|constructor]|exact Hb]).
      - destruct b as [bc|bd|bdata bnk]; try (intros [= <- _]; exact Hb).
        intros H. apply bind_ok in H as (bd' & w1 & w2 & H1 & H2 & _). injection H2 as <- _. apply iokd_sset; [exact Hb|].
        apply iok_dict_iff. eapply merge_list_iok; [exact IH|apply iok_dict_iff; exact Hv| |exact H1].
        apply iok_dict_iff. eapply Hb. apply sget_In. exact Eb.
      - destruct b as [bc|bd|bdata bnk]; try (intros [= <- _]; exact Hb).
        intros H. apply bind_ok in H as (bd' & w1 & w2 & H1 & H2 & _). injection H2 as <- _. apply iokd_sset; [exact Hb|].
        assert (Hbt : iokt (bdata, bnk)) by (apply iok_temp_iff; eapply Hb; apply sget_In; exact Eb).
        apply iok_temp_iff in Hv. destruct Hv as [V1 V2 V3 V4]. simpl in *.
        assert (Hr : iokt (bd', bnk)).
        { eapply merge_data_iok; [exact IHd| |exact Hbt|exact H1]. intros k0 d0 Hin. split; [eauto|].
          apply V4. unfold temp_items. simpl. apply in_or_app. left. apply in_map_iff. exists (k0, d0). auto. }
        apply iok_temp_iff. destruct Hr as [R1 R2 R3 R4]. constructor; simpl in *; auto.
        + intros d0 Hin. apply in_app_or in Hin as [Hin|Hin]; auto.
        + unfold temp_items in *. simpl in *. intros d0 Hin. rewrite !in_app_iff in Hin. destruct Hin as [Hin|[Hin|Hin]].
          * apply R4. apply in_or_app. auto.
          * apply R4. apply in_or_app. auto.
          * apply V4. apply in_or_app. auto.
    Qed.
    Lemma merge_iok base m base' w : iokd base -> iokd m -> merge dbg base m = Ok base' w -> iokd base'.
    Proof. intros Hb Hm. apply merge_list_iok; [|exact Hm|exact Hb]. apply Forall_forall. intros kv _. apply merge_item_iok. Qed.
  End Merge.

  (** ** Reading the invariant off the output *)
  Lemma vid_tvd d : vid xml idn (tvd d) = idof d.
  Proof.
    unfold vid, id_of. rewrite sget_tvd. destruct (sget idn d) as [[c|e|data nk]|]; cbn [option_map].
    - rewrite tv_cell. reflexivity.
    - rewrite tv_dict. destruct xml; [|reflexivity]. rewrite sget_tvd. destruct (sget text_key e) as [[c|?|? ?]|]; cbn [option_map].
      + rewrite tv_cell. reflexivity.
      + rewrite tv_dict. reflexivity.
      + rewrite tv_temp. reflexivity.
      + reflexivity.
    - rewrite tv_temp. reflexivity.
    - reflexivity.
  Qed.
  Lemma iokt_differ t : iokt t -> ids_differ xml idn (map tvd (temp_items t)).
  Proof.
    intros [H1 H2 H3 H4] a x b y c E (i & j & Hi & Hj & Hij). destruct t as [data nk]. unfold temp_items in E. simpl in *.
    apply map_eq_app in E as (l1 & l2 & El & <- & E). destruct l2 as [|dx l2]; [discriminate|]. injection E as <- E.
    apply map_eq_app in E as (l3 & l4 & -> & <- & E). destruct l4 as [|dy l4]; [discriminate|]. injection E as <- <-.
    rewrite vid_tvd in Hi, Hj.
    assert (Hy : forall d, In d nk -> idof d = None) by exact H3.
    (* both are keyed items *)
    assert (Hkx : exists k1 k2 d1 d2 d3, data = d1 ++ (k1, dx) :: d2 ++ (k2, dy) :: d3).
    { assert (Hy2 : In dy (map snd data ++ nk)) by (rewrite El; rewrite !in_app_iff; simpl; rewrite in_app_iff; simpl; auto).
      clear H1 H2 H4 H3 Hij. revert l1 El Hy2. induction data as [|[k0 d0] data IH]; intros l1 El Hy2; simpl in El.
      - exfalso. assert (In dy nk) by (rewrite El; rewrite !in_app_iff; simpl; rewrite in_app_iff; simpl; auto). rewrite Hy in Hj by assumption. discriminate.
      - destruct l1 as [|z l1]; simpl in El; injection El as -> El.
        + assert (G : exists k2 d2 d3, data = d2 ++ (k2, dy) :: d3).
          { clear IH Hy2. revert l3 El. induction data as [|[k1 d1] data IH2]; intros l3 El; simpl in El.
            - exfalso. assert (In dy nk) by (rewrite El; rewrite !in_app_iff; simpl; auto). rewrite Hy in Hj by assumption. discriminate.
            - destruct l3 as [|z l3]; simpl in El; injection El as -> El; [exists k1, [], data; reflexivity|].
              destruct (IH2 _ El) as (k2 & d2 & d3 & ->). exists k2, ((k1, z) :: d2), d3. reflexivity. }
          destruct G as (k2 & d2 & d3 & ->). exists k0, k2, [], d2, d3. reflexivity.
        + destruct (IH l1 El) as (k1 & k2 & d1 & d2 & d3 & ->); [rewrite El; rewrite !in_app_iff; simpl; rewrite in_app_iff; simpl; auto|].
          exists k1, k2, ((k0, z) :: d1), d2, d3. reflexivity. }
    destruct Hkx as (k1 & k2 & d1 & d2 & d3 & ->).
    destruct (H2 k1 dx) as (i' & Ei & Si); [rewrite !in_app_iff; simpl; auto|].
    destruct (H2 k2 dy) as (j' & Ej & Sj); [rewrite !in_app_iff; simpl; rewrite in_app_iff; simpl; auto 6|].
    rewrite Hi in Ei. injection Ei as <-. rewrite Hj in Ej. injection Ej as <-.
    rewrite map_app in H1. simpl in H1.
    assert (Hk : py_eqb k2 k1 = false).
    { eapply distinct_split; [exact H1|]. rewrite !map_app. simpl. rewrite !in_app_iff. simpl. auto. }
    assert (Hk' : py_eqb k1 k2 = true); [|rewrite py_eqb_sym, Hk' in Hk; discriminate].
    destruct Si as [->|Si], Sj as [->|Sj].
    - exact Hij.
    - eapply py_eqb_trans; [exact Hij|]. rewrite py_eqb_sym. exact Sj.
    - eapply py_eqb_trans; [exact Si|exact Hij].
    - eapply py_eqb_trans; [exact Si|]. eapply py_eqb_trans; [exact Hij|]. rewrite py_eqb_sym. exact Sj.
  Qed.

  Lemma iok_inside n : iok n -> forall l, inside (VList l) (tv n) -> ids_differ xml idn l.
  Proof.
    assert (Hsub : forall d, Pd (fun n => iok n -> forall l, inside (VList l) (tv n) -> ids_differ xml idn l) d -> iokd d ->
              forall k m l, In (k, m) (tvd d) -> inside (VList l) m -> ids_differ xml idn l).
    { intros d H Hd k m l Hin Hm. unfold tvd in Hin. apply in_map_iff in Hin as ([k' n'] & E & Hin). injection E as <- <-.
      unfold Pd in H. rewrite Forall_forall in H. apply (H (k', n') Hin); [eapply Hd; exact Hin|exact Hm]. }
    induction n as [c|d IH|data nk IHd IHn] using tnode_ind'; intros Hn l Hl.
    - rewrite tv_cell in Hl. inversion Hl.
    - rewrite tv_dict in Hl. inversion Hl as [|k m d' Hin Hm E|]; subst. eapply Hsub; [exact IH|apply iok_dict_iff; exact Hn|exact Hin|exact Hm].
    - rewrite tv_temp in Hl. apply iok_temp_iff in Hn. inversion Hl as [E| |k m d' l' Hd Hin Hm E]; subst.
      + apply (iokt_differ (data, nk)). exact Hn.
      + apply in_map_iff in Hd as (d0 & <- & Hd0). assert (Hi : iokd d0) by (apply (it_sub _ Hn); exact Hd0).
        apply in_app_or in Hd0 as [Hd0|Hd0].
        * apply in_map_iff in Hd0 as ([k0 d1] & E & Hd0). simpl in E. subst d1. rewrite Forall_forall in IHd.
          exact (Hsub _ (IHd _ Hd0) Hi _ _ _ Hin Hm).
        * rewrite Forall_forall in IHn. exact (Hsub _ (IHn _ Hd0) Hi _ _ _ Hin Hm).
  Qed.
End Inv.

