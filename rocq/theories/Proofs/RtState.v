(** The round trip: the rows of all sheets put together. *)
From Coq Require Import Permutation Lia.
From Verif.Base Require Import PyStr PyNum PyVal PyDict Outcome.
From Verif.Model Require Import Warn Lib Convert Input Flatten.
From Verif.Spec Require Import Paths Headings RoundTrip Alike.
From Verif.Proofs Require Import JvInd TreeInd RowFin RowRead RtMerge RtRow RtLine RtDoc.
Local Open Scope res_scope.

(** ** Keys that are plain values, or null *)
Definition rootish (s : scalar) : Prop := plain_value s \/ s = SNone.
Lemma rootish_eqb x y : rootish x -> rootish y -> py_eqb x y = true <-> x = y.
Proof.
  intros [Hx| ->] [Hy| ->]; [apply plain_eqb; assumption| | |tauto].
  - destruct Hx as [(t & -> & _)|(z & ->)]; split; intros Q; cbn in Q; discriminate Q.
  - destruct Hy as [(t & -> & _)|(z & ->)]; split; intros Q; cbn in Q; discriminate Q.
Qed.
Lemma kget_in {V} s (data : list (scalar * V)) : rootish s -> (forall k d, In (k, d) data -> rootish k) -> forall d, kget s data = Some d -> In (s, d) data.
Proof.
  intros Hs. unfold kget. induction data as [|[k e] data IH]; intros Hp d; cbn [aget]; [discriminate|]. destruct (py_eqb s k) eqn:E.
  - intros [= <-]. left. apply rootish_eqb in E; [congruence|exact Hs|]. eapply Hp. left. reflexivity.
  - intros H. right. apply IH; [|exact H]. intros; eapply Hp; right; eassumption.
Qed.
Lemma in_kget {V} s (data : list (scalar * V)) : rootish s -> (forall k d, In (k, d) data -> rootish k) -> NoDup (map fst data) -> forall d, In (s, d) data -> kget s data = Some d.
Proof.
  intros Hs. unfold kget. induction data as [|[k e] data IH]; intros Hp Hn d; [intros []|]. cbn [map fst] in Hn. inversion Hn as [|? ? Hn1 Hn2]; subst. intros [Q|Hin]; cbn [aget].
  - injection Q as -> ->. rewrite (proj2 (rootish_eqb s s Hs Hs) eq_refl). reflexivity.
  - destruct (py_eqb s k) eqn:E.
    + exfalso. apply rootish_eqb in E; [|exact Hs|eapply Hp; left; reflexivity]. subst. apply Hn1. apply (in_map fst) in Hin. exact Hin.
    + apply IH; [intros; eapply Hp; right; eassumption|exact Hn2|exact Hin].
Qed.
Lemma kget_kset_r {V} s t (v : V) data : rootish s -> rootish t -> (forall k d, In (k, d) data -> rootish k) -> kget s (kset t v data) = if py_eqb s t then Some v else kget s data.
Proof.
  intros Hs Ht. unfold kget, kset. induction data as [|[k e] data IH]; intros Hp; cbn [aget aset].
  - destruct (py_eqb s t); reflexivity.
  - assert (Hk : rootish k) by (eapply Hp; left; reflexivity). destruct (py_eqb t k) eqn:E; cbn [aget].
    + apply rootish_eqb in E; [|exact Ht|exact Hk]. subst k. destruct (py_eqb s t); reflexivity.
    + destruct (py_eqb s k) eqn:E2.
      * destruct (py_eqb s t) eqn:E3; [|reflexivity]. exfalso. apply rootish_eqb in E2; [|exact Hs|exact Hk]. apply rootish_eqb in E3; [|exact Hs|exact Ht]. subst. rewrite (proj2 (rootish_eqb k k Hk Hk) eq_refl) in E. discriminate.
      * apply IH. intros; eapply Hp; right; eassumption.
Qed.
Lemma kset_there {V} s (v w : V) data : rootish s -> (forall k d, In (k, d) data -> rootish k) -> kget s data = Some w ->
  exists a b, data = a ++ (s, w) :: b /\ kset s v data = a ++ (s, v) :: b.
Proof.
  intros Hs. unfold kget, kset. induction data as [|[k e] data IH]; intros Hp; cbn [aget aset]; [discriminate|]. destruct (py_eqb s k) eqn:E.
  - intros [= ->]. apply rootish_eqb in E; [|exact Hs|eapply Hp; left; reflexivity]. subst k. exists [], data. auto.
  - intros H. destruct (IH (fun k d Hi => Hp k d (or_intror Hi)) H) as (a & b & -> & ->). exists ((k, e) :: a), b. auto.
Qed.

(** ** Completeness: a tree that has every place is the same as the document *)
Lemma nth_seq {A} (l : list A) d : map (fun i => nth i l d) (seq 0 (length l)) = l.
Proof.
  induction l as [|x l IH]; [reflexivity|]. cbn [length seq map nth]. f_equal. rewrite <- seq_shift, map_map. exact IH.
Qed.
Section Same.
  Context {alike : jv -> cellval -> Prop}.
  Variables (idn : str) (ord : Prop) (arranged : list jv -> list jv -> Prop).
  Hypothesis Harr : forall l l', Permutation l l' -> (ord -> l = l') -> arranged l l'.
  Lemma nth_items l idx data : (forall i, In i idx -> i < length l) -> NoDup idx -> (ord -> idx = seq 0 (length idx)) -> (forall i, i < length l -> In i idx) ->
    forall (R : jv -> scalar * tdict -> Prop), Forall2 (fun i kd => exists y, nth_error l i = Some y /\ R y kd) idx data ->
    exists l', Permutation l l' /\ (ord -> l = l') /\ Forall2 R l' data.
  Proof.
    intros Hlt Hnd Hord Hall R F. exists (map (fun i => nth i l (JS SNone)) idx).
    assert (HP : Permutation idx (seq 0 (length l))).
    { apply NoDup_Permutation; [exact Hnd|apply seq_NoDup|]. intros i. rewrite in_seq. split; [intros Hi; specialize (Hlt i Hi); lia|intros [_ Hi]; apply Hall; lia]. }
    split; [|split].
    - rewrite <- (nth_seq l (JS SNone)) at 1. apply Permutation_map. apply Permutation_sym. exact HP.
    - intros Ho. rewrite (Hord Ho). apply Permutation_length in HP. rewrite seq_length in HP. rewrite HP. symmetry. apply nth_seq.
    - clear - F. induction F as [|i kd idx data (y & Hy & HR) F IH]; [constructor|]. cbn [map]. constructor; [|exact IH]. rewrite (nth_error_nth _ _ (JS SNone) Hy). exact HR.
  Qed.
  Theorem complete_same n : forall x, tidy idn x -> view (alike := alike) idn ord x n -> (forall q y, at_x x q = Some y -> has idn x n q) -> comes alike arranged x (vnode_of n).
  Proof.
    assert (D : forall d, Pd (fun n => forall x, tidy idn x -> view (alike := alike) idn ord x n -> (forall q y, at_x x q = Some y -> has idn x n q) -> comes alike arranged x (vnode_of n)) d ->
              forall o, tidy idn (JO o) -> view (alike := alike) idn ord (JO o) (TDict d) -> (forall q y, at_x (JO o) q = Some y -> has idn (JO o) (TDict d) q) -> comes alike arranged (JO o) (VDict (vdict_of d))).
    { intros d IH o Ht Hv Hc. inversion Hv as [|? ? Hn Hd|]; subst. destruct (tidy_JO idn o Ht) as (_ & Hno & Ha & _). apply comes_object.
      - rewrite vdict_keys. exact Hn.
      - intros k. rewrite vdict_keys. split; intros Hk.
        + apply in_map_iff in Hk as ([k' y] & <- & Hk). cbn [fst]. pose proof (In_sget _ _ _ Hno Hk) as Hg.
          specialize (Hc [XKey k'] y). cbn [at_x has] in Hc. rewrite Hg in Hc. specialize (Hc eq_refl). destruct (sget k' d) as [m|] eqn:Em; [|destruct Hc]. apply sget_In in Em. apply (in_map fst) in Em. exact Em.
        + apply in_map_iff in Hk as ([k' m] & <- & Hk). cbn [fst]. pose proof (In_sget _ _ _ Hn Hk) as Hg. destruct (Hd _ _ Hg) as (y & Hy & _). apply sget_In in Hy. apply (in_map fst) in Hy. exact Hy.
      - intros k x n0 Hx Hn'. apply sget_In in Hn'. apply in_vdict in Hn' as (m & Hin & ->). pose proof (In_sget _ _ _ Hn Hin) as Hg. destruct (Hd _ _ Hg) as (y & Hy & Hvy).
        rewrite Hx in Hy. injection Hy as <-. unfold Pd in IH. rewrite Forall_forall in IH. apply (IH _ Hin x).
        + apply sget_In in Hx. exact (proj2 (Ha _ _ Hx)).
        + exact Hvy.
        + intros q z Hq. specialize (Hc (XKey k :: q) z). cbn [at_x has] in Hc. rewrite Hx, Hg in Hc. exact (Hc Hq). }
    induction n as [c|d IH|data nk IHd IHn] using tnode_ind'; intros x Ht Hv Hc.
    - inversion Hv as [y ? Hly Hcv| |]; subst. apply comes_leaf. exact Hcv.
    - inversion Hv; subst. rewrite vnode_dict. apply D; assumption.
    - inversion Hv as [| |l ? idx Hnl Hnd Hor F]; subst. rewrite vnode_temp. unfold temp_items. cbn [fst snd]. rewrite app_nil_r, map_map.
      assert (Hi : forall i, (i < length l)%nat -> exists s o d, item_at idn l i s o /\ kget s data = Some d /\ forall q y, at_x (JO o) q = Some y -> has idn (JO o) (TDict d) q).
      { intros i Hlt. apply nth_error_Some in Hlt. destruct (nth_error l i) as [y|] eqn:Ey; [|congruence]. assert (exists o, y = JO o) as (o & ->). { destruct (tidy_JA idn l Ht) as [Hl|(_ & _ & _ & Hj)]; [contradiction|]. apply Hj. eapply nth_error_In. exact Ey. }
        destruct (item_get idn l i o Ht Ey) as (s & Ho).
        pose proof (Hc [XIdx i] (JO o)) as H1. cbn [at_x has] in H1. rewrite Ey in H1. specialize (H1 eq_refl). destruct Ho as [Ho1 Ho2]. rewrite Ho2 in H1.
        match type of H1 with match ?e with _ => _ end => destruct e as [d|] eqn:Ed end; [|destruct H1]. exists s, o, d. split; [split; assumption|]. split; [exact Ed|]. intros q y Hq. specialize (Hc (XIdx i :: q) y). cbn [at_x has] in Hc. rewrite Ey, Ho2, Ed in Hc. exact (Hc Hq). }
      assert (F2 : Forall2 (fun i kd => exists y, nth_error l i = Some y /\ comes alike arranged y (VDict (vdict_of (snd kd)))) idx data).
      { assert (G : forall i kd, In i idx -> In kd data -> (exists o, item_at idn l i (fst kd) o /\ view (alike := alike) idn ord (JO o) (TDict (snd kd))) -> exists y, nth_error l i = Some y /\ comes alike arranged y (VDict (vdict_of (snd kd)))).
        { intros i [k d] Hii Hin (o & Ho & Hvo). cbn [fst snd] in *. exists (JO o). split; [exact (proj1 Ho)|].
          destruct (item_plain idn l i k o Ht Ho) as [Hk Hto]. destruct (Hi i) as (s & o2 & d2 & Ho2 & Ed2 & Hc2). { apply nth_error_Some. destruct Ho as [Ho _]. congruence. }
          assert (o2 = o) as -> by (destruct Ho as [A _], Ho2 as [B _]; congruence). assert (s = k) as -> by (destruct Ho as [_ A], Ho2 as [_ B]; congruence).
          rewrite (In_kget k data Hk (list_plain idn ord l data idx Ht F) (list_keys idn ord l data idx Ht Hnd F) d Hin) in Ed2. injection Ed2 as <-.
          apply D; [|exact Hto|exact Hvo|exact Hc2]. rewrite Forall_forall in IHd. exact (IHd _ Hin). }
        clear - F G. induction F as [|i kd idx data H F IH]; [constructor|]. constructor; [apply G; [left; reflexivity|left; reflexivity|exact H]|]. apply IH. intros; apply G; [right; assumption|right; assumption|assumption]. }
      destruct (nth_items l idx data) with (R := fun (y : jv) (kd : scalar * tdict) => comes alike arranged y (VDict (vdict_of (snd kd)))) as (l' & HP & HO & F3); [| | | |exact F2|].
      + intros i Hii. destruct (Forall2_in_l _ _ _ F _ Hii) as (kd & _ & (o & Ho & _)). apply nth_error_Some. destruct Ho as [Ho _]. congruence.
      + exact Hnd.
      + exact Hor.
      + intros i Hlt. destruct (Hi i Hlt) as (s & o & d & Ho & Ed & _). exact (proj1 (list_get idn ord l data idx i s o d Ht F Ho Ed)).
      + apply (comes_array alike arranged l l'); [apply Harr; assumption|]. clear - F3. induction F3; constructor; assumption.
  Qed.
  (** every place leads to a value *)
  Lemma leaf_below x : tidy idn x -> exists r y, at_x x r = Some y /\ leaf y.
  Proof.
    induction x as [s|l IH|d IH] using jv_ind'; intros Ht.
    - inversion Ht; subst. exists [], (JS s). auto.
    - destruct (tidy_JA idn l Ht) as [Hl|(Hne & Ha & _ & Hj)]; [exists [], (JA l); auto|]. destruct l as [|y l]; [congruence|]. inversion IH as [|? ? IHy _]; subst.
      destruct (IHy (proj1 (Ha y (or_introl eq_refl)))) as (r & z & Hr & Hz). destruct (Hj y (or_introl eq_refl)) as (o & ->). exists (XIdx 0 :: r), z. split; [exact Hr|exact Hz].
    - destruct (tidy_JO idn d Ht) as (Hne & _ & Ha & _). destruct d as [|[k v] d]; [congruence|]. inversion IH as [|? ? IHy _]; subst. destruct (IHy (proj2 (Ha k v (or_introl eq_refl)))) as (r & z & Hr & Hz).
      exists (XKey k :: r), z. split; [|exact Hz]. cbn [at_x]. unfold sget. cbn [aget]. rewrite str_eqb_refl. exact Hr.
  Qed.
  Lemma leaves_all x n : tidy idn x -> (forall q y, at_x x q = Some y -> leaf y -> has idn x n q) -> forall q y, at_x x q = Some y -> has idn x n q.
  Proof.
    intros Ht H q y Hq. destruct (leaf_below y (tidy_at idn _ _ _ Ht Hq)) as (r & z & Hr & Hz). eapply has_app. apply (H (q ++ r) z); [|exact Hz]. rewrite at_x_app, Hq. exact Hr.
  Qed.
End Same.
