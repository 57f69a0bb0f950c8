(** Positions in headings only order the items. *)
From Coq Require Import Lia Permutation Sorting.Sorted.
From Verif.Base Require Import PyStr PyNum PyVal PyDict Outcome.
From Verif.Model Require Import Warn Lib Convert Input.
From Verif.Spec Require Import Headings Plain Ids Same.
From Verif.Proofs Require Import TreeInd RowBuild RowFin RowRead RowRun.

(** ** A list of paths describes one object *)
Lemma keys_eq {V} (d e : list (str * V)) : map fst d = map fst e -> NoDup (map fst d) -> (forall k n m, In (k, n) d -> In (k, m) e -> n = m) -> d = e.
Proof.
  revert e. induction d as [|[k n] d IH]; intros [|[k' m] e] Hk Hnd H; simpl in *; try discriminate; [reflexivity|].
  injection Hk as <- Hk. inversion Hnd; subst. f_equal; [f_equal; eapply H; left; reflexivity|]. apply IH; auto. intros; eapply H; right; eassumption.
Qed.
Lemma shows_unique order n : forall L m, shows order L n -> shows order L m -> n = m.
Proof.
  assert (D : forall d, Pvd (fun n => forall L m, shows order L n -> shows order L m -> n = m) d ->
     forall L e, shows order L (VDict d) -> shows order L (VDict e) -> d = e).
  { intros d HF L e H1 H2. inversion H1 as [|? ? _ K1 C1|]; subst. inversion H2 as [|? ? _ K2 C2|]; subst.
    apply keys_eq; [congruence|rewrite K1; apply fields_NoDup|]. intros k n' m' Hn Hm. unfold Pvd in HF. rewrite Forall_forall in HF. apply (HF _ Hn (after (HKey k) L)); auto. }
  assert (KP : forall L, L <> [] -> begin_with_field L -> @begin_with_position cellval L -> False).
  { intros [|[p v] L] Hne B1 B2; [congruence|]. destruct (B1 p v (or_introl eq_refl)) as (? & ? & ->). destruct (B2 _ v (or_introl eq_refl)) as (? & ? & Q). discriminate. }
  induction n as [v|d IH|l IH] using vnode_ind'; intros L m H1 H2.
  - inversion H1; subst. inversion H2 as [|? ? Hb _ _|? ? _ Hb _]; subst; [reflexivity| |]; destruct (Hb [] v) as (? & ? & ?); try discriminate; left; reflexivity.
  - pose proof H1 as H1'. inversion H1 as [|? ? B1 K1 C1|]; subst. inversion H2 as [v|? ? B2 K2 C2|? ? N2 B2 F2]; subst.
    + destruct (B1 [] v) as (? & ? & ?); [left; reflexivity|discriminate].
    + f_equal. exact (D d IH L d0 H1' H2).
    + destruct (KP L N2 B1 B2).
  - inversion H1 as [| |? ? N1 B1 F1]; subst. inversion H2 as [v|? ? B2 K2 C2|? ? N2 B2 F2]; subst.
    + destruct (B1 [] v) as (? & ? & ?); [left; reflexivity|discriminate].
    + destruct (KP L N1 B2 B1).
    + f_equal. clear H1 H2 B1 B2 N1 N2. revert items F2. induction F1 as [|i x is0 l Hx F1 IHF]; intros items F2; inversion F2; subst; [reflexivity|].
      inversion IH; subst. f_equal; [eapply D; eauto|]. auto.
Qed.

(** ** Arrays whose items all have ids, or none *)
Lemma ids_uniform_after idn s L : ids_uniform idn L -> ids_uniform idn (after s L).
Proof.
  intros H q i j p r v w H1 H2 ->. apply in_after in H1, H2.
  destruct (H (s :: q) i j _ r v w H1 H2 eq_refl) as (y & Hy). exists y. apply in_after. exact Hy.
Qed.
Lemma filter_all {A} (f : A -> bool) l : (forall x, In x l -> f x = true) -> filter f l = l.
Proof. induction l as [|a l IH]; simpl; intros H; [reflexivity|]. rewrite (H a (or_introl eq_refl)). f_equal. auto. Qed.
Lemma filter_none {A} (f : A -> bool) l : (forall x, In x l -> f x = false) -> filter f l = [].
Proof. induction l as [|a l IH]; simpl; intros H; [reflexivity|]. rewrite (H a (or_introl eq_refl)). auto. Qed.
Lemma with_id_in idn {A} (L : list (hpath * A)) i : with_id idn L i = true <-> exists v, In ([HPos i; HKey idn], v) L.
Proof.
  unfold with_id. rewrite existsb_exists. split.
  - intros ([p v] & Hin & H). simpl in H. destruct p as [|[|j] [|[k|] [|]]]; try discriminate. simpl in H. apply andb_true_iff in H as [H1 H2].
    apply Z.eqb_eq in H1 as ->. apply str_eqb_eq in H2 as ->. eauto.
  - intros (v & Hin). eexists. split; [exact Hin|]. simpl. rewrite Z.eqb_refl, str_eqb_refl. reflexivity.
Qed.
Lemma ids_uniform_order idn L : ids_uniform idn L -> ids_first idn L = increasing L.
Proof.
  intros H. unfold ids_first. destruct (existsb (with_id idn L) (increasing L)) eqn:Ex.
  - apply existsb_exists in Ex as (i & _ & Hi). apply with_id_in in Hi as (v & Hv).
    assert (G : forall j, In j (increasing L) -> with_id idn L j = true).
    { intros j Hj. apply in_increasing in Hj. apply in_positions in Hj as (p & w & Hw). apply with_id_in. exact (H [] i j _ p v w Hv Hw eq_refl). }
    rewrite filter_all by exact G. rewrite filter_none; [apply app_nil_r|]. intros j Hj. rewrite (G j Hj). reflexivity.
  - assert (G : forall j, In j (increasing L) -> with_id idn L j = false).
    { intros j Hj. destruct (with_id idn L j) eqn:E; [|reflexivity]. rewrite <- Ex. symmetry. apply existsb_exists. eauto. }
    rewrite filter_none by exact G. apply filter_all. intros j Hj. rewrite (G j Hj). reflexivity.
Qed.
Theorem shows_uniform idn n : forall L, ids_uniform idn L -> shows (ids_first idn) L n -> shows increasing L n.
Proof.
  assert (D : forall d, Pvd (fun n => forall L, ids_uniform idn L -> shows (ids_first idn) L n -> shows increasing L n) d ->
     forall L, ids_uniform idn L -> shows (ids_first idn) L (VDict d) -> shows increasing L (VDict d)).
  { intros d HF L Hu H. inversion H as [|? ? B K C|]; subst. constructor; auto. intros k n' Hin. unfold Pvd in HF. rewrite Forall_forall in HF.
    apply (HF _ Hin); [apply ids_uniform_after; exact Hu|auto]. }
  induction n as [v|d IH|l IH] using vnode_ind'; intros L Hu H.
  - inversion H; subst. constructor.
  - apply D; auto.
  - inversion H as [| |? ? Hn B F]; subst. constructor; auto. rewrite <- (ids_uniform_order idn L Hu). rewrite Forall_forall in IH.
    eapply Forall2_impl_in; [|exact F]. intros i d Hin Hd. apply D; [apply (IH d Hin)|apply ids_uniform_after; exact Hu|exact Hd].
Qed.

(** ** Renumbering *)
Section Renumber.
  Definition rename {A} (f : hpath -> Z -> Z) (q : hpath) (L : list (hpath * A)) : list (hpath * A) := map (fun pv => (renumber f q (fst pv), snd pv)) L.
  Variable f : hpath -> Z -> Z.
  Hypothesis Hf : order_preserving f.
  Lemma f_inj q i j : f q i = f q j -> i = j.
  Proof. intros H. destruct (Z.lt_trichotomy i j) as [G|[G|G]]; [apply (Hf q) in G; lia|exact G|apply (Hf q) in G; lia]. Qed.
  Lemma f_eqb q i j : (f q i =? f q j)%Z = (i =? j)%Z.
  Proof. destruct (Z.eqb_spec i j) as [->|n]; [apply Z.eqb_refl|]. apply Z.eqb_neq. intros H. apply n. eapply f_inj; eauto. Qed.
  Lemma f_leb q i j : (f q i <=? f q j)%Z = (i <=? j)%Z.
  Proof.
    destruct (Z.leb_spec i j) as [H|H].
    - apply Z.leb_le. destruct (Z.eq_dec i j) as [->|n]; [lia|]. assert (i < j)%Z by lia. apply (Hf q) in H0. lia.
    - apply Z.leb_gt. apply Hf. exact H.
  Qed.
  Lemma after_key_rename {A} k q (L : list (hpath * A)) : after (HKey k) (rename f q L) = rename f (q ++ [HKey k]) (after (HKey k) L).
  Proof.
    induction L as [|[p v] L IH]; [reflexivity|]. unfold after, rename in *. cbn [map flat_map fst snd]. rewrite map_app. f_equal; [|exact IH].
    destruct p as [|[k'|i] p]; cbn [renumber hstep_eqb]; try reflexivity. destruct (str_eqb k' k) eqn:E; [|reflexivity]. apply str_eqb_eq in E as ->. reflexivity.
  Qed.
  Lemma after_pos_rename {A} i q (L : list (hpath * A)) : after (HPos (f q i)) (rename f q L) = rename f (q ++ [HPos i]) (after (HPos i) L).
  Proof.
    induction L as [|[p v] L IH]; [reflexivity|]. unfold after, rename in *. cbn [map flat_map fst snd]. rewrite map_app. f_equal; [|exact IH].
    destruct p as [|[k'|j] p]; cbn [renumber hstep_eqb]; try reflexivity. rewrite f_eqb. destruct (j =? i)%Z eqn:E; [|reflexivity]. apply Z.eqb_eq in E as ->. reflexivity.
  Qed.
  Lemma fields_rename {A} q (L : list (hpath * A)) : fields (rename f q L) = fields L.
  Proof. induction L as [|[[|[k|i] p] v] L IH]; cbn [rename map fields renumber fst snd]; [reflexivity|exact IH| |exact IH]. f_equal. unfold rename in IH. rewrite IH. reflexivity. Qed.
  Lemma filter_map_f q i l : filter (fun x => negb (f q i =? x)%Z) (map (f q) l) = map (f q) (filter (fun x => negb (i =? x)%Z) l).
  Proof. induction l as [|j l IH]; [reflexivity|]. cbn [map filter]. rewrite f_eqb. destruct (i =? j)%Z; cbn [negb map]; rewrite IH; reflexivity. Qed.
  Lemma positions_rename {A} q (L : list (hpath * A)) : positions (rename f q L) = map (f q) (positions L).
  Proof.
    induction L as [|[[|[k|i] p] v] L IH]; cbn [rename map positions renumber fst snd]; [reflexivity|exact IH|exact IH|].
    f_equal. unfold rename in IH. rewrite IH. apply filter_map_f.
  Qed.
  Lemma increasing_rename {A} q (L : list (hpath * A)) : increasing (rename f q L) = map (f q) (increasing L).
  Proof.
    unfold increasing. rewrite positions_rename. generalize (positions L). intros l. induction l as [|i l IH]; [reflexivity|]. cbn [map fold_right]. rewrite IH.
    generalize (fold_right insert_pos [] l). intros m. induction m as [|j m IHm]; [reflexivity|]. cbn [map insert_pos]. rewrite f_leb.
    destruct (i <=? j)%Z; [reflexivity|]. cbn [map]. rewrite IHm. reflexivity.
  Qed.
  Lemma with_id_rename {A} idn q (L : list (hpath * A)) i : with_id idn (rename f q L) (f q i) = with_id idn L i.
  Proof.
    unfold with_id, rename. induction L as [|[p v] L IH]; [reflexivity|]. cbn [map existsb fst]. rewrite IH. f_equal.
    destruct p as [|[k|j] [|[k'|j'] [|s p]]]; cbn [renumber is_id]; try reflexivity; try (destruct s; reflexivity). rewrite f_eqb. reflexivity.
  Qed.
  Lemma ids_first_rename {A} idn q (L : list (hpath * A)) : ids_first idn (rename f q L) = map (f q) (ids_first idn L).
  Proof.
    unfold ids_first. rewrite increasing_rename, map_app. f_equal.
    - generalize (increasing L). intros l. induction l as [|i l IH]; [reflexivity|]. cbn [map filter]. rewrite with_id_rename. destruct (with_id idn L i); cbn [map]; rewrite IH; reflexivity.
    - generalize (increasing L). intros l. induction l as [|i l IH]; [reflexivity|]. cbn [map filter]. rewrite with_id_rename. destruct (with_id idn L i); cbn [map negb]; rewrite IH; reflexivity.
  Qed.
  Lemma bwf_rename {A} q (L : list (hpath * A)) : begin_with_field L -> begin_with_field (rename f q L).
  Proof. intros H p v Hin. apply in_map_iff in Hin as ([p' v'] & Q & Hin). injection Q as <- <-. destruct (H _ _ Hin) as (k & r & ->). cbn [fst renumber]. eauto. Qed.
  Lemma bwp_rename {A} q (L : list (hpath * A)) : begin_with_position L -> begin_with_position (rename f q L).
  Proof. intros H p v Hin. apply in_map_iff in Hin as ([p' v'] & Q & Hin). injection Q as <- <-. destruct (H _ _ Hin) as (k & r & ->). cbn [fst renumber]. eauto. Qed.
  Theorem shows_rename idn n : forall q L, shows (ids_first idn) L n -> shows (ids_first idn) (rename f q L) n.
  Proof.
    assert (D : forall d, Pvd (fun n => forall q L, shows (ids_first idn) L n -> shows (ids_first idn) (rename f q L) n) d ->
       forall q L, shows (ids_first idn) L (VDict d) -> shows (ids_first idn) (rename f q L) (VDict d)).
    { intros d HF q L H. inversion H as [|? ? B K C|]; subst. constructor; [apply bwf_rename; exact B|rewrite fields_rename; exact K|]. intros k n' Hin. unfold Pvd in HF. rewrite Forall_forall in HF.
      rewrite after_key_rename. apply (HF _ Hin). auto. }
    induction n as [v|d IH|l IH] using vnode_ind'; intros q L H.
    - inversion H; subst. constructor.
    - apply D; auto.
    - inversion H as [| |? ? Hn B F]; subst. constructor; [destruct L; [congruence|discriminate]|apply bwp_rename; exact B|]. rewrite ids_first_rename.
      rewrite Forall_forall in IH. assert (G : forall x is0, Forall2 (fun i d => shows (ids_first idn) (after (HPos i) L) (VDict d)) is0 x -> incl x l ->
         Forall2 (fun i d => shows (ids_first idn) (after (HPos i) (rename f q L)) (VDict d)) (map (f q) is0) x).
      { induction 1 as [|i d is0 x Hd F' IHF]; intros Hi; [constructor|]. cbn [map]. constructor.
        - rewrite after_pos_rename. apply D; [apply IH; apply Hi; left; reflexivity|exact Hd].
        - apply IHF. intros y Hy. apply Hi. right. exact Hy. }
      apply G; [exact F|apply incl_refl].
  Qed.

  (** conditions on a row are kept too *)
  Lemma compatible_rename p : forall q r, compatible p q -> compatible (renumber f r p) (renumber f r q).
  Proof.
    induction p as [|a p IH]; intros [|b q] r H; simpl in H; try contradiction.
    destruct (hstep_eqb a b) eqn:E.
    - apply hstep_eqb_eq in E as ->. destruct b as [k|i]; cbn [renumber compatible hstep_eqb].
      + rewrite str_eqb_refl. apply IH. exact H.
      + rewrite Z.eqb_refl. apply IH. exact H.
    - destruct a as [k|i], b as [k'|j]; try discriminate; cbn [renumber compatible hstep_eqb] in *.
      + rewrite E. reflexivity.
      + rewrite f_eqb, E. reflexivity.
  Qed.
  Lemma agree_rename {A} q (L : list (hpath * A)) : agree L -> agree (rename f q L).
  Proof.
    unfold agree, rename. induction 1 as [|a L H1 H2 IH]; cbn [map]; [constructor|]. constructor; [|exact IH].
    rewrite Forall_forall in *. intros b Hb. apply in_map_iff in Hb as (b' & <- & Hb). apply compatible_rename. auto.
  Qed.
  Lemma renumber_app p : forall r q, renumber f r (p ++ q) = renumber f r p ++ renumber f (r ++ p) q.
  Proof.
    induction p as [|a p IH]; intros r q; cbn [app]; [rewrite app_nil_r; reflexivity|].
    destruct a as [k|i]; cbn [renumber app]; rewrite IH, <- app_assoc; reflexivity.
  Qed.
  Lemma renumber_split p : forall r a b, renumber f r p = a ++ b -> exists a' b', p = a' ++ b' /\ renumber f r a' = a /\ renumber f (r ++ a') b' = b.
  Proof.
    induction p as [|s p IH]; intros r [|x a] b H.
    - exists [], []. rewrite app_nil_r. auto.
    - simpl in H. discriminate.
    - exists [], (s :: p). rewrite app_nil_r. cbn [app] in H. auto.
    - destruct s as [k|i]; cbn [renumber app] in H; injection H as <- H; apply IH in H as (a' & b' & -> & <- & <-).
      + exists (HKey k :: a'), b'. cbn [app renumber]. rewrite <- app_assoc. auto.
      + exists (HPos i :: a'), b'. cbn [app renumber]. rewrite <- app_assoc. auto.
  Qed.
  Lemma renumber_nil p r : renumber f r p = [] -> p = [].
  Proof. destruct p as [|[k|i] p]; [reflexivity|discriminate|discriminate]. Qed.
  Lemma renumber_inj p : forall r q, renumber f r p = renumber f r q -> p = q.
  Proof.
    induction p as [|a p IH]; intros r [|b q] H; [reflexivity|destruct b; discriminate|destruct a; discriminate|].
    destruct a as [k|i], b as [k'|j]; try discriminate; cbn [renumber] in H; injection H as H1 H2.
    - subst k'. f_equal. eauto.
    - apply f_inj in H1 as ->. f_equal. eauto.
  Qed.
  Lemma id_ends_rename idn {A} (L : list (hpath * A)) : id_ends idn L -> id_ends idn (rename f [] L).
  Proof.
    intros H p v q r Hin Hp. apply in_map_iff in Hin as ([p' v'] & Q & Hin). injection Q as Q <-. rewrite <- Q in Hp. simpl in Hp.
    apply renumber_split in Hp as (a' & b' & -> & <- & Hb). destruct b' as [|[k|i] b']; try discriminate. cbn [renumber] in Hb. injection Hb as -> <-.
    specialize (H _ _ _ _ Hin eq_refl). subst b'. reflexivity.
  Qed.
  Lemma ids_plain_rename idn L : ids_plain idn L -> ids_plain idn (rename f [] L).
  Proof.
    intros H q x Hin. apply in_map_iff in Hin as ([p' v'] & Q & Hin). injection Q as Q <-. simpl in Q |- *.
    apply renumber_split in Q as (a' & b' & -> & <- & Hb). destruct b' as [|[k|i] b']; try discriminate. cbn [renumber] in Hb. injection Hb as -> Hb. apply renumber_nil in Hb. subst b'.
    exact (H _ _ Hin).
  Qed.
  Lemma ids_distinct_rename idn L : ids_distinct idn L -> ids_distinct idn (rename f [] L).
  Proof.
    intros H q i j x y Hx Hy Hij. apply in_map_iff in Hx as ([p1 v1] & Q1 & Hx). apply in_map_iff in Hy as ([p2 v2] & Q2 & Hy).
    injection Q1 as Q1 E1. injection Q2 as Q2 E2. simpl in *. subst v1 v2.
    apply renumber_split in Q1 as (a1 & b1 & -> & A1 & B1). apply renumber_split in Q2 as (a2 & b2 & -> & A2 & B2).
    rewrite <- A1 in A2. apply renumber_inj in A2 as ->. rewrite !app_nil_l in B1, B2.
    destruct b1 as [|[|i1] [|[k1|] b1]]; try discriminate. destruct b2 as [|[|i2] [|[k2|] b2]]; try discriminate. cbn [renumber] in B1, B2.
    injection B1 as E1 -> N1. injection B2 as E2 -> N2. apply renumber_nil in N1, N2. subst b1 b2.
    eapply (H a1 i1 i2); eauto. intros ->. apply Hij. congruence.
  Qed.
End Renumber.

(** ** The order of columns *)
Lemma perm_after {A} s (L M : list (hpath * A)) : Permutation L M -> Permutation (after s L) (after s M).
Proof. intros H. unfold after. apply Permutation_flat_map. exact H. Qed.
Lemma insert_pos_comm i j l : insert_pos i (insert_pos j l) = insert_pos j (insert_pos i l).
Proof.
  induction l as [|a l IH]; cbn [insert_pos].
  - destruct (Z.leb_spec i j), (Z.leb_spec j i); try reflexivity; try lia. assert (i = j) by lia. subst. reflexivity.
  - destruct (Z.leb_spec i a), (Z.leb_spec j a); cbn [insert_pos];
      repeat match goal with |- context [(?x <=? ?y)%Z] => destruct (Z.leb_spec x y) end; try reflexivity; try lia.
    + assert (i = j) by lia. subst. reflexivity.
    + rewrite IH. reflexivity.
Qed.
Lemma sort_perm l m : Permutation l m -> fold_right insert_pos [] l = fold_right insert_pos [] m.
Proof. induction 1; cbn [fold_right]; [reflexivity|congruence|apply insert_pos_comm|congruence]. Qed.
Lemma perm_in {A} (L M : list A) : Permutation L M -> forall x, In x L <-> In x M.
Proof. intros H x. split; apply Permutation_in; [exact H|apply Permutation_sym; exact H]. Qed.
Lemma perm_fields {A} (L M : list (hpath * A)) : Permutation L M -> forall k, In k (fields L) <-> In k (fields M).
Proof. intros H k. rewrite !in_fields. split; intros (p & v & Hin); exists p, v; apply (perm_in _ _ H); exact Hin. Qed.
Lemma perm_positions {A} (L M : list (hpath * A)) : Permutation L M -> Permutation (positions L) (positions M).
Proof.
  intros H. apply NoDup_Permutation; try apply positions_NoDup. intros i. rewrite !in_positions. split; intros (p & v & Hin); exists p, v; apply (perm_in _ _ H); exact Hin.
Qed.
Lemma perm_increasing {A} (L M : list (hpath * A)) : Permutation L M -> increasing L = increasing M.
Proof. intros H. apply sort_perm, perm_positions, H. Qed.
Lemma perm_with_id {A} idn (L M : list (hpath * A)) i : Permutation L M -> with_id idn L i = with_id idn M i.
Proof.
  intros H. destruct (with_id idn L i) eqn:E1, (with_id idn M i) eqn:E2; try reflexivity.
  - apply with_id_in in E1 as (v & Hv). rewrite <- E2. symmetry. apply with_id_in. exists v. apply (perm_in _ _ H). exact Hv.
  - apply with_id_in in E2 as (v & Hv). rewrite <- E1. apply with_id_in. exists v. apply (perm_in _ _ H). exact Hv.
Qed.
Lemma perm_ids_first {A} idn (L M : list (hpath * A)) : Permutation L M -> ids_first idn L = ids_first idn M.
Proof.
  intros H. unfold ids_first. rewrite (perm_increasing L M H). f_equal; apply filter_ext; intros i; rewrite (perm_with_id idn L M i H); reflexivity.
Qed.
Lemma sget_keys {V} k (d : list (str * V)) : sget k d = None <-> ~ In k (map fst d).
Proof.
  split; [intros H; apply sget_None; exact H|]. intros H. destruct (sget k d) eqn:E; [|reflexivity]. apply sget_In in E. exfalso. apply H. apply in_map_iff. exists (k, v). auto.
Qed.
Theorem shows_perm idn n : forall L M m, Permutation L M -> shows (ids_first idn) L n -> shows (ids_first idn) M m -> veq n m.
Proof.
  assert (D : forall d, Pvd (fun n => forall L M m, Permutation L M -> shows (ids_first idn) L n -> shows (ids_first idn) M m -> veq n m) d ->
     forall L M e, Permutation L M -> shows (ids_first idn) L (VDict d) -> shows (ids_first idn) M (VDict e) -> veq (VDict d) (VDict e)).
  { intros d HF L M e HP H1 H2. inversion H1 as [|? ? _ K1 C1|]; subst. inversion H2 as [|? ? _ K2 C2|]; subst. constructor.
    - intros k. rewrite !sget_keys, K1, K2, (perm_fields L M HP k). reflexivity.
    - intros k n' m' Hn Hm. apply sget_In in Hn, Hm. unfold Pvd in HF. rewrite Forall_forall in HF. apply (HF _ Hn (after (HKey k) L) (after (HKey k) M)); auto. apply perm_after. exact HP. }
  assert (KP : forall L M, L <> [] -> Permutation L M -> begin_with_field L -> @begin_with_position cellval M -> False).
  { intros [|[p v] L] M Hne HP B1 B2; [congruence|]. destruct (B1 p v (or_introl eq_refl)) as (? & ? & ->). destruct (B2 (HKey x :: x0) v) as (? & ? & Q); [|discriminate].
    apply (perm_in _ _ HP). left. reflexivity. }
  induction n as [v|d IH|l IH] using vnode_ind'; intros L M m HP H1 H2.
  - inversion H1; subst. apply Permutation_length_1_inv in HP as ->. inversion H2 as [|? ? Hb _ _|? ? _ Hb _]; subst; [constructor| |]; destruct (Hb [] v) as (? & ? & ?); try discriminate; left; reflexivity.
  - pose proof H1 as H1'. inversion H1 as [|? ? B1 K1 C1|]; subst. inversion H2 as [v|? ? B2 K2 C2|? ? N2 B2 F2]; subst.
    + destruct (B1 [] v) as (? & ? & ?); [|discriminate]. apply (perm_in _ _ HP). left. reflexivity.
    + exact (D d IH L M d0 HP H1' H2).
    + apply (KP L M) in B2; auto; [destruct B2|]. intros ->. apply Permutation_nil in HP. congruence.
  - inversion H1 as [| |? ? N1 B1 F1]; subst. inversion H2 as [v|? ? B2 K2 C2|? ? N2 B2 F2]; subst.
    + destruct (B1 [] v) as (? & ? & ?); [|discriminate]. apply (perm_in _ _ HP). left. reflexivity.
    + apply Permutation_sym in HP. apply (KP M L) in B2; auto; [destruct B2|]. intros ->. apply Permutation_nil in HP. congruence.
    + constructor. rewrite <- (perm_ids_first idn L M HP) in F2. clear H1 H2 B1 B2 N1 N2. revert items F2. induction F1 as [|i x is0 l Hx F1 IHF]; intros items F2; inversion F2; subst; [constructor|].
      inversion IH; subst. constructor; [|auto]. eapply D; [eassumption|apply (perm_after (HPos i)); exact HP|exact Hx|assumption].
Qed.

(** ** Whole rows *)
Section Rows.
  Variable O : opts.
  Hypothesis Hxml : o_xml O = false.
  Notation E := (o_conv O).
  Notation idn := (o_id_name O).
  Theorem row_increasing name hs line C W : reads E (o_types O) line C W -> C <> [] -> headed hs line -> agree (map snd C) ->
    ids_plain idn (map snd C) -> id_ends idn (map snd C) -> ids_distinct idn (map snd C) -> ids_uniform idn (map snd C) ->
    exists o w, unflatten O [one_line name hs line] = Ok [o] w /\ shows increasing (map snd C) (VDict o).
  Proof.
    intros HR Hne Hh HA Hpl He Hd Hu. destruct (agreeing_row O Hxml name hs line C W HR Hne Hh HA Hpl He Hd) as (o & Ho & Hs). exists o. eexists. split; [exact Ho|].
    eapply shows_uniform; eauto.
  Qed.
  Theorem row_renumbered f name name' hs hs' line line' C C' W W' : order_preserving f ->
    reads E (o_types O) line C W -> reads E (o_types O) line' C' W' -> map snd C' = map (fun pv => (renumber f [] (fst pv), snd pv)) (map snd C) ->
    C <> [] -> headed hs line -> headed hs' line' -> agree (map snd C) -> ids_plain idn (map snd C) -> id_ends idn (map snd C) -> ids_distinct idn (map snd C) ->
    exists o w w', unflatten O [one_line name hs line] = Ok [o] w /\ unflatten O [one_line name' hs' line'] = Ok [o] w'.
  Proof.
    intros Hf HR HR' HC Hne Hh Hh' HA Hpl He Hd. change (map snd C' = rename f [] (map snd C)) in HC.
    destruct (agreeing_row O Hxml name hs line C W HR Hne Hh HA Hpl He Hd) as (o & Ho & Hs).
    assert (HA' : agree (map snd C')) by (rewrite HC; apply agree_rename; assumption).
    destruct (agreeing_row O Hxml name' hs' line' C' W' HR') as (o' & Ho' & Hs'); auto.
    - intros ->. destruct C; [congruence|discriminate].
    - rewrite HC. apply ids_plain_rename; assumption.
    - rewrite HC. apply id_ends_rename; assumption.
    - rewrite HC. apply ids_distinct_rename; assumption.
    - rewrite HC in Hs'. pose proof (shows_rename f Hf idn _ [] _ Hs) as Hs2. pose proof (shows_unique _ _ _ _ Hs2 Hs') as Q. injection Q as <-. eauto.
  Qed.
  Theorem row_columns_permuted name name' hs hs' line line' C C' W W' :
    reads E (o_types O) line C W -> reads E (o_types O) line' C' W' -> Permutation C C' ->
    C <> [] -> headed hs line -> headed hs' line' -> agree (map snd C) -> ids_plain idn (map snd C) -> id_ends idn (map snd C) -> ids_distinct idn (map snd C) ->
    exists o o' w w', unflatten O [one_line name hs line] = Ok [o] w /\ unflatten O [one_line name' hs' line'] = Ok [o'] w' /\ veq (VDict o) (VDict o').
  Proof.
    intros HR HR' HC Hne Hh Hh' HA Hpl He Hd.
    destruct (agreeing_row O Hxml name hs line C W HR Hne Hh HA Hpl He Hd) as (o & Ho & Hs).
    assert (HP : Permutation (map snd C) (map snd C')) by (apply Permutation_map; exact HC).
    assert (HI : forall x, In x (map snd C') -> In x (map snd C)) by (intros x Hin; apply (perm_in _ _ HP); exact Hin).
    destruct (agreeing_row O Hxml name' hs' line' C' W' HR') as (o' & Ho' & Hs'); auto.
    - intros ->. apply Permutation_sym, Permutation_nil in HC. congruence.
    - (* agree *) clear -HA HP. unfold agree in *. revert HA. generalize (map snd C') (map snd C) HP. clear. intros M L HP. induction HP; intros HA; auto.
      + inversion HA; subst. constructor; auto. rewrite Forall_forall in *. intros y Hy. apply H1. apply (perm_in _ _ HP). exact Hy.
      + inversion HA as [|? ? H1 H2]; subst. inversion H2 as [|? ? H3 H4]; subst. inversion H1 as [|? ? H5 H6]; subst. constructor; constructor; auto. apply compatible_sym. exact H5.
    - intros q x Hin. apply (Hpl q x). auto.
    - intros p v q r Hin. apply (He p v q r). auto.
    - intros q i j x y H1 H2. apply (Hd q i j x y); auto.
    - exists o, o'. do 2 eexists. split; [exact Ho|]. split; [exact Ho'|]. eapply shows_perm; eauto.
  Qed.
End Rows.
