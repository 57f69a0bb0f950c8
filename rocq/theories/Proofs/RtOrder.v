(** The round trip: the order of the items. *)
From Coq Require Import Permutation Lia.
From Verif.Base Require Import PyStr PyNum PyVal PyDict Outcome.
From Verif.Model Require Import Flatten.
From Verif.Spec Require Import Flat Sites Paths.
From Verif.Proofs Require Import JvInd FlattenPaths FlattenItems.

(** [y] comes before every occurrence of [x] *)
Definition before {A} (L : list A) (y x : A) : Prop := forall l1 l2, L = l1 ++ x :: l2 -> In y l1.
Lemma split_app {A} (a b : list A) x l1 l2 : a ++ b = l1 ++ x :: l2 -> (exists m, a = l1 ++ x :: m /\ l2 = m ++ b) \/ (exists m, l1 = a ++ m /\ b = m ++ x :: l2).
Proof.
  revert l1. induction a as [|z a IH]; intros l1 E; cbn [app] in E.
  - right. exists l1. auto.
  - destruct l1 as [|w l1]; cbn [app] in E.
    + injection E as -> <-. left. exists a. auto.
    + injection E as -> E. destruct (IH l1 E) as [(m & -> & ->)|(m & -> & ->)]; [left|right]; exists m; auto.
Qed.
Lemma before_app {A} (a b : list A) y x : before a y x -> In y a \/ before b y x -> before (a ++ b) y x.
Proof.
  intros Ha Hb l1 l2 E. destruct (split_app a b x l1 l2 E) as [(m & E1 & _)|(m & -> & E2)]; [exact (Ha _ _ E1)|]. apply in_or_app. destruct Hb as [Hb|Hb]; [left; exact Hb|right; exact (Hb _ _ E2)].
Qed.
Lemma before_absent {A} (L : list A) y x : ~ In x L -> before L y x.
Proof. intros H l1 l2 ->. exfalso. apply H. apply in_elt. Qed.
Lemma before_map {A B} (f : A -> B) L y x : (forall a b, f a = f b -> a = b) -> before L y x -> before (map f L) (f y) (f x).
Proof.
  intros Hf H l1 l2 E. apply map_eq_app in E as (m1 & m2 & -> & <- & E). apply map_eq_cons in E as (z & m & -> & Ez & <-). apply Hf in Ez. subst z. apply in_map. exact (H _ _ eq_refl).
Qed.
Lemma filter_split {A} (p : A -> bool) L : forall l1 x l2, filter p L = l1 ++ x :: l2 -> exists m1 m2, L = m1 ++ x :: m2 /\ filter p m1 = l1 /\ filter p m2 = l2.
Proof.
  induction L as [|z L IH]; intros l1 x l2 E; cbn [filter] in E; [destruct l1; discriminate|]. destruct (p z) eqn:Ez.
  - destruct l1 as [|w l1]; cbn [app] in E.
    + injection E as -> <-. exists [], L. auto.
    + injection E as -> E. destruct (IH _ _ _ E) as (m1 & m2 & -> & <- & <-). exists (w :: m1), m2. cbn [filter]. rewrite Ez. auto.
  - destruct (IH _ _ _ E) as (m1 & m2 & -> & <- & <-). exists (z :: m1), m2. cbn [filter]. rewrite Ez. auto.
Qed.
Lemma before_filter {A} (p : A -> bool) L y x : before L y x -> p y = true -> before (filter p L) y x.
Proof. intros H Hy l1 l2 E. apply filter_split in E as (m1 & m2 & E & <- & _). apply filter_In. split; [exact (H _ _ E)|exact Hy]. Qed.

Lemma under_inj st a b : under st a = under st b -> a = b.
Proof. destruct a, b. unfold under. cbn. intros E. injection E as -> -> -> ->. reflexivity. Qed.
Lemma under_path st x : it_path (under st x) = st :: it_path x.
Proof. reflexivity. Qed.
(** the items at position [i] of an array *)
Definition at_pos (k : str) (i : nat) (y : jv) : list item :=
  match y with JO e => map (under (k, Some i)) (items_in y) ++ [{| it_at := []; it_key := k; it_pos := i; it_obj := e |}] | _ => [] end.
Lemma each_cons k i y l : items_each k i (y :: l) = at_pos k i y ++ items_each k (S i) l.
Proof. destruct y; reflexivity. Qed.
Lemma at_pos_head k i y x : In x (at_pos k i y) -> exists R, it_path x = (k, Some i) :: R.
Proof.
  destruct y as [| |e]; cbn [at_pos]; [intros []|intros []|]. intros H. apply in_app_or in H as [H|[<-|[]]]; [|exists []; reflexivity]. apply in_map_iff in H as (z & <- & _). exists (it_path z). reflexivity.
Qed.
Lemma each_head k l : forall i x, In x (items_each k i l) -> exists j R, it_path x = (k, Some j) :: R.
Proof.
  induction l as [|y l IH]; intros i x; [intros []|]. rewrite each_cons. intros H. apply in_app_or in H as [H|H]; [|eauto]. apply at_pos_head in H as (R & E). eauto.
Qed.
Lemma piece_head k z x : In x (items_piece k z) -> exists o R, it_path x = (k, o) :: R.
Proof.
  destruct z as [|l|e]; cbn [items_piece]; [intros []| |]; intros H; [apply each_head in H as (j & R & E); eauto|]. apply in_map_iff in H as (w & <- & _). exists None, (it_path w). reflexivity.
Qed.
Lemma each_before k l : forall s p x y j R, it_path x = (k, Some j) :: R -> nth_error l p = Some y ->
  (s + p <= j)%nat -> forall w, In w (at_pos k (s + p) y) -> (s + p = j -> before (at_pos k (s + p) y) w x) -> before (items_each k s l) w x.
Proof.
  induction l as [|z l IH]; intros s p x y j R Hx Hn Hle w Hw Hb; [destruct p; discriminate|]. rewrite each_cons. destruct p as [|p]; cbn [nth_error] in Hn.
  - injection Hn as ->. rewrite Nat.add_0_r in *. apply before_app; [|left; exact Hw]. destruct (Nat.eq_dec s j) as [E|E]; [exact (Hb E)|]. apply before_absent. intros Hin. apply at_pos_head in Hin as (R' & E'). rewrite Hx in E'. congruence.
  - apply before_app.
    + apply before_absent. intros Hin. apply at_pos_head in Hin as (R' & E'). rewrite Hx in E'. injection E' as E' _. lia.
    + right. replace (s + S p)%nat with (S s + p)%nat in * by lia. eapply (IH (S s) p x y j R); eassumption.
Qed.
Lemma each_in k l : forall s p y w, nth_error l p = Some y -> In w (at_pos k (s + p) y) -> In w (items_each k s l).
Proof.
  induction l as [|z l IH]; intros s p y w Hn Hw; [destruct p; discriminate|]. rewrite each_cons. apply in_or_app. destruct p as [|p]; cbn [nth_error] in Hn.
  - injection Hn as ->. rewrite Nat.add_0_r in Hw. left. exact Hw.
  - right. replace (s + S p)%nat with (S s + p)%nat in Hw by lia. eapply IH; eassumption.
Qed.
Lemma pieces_before d k z x w o R : NoDup (map fst d) -> it_path x = (k, o) :: R -> sget k d = Some z -> In w (items_piece k z) -> before (items_piece k z) w x ->
  before (items_in (JO d)) w x.
Proof.
  intros Hn Hx Hg Hw Hb. rewrite items_JO. induction d as [|[k0 z0] d IH]; [discriminate|]. cbn [flat_map fst snd map] in *. inversion Hn as [|? ? Hn1 Hn2]; subst. unfold sget in Hg. cbn [aget] in Hg.
  destruct (str_eqb_spec k k0) as [<-|Hne].
  - injection Hg as ->. apply before_app; [exact Hb|left; exact Hw].
  - apply before_app; [|right; apply IH; assumption]. apply before_absent. intros Hin. apply piece_head in Hin as (o' & R' & E'). congruence.
Qed.

Theorem items_before Q1 : forall v k i j R x y, clean v -> it_path x = Q1 ++ (k, Some j) :: R -> it_path y = Q1 ++ [(k, Some i)] -> (i < j)%nat ->
  at_path v (it_path y) = Some (JO (it_obj y)) -> before (items_in v) y x.
Proof.
  induction Q1 as [|[k0 o0] Q1 IH]; intros v k i j R x y Hc Hx Hy Hij Ha.
  - cbn [app] in Hx, Hy. rewrite Hy in Ha. cbn [at_path] in Ha. destruct v as [| |d]; try discriminate. destruct (sget k d) as [[|l|]|] eqn:Ek; try discriminate. destruct (nth_error l i) as [z|] eqn:Ei; [|discriminate]. injection Ha as ->.
    assert (Hyp : In y (at_pos k (0 + i) (JO (it_obj y)))).
    { cbn [at_pos Nat.add]. apply in_or_app. right. left. destruct y as [a ky py oy]. unfold it_path in Hy. cbn [it_at it_key it_pos it_obj] in *. destruct a as [|? a]; [|destruct a; discriminate]. injection Hy as -> ->. reflexivity. }
    eapply (pieces_before d k (JA l) x y (Some j) R); [exact (proj1 (proj1 (clean_JO d) Hc))|exact Hx|exact Ek| |].
    + cbn [items_piece]. eapply each_in; eassumption.
    + cbn [items_piece]. eapply (each_before k l 0 i x (JO (it_obj y)) j R); [exact Hx|exact Ei|cbn; lia|exact Hyp|cbn; lia].
  - assert (Hex : exists x', x = under (k0, o0) x' /\ it_path x' = Q1 ++ (k, Some j) :: R).
    { destruct x as [a kx px ox]. unfold it_path in *. cbn [it_at it_key it_pos it_obj app] in *. destruct a as [|st a]; [injection Hx as _ Hx; destruct Q1; discriminate|]. cbn [app] in Hx. injection Hx as -> Hx. eexists {| it_at := a; it_key := kx; it_pos := px; it_obj := ox |}. split; [reflexivity|exact Hx]. }
    assert (Hey : exists y', y = under (k0, o0) y' /\ it_path y' = Q1 ++ [(k, Some i)] /\ it_obj y' = it_obj y).
    { destruct y as [a kx px ox]. unfold it_path in *. cbn [it_at it_key it_pos it_obj app] in *. destruct a as [|st a]; [injection Hy as _ Hy; destruct Q1; discriminate|]. cbn [app] in Hy. injection Hy as -> Hy. eexists {| it_at := a; it_key := kx; it_pos := px; it_obj := ox |}. split; [reflexivity|]. split; [exact Hy|reflexivity]. }
    destruct Hex as (x' & -> & Hx'). destruct Hey as (y' & -> & Hy' & _). rewrite under_path in Ha. cbn [at_path] in Ha. destruct v as [| |d]; try discriminate. apply clean_JO in Hc as [Hn Hc]. rewrite Forall_forall in Hc.
    change (it_obj (under (k0, o0) y')) with (it_obj y') in Ha.
    destruct o0 as [i0|].
    + destruct (sget k0 d) as [[|l|]|] eqn:Ek; try discriminate. destruct (nth_error l i0) as [z|] eqn:Ei; [|discriminate].
      pose proof (sget_In _ _ _ Ek) as Hin. specialize (Hc _ Hin). cbn [fst snd] in Hc. destruct Hc as [_ Hcl].
      assert (Hcz : clean z). { apply clean_JA in Hcl. rewrite Forall_forall in Hcl. apply Hcl. eapply nth_error_In. exact Ei. }
      assert (Hiny : In y' (items_in z)). { destruct y' as [a' k' p' o']. apply items_all; [exact Hcz|exact Ha]. }
      assert (Hez : exists e, z = JO e) by (destruct z; [destruct Hiny|destruct Hiny|eauto]). destruct Hez as (e & ->).
      assert (Hyp : In (under (k0, Some i0) y') (at_pos k0 (0 + i0) (JO e))) by (cbn [at_pos Nat.add]; apply in_or_app; left; apply in_map; exact Hiny).
      eapply (pieces_before d k0 (JA l) (under (k0, Some i0) x') _ (Some i0) (it_path x')); [exact Hn|reflexivity|exact Ek| |].
      * cbn [items_piece]. eapply each_in; eassumption.
      * cbn [items_piece]. eapply (each_before k0 l 0 i0 _ (JO e) i0 (it_path x')); [reflexivity|exact Ei|cbn; lia|exact Hyp|]. intros _. cbn [at_pos Nat.add]. apply before_app; [|left; apply in_map; exact Hiny].
        apply before_map; [apply under_inj|]. eapply IH; eassumption.
    + destruct (sget k0 d) as [z|] eqn:Ek; [|discriminate].
      pose proof (sget_In _ _ _ Ek) as Hin. specialize (Hc _ Hin). cbn [fst snd] in Hc. destruct Hc as [_ Hcl].
      assert (Hiny : In y' (items_in z)). { destruct y' as [a' k' p' o']. apply items_all; [exact Hcl|exact Ha]. }
      assert (Hez : exists e, z = JO e) by (destruct z; [destruct Hiny|destruct Hiny|eauto]). destruct Hez as (e & ->).
      eapply (pieces_before d k0 (JO e) (under (k0, None) x') _ None (it_path x')); [exact Hn|reflexivity|exact Ek| |].
      * apply in_map. exact Hiny.
      * cbn [items_piece]. apply before_map; [apply under_inj|]. eapply IH; eassumption.
Qed.

Theorem all_before docs o x y Q1 k i j R : NoDup docs -> (forall d, In d docs -> clean (JO d)) -> In o docs -> it_path x = Q1 ++ (k, Some j) :: R -> it_path y = Q1 ++ [(k, Some i)] -> (i < j)%nat ->
  at_path (JO o) (it_path y) = Some (JO (it_obj y)) -> before (all_items (map JO docs)) (JO o, y) (JO o, x).
Proof.
  intros Hn Hc Ho Hx Hy Hij Ha. induction docs as [|d docs IH]; [destruct Ho|]. inversion Hn as [|? ? Hn1 Hn2]; subst. cbn [map all_items flat_map]. fold (all_items (map JO docs)). destruct Ho as [->|Ho].
  - apply before_app.
    + apply before_map; [intros a b E; congruence|]. eapply items_before; try eassumption. apply Hc. left. reflexivity.
    + left. apply in_map. destruct y as [a' k' p' o']. apply items_all; [apply Hc; left; reflexivity|exact Ha].
  - apply before_app; [|right; apply IH; [exact Hn2|intros; apply Hc; right; assumption|exact Ho]]. apply before_absent. intros Hin. apply in_map_iff in Hin as (z & E & _). injection E as -> _. contradiction.
Qed.
