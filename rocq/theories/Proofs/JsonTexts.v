(** The text that unflatten writes; from text to text. *)
From Coq Require Import QArith Qpower Permutation Lia.
From Verif.Base Require Import PyStr PyNum PyVal PyDict Outcome.
From Verif.Model Require Import Json Flatten Commands JsonText.
From Verif.Spec Require Import Paths Commands RoundTrip Trip JsonGrammar JsonTrip.
From Verif.Proofs Require Import JvInd JsonScan JsonWrite.
Local Open Scope list_scope.

(** ** What unflatten writes *)
Fixpoint jsonv_ind' (P : jsonv -> Prop) (H1 : forall j, match j with JArr _ => False | _ => True end -> P j)
  (H2 : forall l, Forall P l -> P (JArr l)) (j : jsonv) : P j :=
  match j with
  | JArr l => H2 l ((fix go l : Forall P l := match l with [] => Forall_nil _ | x :: l' => Forall_cons x (jsonv_ind' P H1 H2 x) (go l') end) l)
  | j => H1 j I
  end.
Fixpoint jout_ind' (P : jout -> Prop) (H1 : forall j, P (OLeaf j)) (H2 : forall l, Forall P l -> P (OArr l))
  (H3 : forall d, Forall (fun kx => P (snd kx)) d -> P (OObj d)) (j : jout) : P j :=
  match j with
  | OLeaf x => H1 x
  | OArr l => H2 l ((fix go l : Forall P l := match l with [] => Forall_nil _ | x :: l' => Forall_cons x (jout_ind' P H1 H2 H3 x) (go l') end) l)
  | OObj d => H3 d ((fix go (d : list (str * jout)) : Forall (fun kx => P (snd kx)) d := match d with [] => Forall_nil _ | kx :: d' => Forall_cons kx (jout_ind' P H1 H2 H3 (snd kx)) (go d') end) d)
  end.
Lemma tells_array E lax l vs : Forall2 (tells E lax) l vs -> tells E lax (JA l) (VArr vs).
Proof. apply tl_array. Qed.
Lemma leaf_plain T lax j : forall v, leaf_tells T lax j v -> tells (te_env T) lax (plain_leaf T j) v.
Proof.
  induction j as [j Hj|l IH] using jsonv_ind'; intros v H.
  - inversion H; subst; cbn [plain_leaf]; try constructor; try assumption. destruct Hj.
  - inversion H as [| | | | | |l' vs Hl|]; subst. cbn [plain_leaf]. apply tl_array. clear H. induction Hl as [|x y l vs Hx _ IHl]; [constructor|].
    apply Forall_cons_iff in IH as [H1 H2]. cbn [map]. constructor; [apply H1; exact Hx|exact (IHl H2)].
Qed.
Lemma out_plain T lax j : forall v, out_tells T lax j v -> tells (te_env T) lax (plain T j) v.
Proof.
  induction j as [j|l IH|d IH] using jout_ind'; intros v H.
  - inversion H; subst. cbn [plain]. apply leaf_plain. assumption.
  - inversion H as [|l' vs Hl|]; subst. cbn [plain]. apply tl_array. clear H. induction Hl as [|x y l vs Hx _ IHl]; [constructor|].
    apply Forall_cons_iff in IH as [H1 H2]. cbn [map]. constructor; [apply H1; exact Hx|exact (IHl H2)].
  - inversion H as [| |d' vs Hd]; subst. cbn [plain]. apply tl_object. clear H. induction Hd as [|[k x] [k' y] d vs [Hk Hx] _ IHd]; [constructor|].
    apply Forall_cons_iff in IH as [H1 H2]. cbn [map fst snd] in *. constructor; [split; [exact Hk|apply H1; exact Hx]|exact (IHd H2)].
Qed.
Lemma leaf_always T lax j : floats_are_json (te_env T) -> plain_leaf_data T j -> exists v, leaf_tells T lax j v.
Proof.
  intros HE. induction j as [j Hj|l IH] using jsonv_ind'; intros H; inversion H as [d Hd|f Hf|g Hg|l' Hl|j' Ho]; subst.
  - destruct (plain_tells _ lax _ HE Hd) as [v Hv]. exists v. constructor. exact Hv.
  - destruct (plain_tells _ lax _ HE Hf) as [v Hv]. exists v. constructor. exact Hv.
  - destruct (plain_tells _ lax _ HE Hg) as [v Hv]. exists v. constructor. exact Hv.
  - destruct Hj.
  - destruct j; try destruct Ho; eexists; constructor.
  - assert (exists vs, Forall2 (leaf_tells T lax) l vs) as [vs Hv]; [|exists (VArr vs); constructor; exact Hv]. clear H.
    induction IH as [|y l Hy _ IHl]; [exists []; constructor|]. apply Forall_cons_iff in Hl as [H1 H2]. destruct (Hy H1) as [z Hz]. destruct (IHl H2) as [vs Hv]. exists (z :: vs). constructor; assumption.
  - destruct Ho.
Qed.
Theorem out_always T lax j : floats_are_json (te_env T) -> plain_out T j -> exists v, out_tells T lax j v.
Proof.
  intros HE. induction j as [j|l IH|d IH] using jout_ind'; intros H; inversion H as [j' Hj|l' Hl|d' Hd]; subst.
  - destruct (leaf_always T lax j HE Hj) as [v Hv]. exists v. constructor. exact Hv.
  - assert (exists vs, Forall2 (out_tells T lax) l vs) as [vs Hv]; [|exists (VArr vs); constructor; exact Hv]. clear H.
    induction IH as [|y l Hy _ IHl]; [exists []; constructor|]. apply Forall_cons_iff in Hl as [H1 H2]. destruct (Hy H1) as [z Hz]. destruct (IHl H2) as [vs Hv]. exists (z :: vs). constructor; assumption.
  - assert (exists vs, Forall2 (fun kx ky => fst kx = fst ky /\ out_tells T lax (snd kx) (snd ky)) d vs) as [vs Hv]; [|exists (VObj vs); constructor; exact Hv]. clear H.
    induction IH as [|[k y] d Hy _ IHd]; [exists []; constructor|]. apply Forall_cons_iff in Hd as [H1 H2]. destruct (Hy H1) as [z Hz]. destruct (IHd H2) as [vs Hv].
    exists ((k, z) :: vs). constructor; [split; [reflexivity|exact Hz]|exact Hv].
Qed.
Theorem text_says T lax j v : out_tells T lax j v -> document_says lax (json_text T j) v.
Proof. intros H. apply written. apply out_plain. exact H. Qed.
Theorem text_loads T lax j v : out_tells T lax j v -> keys_once v -> loads (json_text T j) = Some v.
Proof. intros H Hk. exact (document_loaded lax _ v (text_says T lax j v H) Hk). Qed.
Theorem text_odd T j v : out_tells T true j v -> has_odd v -> forall y, ~ document_says false (json_text T j) y.
Proof. intros H Ho. exact (odd_not_json (te_env T) (plain T j) 0 v (out_plain T true j v H) Ho). Qed.

(** ** Numbers *)
Lemma pow10_Q e : (pow10 e == Qpower (10 # 1) e)%Q.
Proof.
  unfold pow10. destruct (Z.leb_spec 0 e) as [L|L].
  - change (10 # 1)%Q with (inject_Z 10). apply Zpower_Qpower. exact L.
  - change (10 # 1)%Q with (inject_Z 10). rewrite <- (Z.opp_involutive e) at 2. rewrite Qpower_opp. rewrite Zpower_Qpower by lia. reflexivity.
Qed.
(** the number that [flatten] reads is the one of the text *)
Lemma quantity_read v q : quantity v = Some q -> exists s p, data_of v = JS s /\ num_val s = Some (XFin p) /\ (p == q)%Q /\ RoundTrip.number s = true.
Proof.
  destruct v as [|b|z|neg c e|o|t|l|d]; try discriminate; cbn [quantity]; intros [= <-]; cbn [data_of]; eexists; eexists; (split; [reflexivity|]); (split; [reflexivity|]); (split; [|reflexivity]).
  - reflexivity.
  - rewrite pow10_Q. destruct neg; reflexivity.
Qed.
Lemma eqb_number a b p : num_val a = Some (XFin p) -> py_eqb a b = true -> exists q, num_val b = Some (XFin q) /\ (p == q)%Q.
Proof.
  intros Ea. unfold py_eqb. rewrite Ea. destruct (num_val b) as [[q|n|]|]; try discriminate. intros H. exists q. split; [reflexivity|]. apply Qeq_bool_iff. exact H.
Qed.
Lemma same_number_of a b p q : quantity a = Some p -> quantity b = Some q -> (p == q)%Q -> same_number a b.
Proof. intros H1 H2 H3. exists p, q. split; [exact H1|]. split; [exact H2|exact H3]. Qed.

Section Same.
  Variables (T : tenv) (arrJ : list jv -> list jv -> Prop) (arrV : list jval -> list jval -> Prop).
  Hypothesis Hback : forall l m, arrJ (map data_of l) m -> exists l', m = map data_of l' /\ arrV l l'.
  Hypothesis Hin : forall l l', arrV l l' -> forall x, In x l' -> In x l.
  Hypothesis Hrefl : forall l, arrV l l.

  Lemma value_told v s j : data_of v = JS s -> value_json s j -> digits_kept T v -> exists x, leaf_tells T false j x /\ same_data arrV v x.
  Proof.
    intros Hv Hj Hk. destruct (quantity v) as [q|] eqn:Eq.
    - destruct (quantity_read v q Eq) as (s' & p & Es & Ep & Epq & En). rewrite Hv in Es. injection Es as <-.
      destruct Hj as [t|b|s z Ns Es|s d Ns Es Hz|s f Ns Es]; [discriminate Ep|discriminate En|..].
      + destruct (eqb_number _ _ _ Ep Es) as (q' & [= <-] & E'). exists (VInt z). split; [constructor|]. apply sd_number. apply (same_number_of v (VInt z) q (inject_Z z) Eq eq_refl).
        rewrite <- Epq. exact E'.
      + destruct (eqb_number _ _ _ Ep Es) as (q' & Eq' & E'). destruct (Hk (te_double T d)) as (n & m & x & b & Ef & Hb & Hs).
        { exists q. split; [exact Eq|]. left. exists d, q'. split; [reflexivity|]. split; [exact Eq'|]. split; [rewrite <- E', <- Epq; reflexivity|].
          intros z Hqz. specialize (Hz z). unfold py_eqb in Hz. rewrite Ep in Hz. cbn [num_val xnum_eqb] in Hz.
          apply Qeq_bool_neq in Hz. apply Hz. rewrite Epq. exact Hqz. }
        exists b. split; [|apply sd_number; exact Hs]. constructor. rewrite Ef in *. constructor. exact Hb.
      + destruct (eqb_number _ _ _ Ep Es) as (q' & Eq' & E'). destruct (Hk f) as (n & m & x & b & Ef & Hb & Hs).
        { exists q. split; [exact Eq|]. right. exists q'. split; [exact Eq'|]. rewrite <- E', <- Epq. reflexivity. }
        exists b. split; [|apply sd_number; exact Hs]. constructor. rewrite Ef in *. constructor. exact Hb.
    - destruct v as [|b|z|neg c e|o|t|l|d]; try discriminate Eq; try discriminate Hv; cbn [data_of] in Hv; injection Hv as <-.
      + inversion Hj; subst; match goal with H : _ = true |- _ => discriminate H end.
      + inversion Hj; subst; try (match goal with H : _ = true |- _ => discriminate H end). exists (VBool b). split; constructor.
      + exfalso. inversion Hj as [| |s z _ X|s d _ X _|s f _ X]; subst; unfold py_eqb in X; cbn [num_val] in X; [discriminate X| |].
        * destruct d; discriminate X.
        * destruct f; discriminate X.
      + inversion Hj; subst; try (match goal with H : _ = true |- _ => discriminate H end). exists (VStr t). split; constructor.
  Qed.
  Lemma leaf_told v : forall j, leaf_json (data_of v) j -> all_digits_kept T v -> exists x, leaf_tells T false j x /\ same_data arrV v x.
  Proof.
    induction v as [v Hv|l IH|d IH] using jval_ind'; intros j Hj Hk.
    - remember (data_of v) as y eqn:Ey. destruct Hj as [s j Hj|l m Hl]; [apply (value_told v s j (eq_sym Ey) Hj); apply Hk; constructor|].
      exfalso. destruct v; try discriminate Ey; exact Hv.
    - cbn [data_of] in Hj. inversion Hj as [|l' m Hl]; subst.
      assert (exists xs, Forall2 (leaf_tells T false) m xs /\ Forall2 (same_data arrV) l xs) as (xs & H1 & H2).
      { assert (forall v, In v l -> all_digits_kept T v) as Hk' by (intros v Hv x Hx; apply Hk; apply (vi_array x l v Hv Hx)).
        clear Hk Hj. revert m Hl. induction IH as [|v l Hv _ IHl]; intros m Hl; inversion Hl as [|? j ? m' Hj Hm]; subst; [exists []; split; constructor|].
        destruct (Hv j Hj (Hk' v (or_introl eq_refl))) as (x & A & B). destruct (IHl (fun w Hw => Hk' w (or_intror Hw)) m' Hm) as (xs & C & D).
        exists (x :: xs). split; constructor; assumption. }
      exists (VArr xs). split; [constructor; exact H1|]. apply (sd_array arrV l l xs (Hrefl l) H2).
    - cbn [data_of] in Hj. inversion Hj.
  Qed.
  Lemma sget_data k d : sget k (map (fun kx => (fst kx, data_of (snd kx))) d) = option_map data_of (sget k d).
  Proof. induction d as [|[k' x] d IHd]; [reflexivity|]. cbn [map fst snd]. cbn [sget aget] in *. destruct (str_eqb k k'); [reflexivity|exact IHd]. Qed.
  Theorem json_told v : forall j, same_json arrJ (data_of v) j -> all_digits_kept T v -> exists x, out_tells T false j x /\ same_data arrV v x.
  Proof.
    induction v as [v Hv|l IH|d IH] using jval_ind'; intros j Hj Hk.
    - inversion Hj as [y j' Hl Ey|o e _ _ _ Ey|l l' m _ _ Ey]; subst.
      + destruct (leaf_told v j' Hl Hk) as (x & A & B). exists x. split; [constructor; exact A|exact B].
      + exfalso. destruct v; try discriminate Ey; exact Hv.
      + exfalso. destruct v; try discriminate Ey; exact Hv.
    - inversion Hj as [y j' Hl Ey|o e _ _ _ Ey|lj l' m Ha Hm Ey]; subst.
      + destruct (leaf_told (VArr l) j' Hl Hk) as (x & A & B). exists x. split; [constructor; exact A|exact B].
      + destruct (Hback l l' Ha) as (lv & -> & Hav).
        assert (exists xs, Forall2 (out_tells T false) m xs /\ Forall2 (same_data arrV) lv xs) as (xs & H1 & H2).
        { assert (forall v, In v lv -> all_digits_kept T v /\ forall j, same_json arrJ (data_of v) j -> all_digits_kept T v -> exists x, out_tells T false j x /\ same_data arrV v x) as Hk'.
          { intros v Hv. pose proof (Hin l lv Hav v Hv) as Hvl. split; [intros x Hx; apply Hk; apply (vi_array x l v Hvl Hx)|]. exact (proj1 (Forall_forall _ _) IH v Hvl). }
          clear Hk Hj IH Ha Hav. revert m Hm. induction lv as [|v lv IHl]; intros m Hl; inversion Hl as [|? j ? m' Hj Hm]; subst; [exists []; split; constructor|].
          destruct (Hk' v (or_introl eq_refl)) as [Hkv Hvj]. destruct (Hvj j Hj Hkv) as (x & A & B). destruct (IHl (fun w Hw => Hk' w (or_intror Hw)) m' Hm) as (xs & C & D).
          exists (x :: xs). split; constructor; assumption. }
        exists (VArr xs). split; [constructor; exact H1|]. exact (sd_array arrV l lv xs Hav H2).
    - inversion Hj as [y j' Hl Ey|o e Hn Hs Hf Ey|lj l' m _ _ Ey]; subst; [inversion Hl|].
      assert (forall k, In k (map fst d) <-> In k (map fst e)) as Hs' by (intros k; rewrite <- Hs, map_map; reflexivity).
      assert (exists xs, Forall2 (fun kx ky => fst kx = fst ky /\ out_tells T false (snd kx) (snd ky)) e xs /\
                (forall k x y, sget k d = Some x -> sget k xs = Some y -> same_data arrV x y)) as (xs & H1 & H2).
      { assert (forall k j, In (k, j) e -> exists v, In (k, v) d /\ sget k d = Some v /\ same_json arrJ (data_of v) j) as He.
        { intros k j' Hi. assert (In k (map fst d)) as Hkd by (apply Hs'; apply in_map_iff; exists (k, j'); split; [reflexivity|exact Hi]).
          destruct (sget k d) as [v|] eqn:Ed; [|exfalso; apply sget_None in Ed; exact (Ed Hkd)]. exists v. split; [apply sget_In; exact Ed|]. split; [reflexivity|].
          apply (Hf k (data_of v) j'); [rewrite sget_data, Ed; reflexivity|apply In_sget; assumption]. }
        assert (forall k v, In (k, v) d -> all_digits_kept T v) as Hkd by (intros k v Hv x Hx; apply Hk; apply (vi_object x d k v Hv Hx)).
        clear Hs Hs' Hf Hj Hk. induction e as [|[k j] e IHe]; [exists []; split; [constructor|discriminate]|].
        cbn [map fst] in Hn. apply NoDup_cons_iff in Hn as [Hk Hn]. destruct IHe as (xs & C & D); [exact Hn|intros k' j' Hi; apply He; right; exact Hi|].
        destruct (He k j (or_introl eq_refl)) as (v & Hv & Ev & Hj). destruct (proj1 (Forall_forall _ _) IH (k, v) Hv j Hj (Hkd k v Hv)) as (x & A & B).
        exists ((k, x) :: xs). split; [constructor; [split; [reflexivity|exact A]|exact C]|]. intros k' v' y Ev' Ey'. cbn [sget aget] in Ey'.
        destruct (str_eqb k' k) eqn:Ek; [|exact (D k' v' y Ev' Ey')]. apply str_eqb_eq in Ek. subst k'. rewrite Ev in Ev'. injection Ev' as <-. injection Ey' as <-. exact B. }
      assert (map fst xs = map fst e) as Ex.
      { clear -H1. induction H1 as [|kx ky e xs [E _] _ IH]; [reflexivity|]. cbn [map]. rewrite E, IH. reflexivity. }
      exists (VObj xs). split; [constructor; exact H1|]. apply sd_object; rewrite ?Ex; assumption.
  Qed.
  Lemma same_once v : forall x, same_data arrV v x -> keys_once x.
  Proof.
    intros x. revert v. induction x as [x Hx|m IH|e IH] using jval_ind'; intros v H; [constructor; exact Hx| |].
    - constructor. inversion H as [| |a b (p & q & _ & X & _)|l l' m' Ha Hm|]; subst; [discriminate X|]. clear -IH Hm. revert l' Hm. induction IH as [|x m Hx _ IHm]; intros l' Hm; [constructor|].
      inversion Hm as [|v ? l2 ? Hv Hm']; subst. constructor; [exact (Hx v Hv)|exact (IHm l2 Hm')].
    - inversion H as [| |a b (p & q & _ & X & _)| |o e' Hn Hs Hf]; subst; [discriminate X|]. constructor; [exact Hn|]. apply Forall_forall. intros [k y] Hy. cbn [snd].
      assert (In k (map fst o)) as Hko by (apply Hs; apply in_map_iff; exists (k, y); split; [reflexivity|exact Hy]).
      destruct (sget k o) as [v|] eqn:Eo; [|exfalso; apply sget_None in Eo; exact (Eo Hko)].
      apply (proj1 (Forall_forall _ _) IH (k, y) Hy v). apply (Hf k v y Eo). apply In_sget; assumption.
  Qed.
End Same.
