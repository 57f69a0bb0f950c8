(** Conversion meets its specification. *)
From Coq Require Import QArith Qfield Lqa.
From Verif.Base Require Import PyStr PyNum PyVal Outcome.
From Verif.Model Require Import Warn Lib Convert Json.
From Verif.Spec Require Import Conversion.

(** ** Numbers *)
Lemma inject_Z_pos z : (0 < z)%Z -> (0 < inject_Z z)%Q.
Proof. intros H. change 0%Q with (inject_Z 0). rewrite <- Zlt_Qlt. exact H. Qed.
Lemma trunc_lemma (neg : bool) (m d : N) (q : Q) : (0 < d)%N ->
  (q == inject_Z (if neg then - Z.of_N m else Z.of_N m) / inject_Z (Z.of_N d))%Q ->
  truncates q (if neg then (- Z.of_N (m / d))%Z else Z.of_N (m / d)).
Proof.
  intros Hd Hq. assert (HD : (0 < inject_Z (Z.of_N d))%Q) by (apply inject_Z_pos; lia).
  assert (Hle : (Z.of_N (m / d) * Z.of_N d <= Z.of_N m)%Z).
  { rewrite N2Z.inj_div. rewrite Z.mul_comm. apply Z.mul_div_le. lia. }
  assert (Hlt : (Z.of_N m < (Z.of_N (m / d) + 1) * Z.of_N d)%Z).
  { rewrite N2Z.inj_div. pose proof (Z.mul_succ_div_gt (Z.of_N m) (Z.of_N d)). lia. }
  assert (P1 : (inject_Z (Z.of_N (m / d)) <= inject_Z (Z.of_N m) / inject_Z (Z.of_N d))%Q).
  { apply Qle_shift_div_l; [exact HD|]. rewrite <- inject_Z_mult, <- Zle_Qle. exact Hle. }
  assert (P2 : (inject_Z (Z.of_N m) / inject_Z (Z.of_N d) < inject_Z (Z.of_N (m / d)) + 1)%Q).
  { apply Qlt_shift_div_r; [exact HD|]. change 1%Q with (inject_Z 1). rewrite <- inject_Z_plus, <- inject_Z_mult, <- Zlt_Qlt. exact Hlt. }
  assert (P0 : (0 <= inject_Z (Z.of_N m) / inject_Z (Z.of_N d))%Q).
  { apply Qle_shift_div_l; [exact HD|]. rewrite Qmult_0_l. change 0%Q with (inject_Z 0). rewrite <- Zle_Qle. lia. }
  assert (P3 : (0 <= inject_Z (Z.of_N (m / d)))%Q).
  { change 0%Q with (inject_Z 0). rewrite <- Zle_Qle. apply N2Z.is_nonneg. }
  set (x := (inject_Z (Z.of_N m) / inject_Z (Z.of_N d))%Q) in *. set (z := Z.of_N (m / d)) in *.
  unfold truncates. destruct neg.
  - assert (Hq' : (q == - x)%Q).
    { rewrite Hq. unfold x. rewrite inject_Z_opp. field. apply Qnot_eq_sym. apply Qlt_not_eq. exact HD. }
    rewrite inject_Z_opp. split; intros H.
    + assert (x == 0)%Q by lra.
      assert (z = 0)%Z. { assert (inject_Z z <= 0)%Q by lra. change 0%Q with (inject_Z 0) in H1. rewrite <- Zle_Qle in H1. pose proof (N2Z.is_nonneg (m / d)) as Hz. fold z in Hz. lia. }
      rewrite H1. change (inject_Z 0) with 0%Q. lra.
    + lra.
  - assert (Hq' : (q == x)%Q) by (rewrite Hq; reflexivity). split; intros H; [lra|].
    assert (x == 0)%Q by lra.
    assert (z = 0)%Z. { assert (inject_Z z <= 0)%Q by lra. change 0%Q with (inject_Z 0) in H1. rewrite <- Zle_Qle in H1. pose proof (N2Z.is_nonneg (m / d)) as Hz. fold z in Hz. lia. }
    rewrite H1. change (inject_Z 0) with 0%Q. lra.
Qed.
Lemma truncates_int q z : (q == inject_Z z)%Q -> truncates q z.
Proof. intros H. unfold truncates. split; intros; lra. Qed.
Lemma truncates_unique q z z' : truncates q z -> truncates q z' -> z = z'.
Proof.
  assert (L : forall a b : Z, (inject_Z a < inject_Z b + 1)%Q -> (a <= b)%Z).
  { intros a b H. change 1%Q with (inject_Z 1) in H. rewrite <- inject_Z_plus, <- Zlt_Qlt in H. lia. }
  intros [H1 H2] [H3 H4]. destruct (Qlt_le_dec q 0) as [Hq|Hq].
  - assert (Hq' : (q <= 0)%Q) by lra. specialize (H2 Hq'). specialize (H4 Hq').
    assert (z <= z')%Z by (apply L; lra). assert (z' <= z)%Z by (apply L; lra). lia.
  - specialize (H1 Hq). specialize (H3 Hq). assert (z <= z')%Z by (apply L; lra). assert (z' <= z)%Z by (apply L; lra). lia.
Qed.

Lemma sgn_mult (neg : bool) (a b : N) :
  inject_Z (if neg then - Z.of_N (a * b) else Z.of_N (a * b)) = (inject_Z (if neg then - Z.of_N a else Z.of_N a) * inject_Z (Z.of_N b))%Q.
Proof. rewrite <- inject_Z_mult. f_equal. rewrite N2Z.inj_mul. destruct neg; lia. Qed.
Lemma of_N_pow a e : (0 <= e)%Z -> Z.of_N (a ^ Z.to_N e) = (Z.of_N a ^ e)%Z.
Proof. intros H. rewrite N2Z.inj_pow, Z2N.id by exact H. reflexivity. Qed.

Lemma dec_trunc_ok n c e q : dec_Q (DFin n c e) = Some q -> truncates q (dec_trunc n c e).
Proof.
  unfold dec_Q, dec_trunc, pow10. intros [= <-]. destruct (0 <=? e)%Z eqn:E.
  - apply Z.leb_le in E. apply truncates_int.
    transitivity (inject_Z (if n then - Z.of_N (c * 10 ^ Z.to_N e) else Z.of_N (c * 10 ^ Z.to_N e))).
    + rewrite sgn_mult, of_N_pow by exact E. reflexivity.
    + destruct n; reflexivity.
  - apply Z.leb_gt in E. apply trunc_lemma.
    + apply N.neq_0_lt_0. apply N.pow_nonzero. discriminate.
    + rewrite of_N_pow by lia. reflexivity.
Qed.
Lemma flt_trunc_ok n m e q : flt_Q (FFin n m e) = Some q -> truncates q (flt_trunc n m e).
Proof.
  unfold flt_Q, flt_trunc, pow2. intros [= <-]. destruct (0 <=? e)%Z eqn:E.
  - apply Z.leb_le in E. apply truncates_int.
    transitivity (inject_Z (if n then - Z.of_N (m * 2 ^ Z.to_N e) else Z.of_N (m * 2 ^ Z.to_N e))).
    + rewrite sgn_mult, of_N_pow by exact E. reflexivity.
    + destruct n; reflexivity.
  - apply Z.leb_gt in E. apply trunc_lemma.
    + apply N.neq_0_lt_0. apply N.pow_nonzero. discriminate.
    + rewrite of_N_pow by lia. reflexivity.
Qed.
Lemma flt_dec_ok n m e : exists q p, dec_Q (flt_dec (FFin n m e)) = Some q /\ flt_Q (FFin n m e) = Some p /\ (p == q)%Q.
Proof.
  unfold flt_dec, flt_Q, pow2. destruct (0 <=? e)%Z eqn:E.
  - apply Z.leb_le in E. eexists; eexists; split; [reflexivity|]. split; [reflexivity|].
    rewrite sgn_mult, of_N_pow by exact E. unfold pow10. simpl. change (inject_Z 1) with 1%Q. rewrite Qmult_1_r. reflexivity.
  - pose proof E as E'. apply Z.leb_gt in E. eexists; eexists; split; [reflexivity|]. split; [reflexivity|].
    rewrite sgn_mult, of_N_pow by lia. unfold pow10. rewrite E'. rewrite <- Qmult_assoc. apply Qmult_comp; [reflexivity|].
    assert (H2 : (0 < 2 ^ (- e))%Z) by (apply Z.pow_pos_nonneg; lia).
    assert (H5 : (0 < 5 ^ (- e))%Z) by (apply Z.pow_pos_nonneg; lia).
    change (10)%Z with (5 * 2)%Z. rewrite Z.pow_mul_l, inject_Z_mult. change (Z.of_N 5) with 5%Z.
    apply inject_Z_pos in H2, H5. field. split; apply Qnot_eq_sym; apply Qlt_not_eq; assumption.
Qed.

(** ** Pieces *)
Lemma mem_c_In c s : mem_c c s = true <-> In c s.
Proof.
  unfold mem_c. rewrite existsb_exists. split.
  - intros (x & Hx & E). apply N.eqb_eq in E as ->. exact Hx.
  - intros H. exists c. split; [exact H|apply N.eqb_refl].
Qed.
Lemma split_on_parts c s x : In x (split_on c s) -> ~ In c x.
Proof.
  revert x. induction s as [|y s IH]; intros x; simpl.
  - intros [<-|[]] [].
  - destruct (y =? c)%N eqn:E.
    + intros [<-|H]; [intros []|auto].
    + destruct (split_on c s) as [|h t] eqn:F; [exfalso; eapply split_on_nonempty; exact F|].
      intros [<-|H]; [|apply IH; right; exact H].
      intros [->|H]; [rewrite N.eqb_refl in E; discriminate|]. exact (IH h (or_introl eq_refl) H).
Qed.
Lemma split_on_sub c s x y : In x (split_on c s) -> In y x -> In y s.
Proof.
  revert x. induction s as [|z s IH]; intros x; simpl.
  - intros [<-|[]] [].
  - destruct (z =? c)%N eqn:E.
    + intros [<-|H]; [intros []|]. intros Hy. right. eapply IH; eassumption.
    + destruct (split_on c s) as [|h t] eqn:F; [exfalso; eapply split_on_nonempty; exact F|].
      intros [<-|H].
      * intros [->|H]; [left; reflexivity|]. right. eapply IH; [left; reflexivity|exact H].
      * intros Hy. right. eapply IH; [right; exact H|exact Hy].
Qed.
Lemma join_split c s : join [c] (split_on c s) = s.
Proof.
  induction s as [|y s IH]; [reflexivity|]. cbn [split_on]. destruct (y =? c)%N eqn:E.
  - apply N.eqb_eq in E as ->. pose proof (split_on_nonempty c s) as Hn. destruct (split_on c s) as [|h t]; [congruence|].
    rewrite join_cons, IH. reflexivity.
  - pose proof (split_on_nonempty c s) as Hn. destruct (split_on c s) as [|h t]; [congruence|].
    destruct t as [|h2 t]; [simpl in *; congruence|]. rewrite join_cons in IH |- *. rewrite <- IH. reflexivity.
Qed.

Definition parts1 (s : str) : list str := split_on semicolon s.
Definition parts2 (s : str) : list (list str) := map (split_on comma) (split_on semicolon s).
Lemma parts1_pieces s : mem_c comma s = false -> pieces s (parts1 s).
Proof.
  intros H. unfold pieces, parts1. split; [rewrite <- mem_c_In; unfold sep_inner; unfold comma in H; congruence|].
  split; [apply split_on_nonempty|]. split; [apply join_split|]. intros x. apply split_on_parts.
Qed.
Lemma parts2_pieces s : mem_c comma s = true -> pieces2 s (parts2 s).
Proof.
  intros H. unfold pieces2, parts2. split; [apply mem_c_In; exact H|]. split.
  - intros E. apply map_eq_nil in E. eapply split_on_nonempty; exact E.
  - split.
    + rewrite map_map. rewrite (map_ext _ (fun x => x)) by (intros; apply join_split). rewrite map_id. apply join_split.
    + intros xs Hxs. apply in_map_iff in Hxs as (y & <- & Hy). split; [apply split_on_nonempty|]. intros x Hx.
      split; [|apply (split_on_parts comma y); exact Hx]. intros Hc. apply (split_on_parts _ _ _ Hy). exact (split_on_sub _ _ _ _ Hx Hc).
Qed.
Lemma pieces_unique s l : pieces s l -> l = parts1 s /\ mem_c comma s = false.
Proof.
  intros (H1 & H2 & <- & H4). split; [symmetry; apply split_join; assumption|].
  destruct (mem_c comma (join [sep_items] l)) eqn:E; [|reflexivity]. apply mem_c_In in E. exfalso. apply H1. exact E.
Qed.
Lemma in_join_inner l c : In c (join [sep_inner] l) -> c = sep_inner \/ exists x, In x l /\ In c x.
Proof.
  induction l as [|x l IH]; [intros []|]. destruct l as [|y l].
  - simpl. intros H. right. exists x. auto.
  - rewrite join_cons. intros H. apply in_app_or in H as [H|H]; [right; exists x; split; [left; reflexivity|exact H]|].
    destruct H as [<-|H]; [left; reflexivity|]. destruct (IH H) as [->|(z & Hz & Hc)]; [left; reflexivity|]. right. exists z. split; [right; exact Hz|exact Hc].
Qed.
Lemma pieces2_unique s l : pieces2 s l -> l = parts2 s /\ mem_c comma s = true.
Proof.
  intros (H1 & H2 & <- & H4). split; [|apply mem_c_In; exact H1]. unfold parts2.
  change semicolon with sep_items. rewrite split_join.
  - rewrite map_map. symmetry. rewrite (map_ext_in _ (fun x => x)); [apply map_id|]. intros xs Hxs. destruct (H4 xs Hxs) as [Hn Hx].
    apply split_join; [exact Hn|]. intros x Hin. apply Hx. exact Hin.
  - intros E. apply map_eq_nil in E. congruence.
  - intros x Hx. apply in_map_iff in Hx as (xs & <- & Hxs). destruct (H4 xs Hxs) as [Hn Hx]. intros Hc.
    apply in_join_inner in Hc as [Hc|(y & Hy & Hc)]; [discriminate|]. destruct (Hx y Hy) as [Hy1 _]. exact (Hy1 Hc).
Qed.
Lemma split_array_splits s : splits s (split_array s).
Proof.
  unfold split_array. destruct (mem_c comma s) eqn:E.
  - pose proof (splits2 s _ (parts2_pieces _ E)) as P. unfold parts2 in P. rewrite map_map in P. exact P.
  - exact (splits1 s _ (parts1_pieces _ E)).
Qed.
Lemma map_opt_Forall2 {A B} (f : A -> option B) l r : map_opt f l = Some r <-> Forall2 (fun x y => f x = Some y) l r.
Proof.
  split.
  - revert r. induction l as [|x l IH]; simpl; intros r; [intros [= <-]; constructor|].
    destruct (f x) as [y|] eqn:E; [|discriminate]. destruct (map_opt f l) as [r'|]; [|discriminate]. intros [= <-]. constructor; auto.
  - induction 1 as [|x y l r H _ IH]; [reflexivity|]. simpl. rewrite H, IH. reflexivity.
Qed.
Lemma Forall2_impl' {A B} (P Q : A -> B -> Prop) l r : (forall x y, P x y -> Q x y) -> Forall2 P l r -> Forall2 Q l r.
Proof. intros H. induction 1; constructor; auto. Qed.
Definition dlist (r : list scalar) (ds : list dec) : Prop := r = map SDec ds.
Lemma dec_items l r : Forall2 (fun x y => option_map SDec (parse_dec x) = Some y) l r ->
  exists ds, r = map SDec ds /\ Forall2 (fun x d => parse_dec x = Some d) l ds.
Proof.
  induction 1 as [|x y l r H _ IH]; [exists []; split; [reflexivity|constructor]|].
  destruct IH as (ds & -> & IH). destruct (parse_dec x) as [d|] eqn:E; [|discriminate]. injection H as <-.
  exists (d :: ds). split; [reflexivity|]. constructor; assumption.
Qed.
Lemma dec_items2 l r : Forall2 (Forall2 (fun x y => option_map SDec (parse_dec x) = Some y)) l r ->
  exists ds, r = map (map SDec) ds /\ Forall2 (Forall2 (fun x d => parse_dec x = Some d)) l ds.
Proof.
  induction 1 as [|x y l r H _ IH]; [exists []; split; [reflexivity|constructor]|].
  destruct IH as (ds & -> & IH). apply dec_items in H as (d & -> & H).
  exists (d :: ds). split; [reflexivity|]. constructor; assumption.
Qed.
Lemma split_number_array_ok s r : split_number_array s = Some r -> splits_numbers s r.
Proof.
  unfold split_number_array. destruct (mem_c comma s) eqn:E.
  - destruct (map_opt _ _) as [q|] eqn:F; [|discriminate]. intros [= <-].
    apply map_opt_Forall2 in F.
    assert (G : Forall2 (Forall2 (fun x y => option_map SDec (parse_dec x) = Some y)) (parts2 s) q).
    { unfold parts2. induction F as [|x y l r' H _ IH]; simpl; [constructor|]. constructor; [apply map_opt_Forall2; exact H|exact IH]. }
    apply dec_items2 in G as (ds & -> & G). eapply splitsn2; [apply parts2_pieces; exact E|exact G].
  - destruct (map_opt _ _) as [q|] eqn:F; [|discriminate]. intros [= <-].
    apply map_opt_Forall2 in F. apply dec_items in F as (ds & -> & F). eapply splitsn1; [apply parts1_pieces; exact E|exact F].
Qed.
Lemma split_number_array_none s q : split_number_array s = None -> ~ splits_numbers s q.
Proof.
  unfold split_number_array. intros H S. destruct S as [l ds P F|l ds P F].
  - apply pieces_unique in P as [-> E]. rewrite E in H.
    assert (G : map_opt (fun x => option_map SDec (parse_dec x)) (split_on semicolon s) = Some (map SDec ds)).
    { apply map_opt_Forall2. unfold parts1 in F. clear H. induction F as [|x y l r' H' _ IH]; simpl; [constructor|]. constructor; [rewrite H'; reflexivity|exact IH]. }
    rewrite G in H. discriminate.
  - apply pieces2_unique in P as [-> E]. rewrite E in H.
    assert (G : map_opt (fun x => map_opt (fun x => option_map SDec (parse_dec x)) (split_on comma x)) (split_on semicolon s) = Some (map (map SDec) ds)).
    { apply map_opt_Forall2. unfold parts2 in F. revert ds F. generalize (split_on semicolon s). intros l. induction l as [|x l IH]; intros ds F.
      - inversion F. constructor.
      - simpl in F. inversion F as [|? y ? r' Hy Hr]; subst. simpl. constructor; [|apply IH; exact Hr].
        apply map_opt_Forall2. clear -Hy. induction Hy as [|a b l r H' _ IH']; simpl; [constructor|]. constructor; [rewrite H'; reflexivity|exact IH']. }
    rewrite G in H. discriminate.
Qed.

(** ** The converter *)
Lemma to_decimal_ok s d : to_decimal s = Some d -> reads_decimal s d.
Proof.
  destruct s as [|b|z|d'|f|t|n]; simpl; try discriminate.
  - intros [= <-]. destruct b; simpl; unfold pow10; simpl; reflexivity.
  - intros [= <-]. simpl. unfold pow10. simpl. change (inject_Z 1) with 1%Q. rewrite Qmult_1_r.
    destruct (z <? 0)%Z eqn:E; [apply Z.ltb_lt in E|apply Z.ltb_ge in E]; unfold inject_Z, Qeq; simpl; rewrite N2Z.inj_abs_N; lia.
  - intros [= <-]. simpl. destruct d' as [n c e|n|n g p]; simpl; try reflexivity; exact I.
  - intros [= <-]. destruct f as [n m e|n|].
    + change (reads_decimal (SFlt (FFin n m e)) (flt_dec (FFin n m e))).
      destruct (flt_dec_ok n m e) as (q & p & E1 & E2 & H). unfold reads_decimal.
      assert (N1 : num_val (SFlt (FFin n m e)) = Some (XFin p)) by (unfold num_val; rewrite E2; reflexivity).
      assert (N2 : num_val (SDec (flt_dec (FFin n m e))) = Some (XFin q)).
      { unfold flt_dec in *. destruct (0 <=? e)%Z; unfold num_val; rewrite E1; reflexivity. }
      rewrite N1, N2. exact H.
    + reflexivity.
    + exact I.
  - auto.
Qed.
Lemma to_decimal_none s d : to_decimal s = None -> ~ reads_decimal s d.
Proof.
  destruct s as [|b|z|d'|f|t|n]; simpl; try discriminate; auto.
  intros H. rewrite H. discriminate.
Qed.
Lemma to_int_ok s z : to_int s = IVal z -> reads_integer s z.
Proof.
  destruct s as [|b|z'|d'|f|t|n]; simpl; try discriminate.
  - intros [= <-]. apply truncates_int. destruct b; reflexivity.
  - intros [= <-]. apply truncates_int. reflexivity.
  - destruct d' as [n c e|n|n g p]; try discriminate. intros [= <-]. apply dec_trunc_ok. reflexivity.
  - destruct f as [n m e|n|]; try discriminate. intros [= <-]. apply flt_trunc_ok. reflexivity.
  - destruct (parse_int t); [|discriminate]. intros [= <-]. reflexivity.
Qed.
Lemma to_int_caught s z : to_int s = ICaught -> ~ reads_integer s z.
Proof.
  destruct s as [|b|z'|d'|f|t|n]; simpl; try discriminate; auto.
  - destruct d' as [n c e|n|n g p]; try discriminate; auto.
  - destruct f as [n m e|n|]; try discriminate; auto.
  - destruct (parse_int t); [discriminate|]. discriminate.
Qed.

Lemma says_true_eqb t : str_eqb (lower t) (u "true") || str_eqb (lower t) (u "1") = true <-> says_true t.
Proof.
  unfold says_true. rewrite orb_true_iff, !str_eqb_eq. split; (intros [H|H]; [left; exact H|right]).
  - destruct t as [|c [|? ?]]; try discriminate. unfold lower in H. simpl in H. injection H as H. unfold lower_c in H.
    destruct ((65 <=? c) && (c <=? 90))%N eqn:E; [apply andb_true_iff in E as [E1 E2]; apply N.leb_le in E1, E2; lia|].
    destruct (c =? 8490)%N; [discriminate|]. subst. reflexivity.
  - rewrite H. reflexivity.
Qed.
Lemma says_false_eqb t : str_eqb (lower t) (u "false") || str_eqb (lower t) (u "0") = true <-> says_false t.
Proof.
  unfold says_false. rewrite orb_true_iff, !str_eqb_eq. split; (intros [H|H]; [left; exact H|right]).
  - destruct t as [|c [|? ?]]; try discriminate. unfold lower in H. simpl in H. injection H as H. unfold lower_c in H.
    destruct ((65 <=? c) && (c <=? 90))%N eqn:E; [apply andb_true_iff in E as [E1 E2]; apply N.leb_le in E1, E2; lia|].
    destruct (c =? 8490)%N; [discriminate|]. subst. reflexivity.
  - rewrite H. reflexivity.
Qed.

Ltac ty_tests :=
  repeat match goal with
         | |- context [str_eqb (u ?a) (u ?b)] =>
           let r := eval vm_compute in (str_eqb (u a) (u b)) in change (str_eqb (u a) (u b)) with r
         | |- context [str_mem (u ?a) ?l] =>
           let r := eval vm_compute in (str_mem (u a) l) in change (str_mem (u a) l) with r
         end; rewrite ?andb_false_r; cbv iota.
Theorem convert_spec (E : conv_env) ty s : In ty value_types -> blank s = false -> ordinary s ->
  (exists r, convert_type E ty (CV s) = Ok r [] /\ denotes E ty s r) \/
  (exists r x, convert_type E ty (CV s) = Ok r [x] /\ kept_as_text E ty s r x).
Proof.
  intros Hty Hb Ho. unfold convert_type. cbn [cv_blank cv_str]. rewrite Hb.
  unfold value_types in Hty. cbn [In] in Hty.
  assert (Harr : forall ty', In ty' array_types -> exists r, Ok (split_array (py_str E s)) [] = @Ok warning cellval r [] /\ denotes E ty' s r).
  { intros ty' H. eexists. split; [reflexivity|]. apply den_array; [exact H|apply split_array_splits]. }
  repeat destruct Hty as [<-|Hty]; try contradiction; ty_tests.
  - (* "" *)
    left. change (u "") with (@nil N) at 1. cbv iota beta. destruct s as [|b|z|d|f|t|n]; try discriminate Hb.
    + eexists. split; [reflexivity|]. apply den_other; discriminate.
    + eexists. split; [reflexivity|]. apply den_int.
    + eexists. split; [reflexivity|]. apply den_other; discriminate.
    + destruct f as [n m e|n|]; try contradiction. 
      destruct (py_eqb (SInt (flt_trunc n m e)) (SFlt (FFin n m e))) eqn:P.
      * eexists. split; [reflexivity|]. apply den_whole. exact P.
      * eexists. split; [reflexivity|]. apply den_other; try discriminate. intros f [= <-] z.
        destruct (py_eqb (SInt z) (SFlt (FFin n m e))) eqn:Q; [|reflexivity].
        pose proof (flt_trunc_ok n m e _ eq_refl) as T. unfold py_eqb in Q. cbn [num_val] in Q. cbn [flt_Q] in Q. cbn [xnum_eqb] in Q.
        apply Qeq_bool_iff in Q. rewrite (truncates_unique _ _ _ T (truncates_int _ z (Qeq_sym _ _ Q))) in P.
        unfold py_eqb in P. cbn [num_val flt_Q xnum_eqb] in P. apply Qeq_bool_iff in Q. congruence.
    + eexists. split; [reflexivity|]. apply den_other; discriminate.
    + eexists. split; [reflexivity|]. apply den_moment. simpl. tauto.
  - left. destruct s; try discriminate Hb; eexists; (split; [reflexivity|]); try (apply den_text; [simpl; tauto|discriminate]). apply den_moment. simpl; tauto.
  - left. destruct s; try discriminate Hb; eexists; (split; [reflexivity|]); try (apply den_text; [simpl; tauto|discriminate]). apply den_date.
  - destruct (to_decimal s) as [d|] eqn:D.
    + left. eexists. split; [reflexivity|]. apply den_number. apply to_decimal_ok. exact D.
    + right. eexists. eexists. split; [reflexivity|]. apply kept_number. intros d. apply to_decimal_none. exact D.
  - destruct (to_int s) as [z| |] eqn:D.
    + left. eexists. split; [reflexivity|]. apply den_integer. apply to_int_ok. exact D.
    + right. eexists. eexists. split; [reflexivity|]. apply kept_integer. intros z. apply to_int_caught. exact D.
    + exfalso. destruct s as [|b|z'|[n c e|n|n g p]|[n m e|n|]|t|n]; simpl in *; try discriminate; try contradiction. destruct (parse_int t); discriminate.
  - pose proof (says_true_eqb (py_str E s)) as T. pose proof (says_false_eqb (py_str E s)) as F.
    destruct (str_eqb (lower (py_str E s)) (u "true") || str_eqb (lower (py_str E s)) (u "1")) eqn:X.
    + left. eexists. split; [reflexivity|]. apply den_true. apply T. reflexivity.
    + match goal with |- context [if ?c then ret (CV (SBool false)) else _] => destruct c eqn:Y end.
      * left. eexists. split; [reflexivity|]. apply den_false. apply F. first [exact Y|reflexivity].
      * right. eexists. eexists. split; [reflexivity|]. apply kept_boolean; intros Z; [apply T in Z|apply F in Z]; congruence.
  - left. apply Harr. simpl; tauto.
  - left. apply Harr. simpl; tauto.
  - destruct (split_number_array (py_str E s)) as [r|] eqn:D.
    + left. eexists. split; [reflexivity|]. apply den_number_array. apply split_number_array_ok. exact D.
    + right. eexists. eexists. split; [reflexivity|]. apply kept_number_array; [intros q; apply split_number_array_none; exact D|apply split_array_splits].
  - left. apply Harr. simpl; tauto.
Qed.

(** wkt columns *)
Theorem convert_geojson (E : conv_env) s : blank s = false -> ce_wkt E = true ->
  (geo_available E = true -> wkt_loads E s <> WktRaise) ->
  (exists g, geo_available E = true /\ wkt_loads E s = WktOk g /\ convert_type E (u "geojson") (CV s) = Ok (CGeo g) []) \/
  (geo_available E = true /\ wkt_loads E s = WktBad /\ convert_type E (u "geojson") (CV s) = Ok (CV SNone) [WBadWkt (CV s)]) \/
  (geo_available E = false /\ convert_type E (u "geojson") (CV s) = Ok (CV (SStr (py_str E s))) [WGeoDependencies]).
Proof.
  intros Hb Hw Hr. unfold convert_type. cbn [cv_blank cv_str]. rewrite Hb. simpl. rewrite Hw. simpl.
  destruct (geo_available E) eqn:G.
  - specialize (Hr eq_refl). destruct (wkt_loads E s) as [g| |] eqn:L; [left; exists g; auto|right; left; auto|congruence].
  - right. right. auto.
Qed.

(** ** JSON *)
Lemma json_scalar_ok E s : finite_scalar s = true -> exists j, json_scalar E s = Ok j [].
Proof.
  destruct s as [|b|z|d|f|t|n]; simpl; intros H; try (eexists; reflexivity).
  destruct d as [n c e|n|n g p]; try discriminate. unfold json_decimal. destruct (py_eqb _ _); eexists; reflexivity.
Qed.
Lemma json_list_ok {A} (f : A -> R jsonv) l : (forall x, In x l -> exists j, f x = Ok j []) -> exists r, json_list f l = Ok r [].
Proof.
  induction l as [|x l IH]; intros H; [eexists; reflexivity|]. simpl.
  destruct (H x (or_introl eq_refl)) as (j & ->). destruct IH as (r & E); [intros y Hy; apply H; right; exact Hy|]. rewrite E. simpl. eexists; reflexivity.
Qed.
Theorem json_cell_ok E c : finite_cell c = true -> exists j, json_cell E c = Ok j [].
Proof.
  destruct c as [s|l|l|g]; simpl; intros H.
  - apply json_scalar_ok; exact H.
  - destruct (json_list_ok (json_scalar E) l) as (r & R).
    + intros x Hx. apply json_scalar_ok. rewrite forallb_forall in H. auto.
    + rewrite R. eexists; reflexivity.
  - destruct (json_list_ok (fun x => bind (json_list (json_scalar E) x) (fun y => ret (JArr y))) l) as (r & R).
    + intros x Hx. rewrite forallb_forall in H. specialize (H x Hx). destruct (json_list_ok (json_scalar E) x) as (y & Y).
      * intros z Hz. apply json_scalar_ok. rewrite forallb_forall in H. auto.
      * rewrite Y. eexists; reflexivity.
    + rewrite R. eexists; reflexivity.
  - eexists; reflexivity.
Qed.
(** integral decimals are written as the integer they equal, others as a number
    made from the decimal *)
Theorem json_decimal_integral n c e : 
  (exists z, py_eqb (SInt z) (SDec (DFin n c e)) = true /\ json_decimal (DFin n c e) = Ok (JInt z) []) \/
  ((forall z, py_eqb (SInt z) (SDec (DFin n c e)) = false) /\ json_decimal (DFin n c e) = Ok (JDouble (DFin n c e)) []).
Proof.
  unfold json_decimal. destruct (py_eqb (SInt (dec_trunc n c e)) (SDec (DFin n c e))) eqn:P.
  - left. eexists. split; [exact P|reflexivity].
  - right. split; [|reflexivity]. intros z. destruct (py_eqb (SInt z) (SDec (DFin n c e))) eqn:Q; [|reflexivity].
    pose proof (dec_trunc_ok n c e _ eq_refl) as T. unfold py_eqb in Q. cbn [num_val dec_Q xnum_eqb] in Q.
    apply Qeq_bool_iff in Q. rewrite (truncates_unique _ _ _ T (truncates_int _ z (Qeq_sym _ _ Q))) in P.
    unfold py_eqb in P. cbn [num_val dec_Q xnum_eqb] in P. apply Qeq_bool_iff in Q. congruence.
Qed.
Theorem convert_blank (E : conv_env) ty s : blank s = true -> convert_type E ty (CV s) = Ok (CV SNone) [].
Proof. intros H. unfold convert_type. cbn [cv_blank]. rewrite H. reflexivity. Qed.
