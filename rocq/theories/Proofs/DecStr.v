(** [Decimal(str(d)) == d] exactly, for every finite decimal. *)
From Verif.Base Require Import PyStr PyNum.
Local Open Scope N_scope.

Definition dig (s : str) : Prop := forall c, In c s -> 48 <= c <= 57.

Lemma dig_app a b : dig a -> dig b -> dig (a ++ b).
Proof. intros Ha Hb c Hc. apply in_app_or in Hc as [Hc|Hc]; auto. Qed.
Lemma dig_zeros n : dig (zeros n).
Proof. intros c Hc. apply repeat_spec in Hc as ->. lia. Qed.
Lemma dig_firstn n a : dig a -> dig (firstn n a).
Proof. intros Ha c Hc. apply Ha. rewrite <- (firstn_skipn n a). apply in_or_app. left. exact Hc. Qed.
Lemma dig_skipn n a : dig a -> dig (skipn n a).
Proof. intros Ha c Hc. apply Ha. rewrite <- (firstn_skipn n a). apply in_or_app. right. exact Hc. Qed.

(** a tail that does not start with a digit *)
Definition nodig_hd (s : str) : Prop := match s with [] => True | c :: _ => is_digit c = false end.
Lemma span_digits_app a s : dig a -> nodig_hd s -> span_digits (a ++ s) = (a, s).
Proof.
  intros Ha Hs. induction a as [|c a IH].
  - destruct s as [|c s]; [reflexivity|]. simpl in *. rewrite Hs. reflexivity.
  - cbn [app span_digits]. rewrite ascii_is_digit by (apply Ha; left; reflexivity).
    rewrite IH by (intros d Hd; apply Ha; right; exact Hd). reflexivity.
Qed.

Lemma digits_val_acc_zeros n s : digits_val_acc 0 (zeros n ++ s) = digits_val_acc 0 s.
Proof.
  induction n as [|n IH]; [reflexivity|]. unfold zeros in *. cbn [repeat app digits_val_acc].
  change (digit_val 48) with (Some 0). cbv iota. exact IH.
Qed.

Lemma parse_exp_str e : parse_exp (exp_str e) = Some e.
Proof.
  unfold exp_str. destruct (e =? 0)%Z eqn:E0; [apply Z.eqb_eq in E0 as ->; reflexivity|].
  destruct (0 <? e)%Z eqn:E1.
  - apply Z.ltb_lt in E1. destruct e as [|p|p]; try lia. unfold parse_exp. cbn [Z_str].
    change (69 =? 69) with true. change (43 =? 43) with true. cbv iota beta. simpl orb. cbv iota.
    pose proof (N_str_nonempty (Npos p)) as Hn. pose proof (digits_val_N_str (Npos p)) as Hv.
    destruct (N_str (Npos p)) as [|c s]; [congruence|]. rewrite Hv. reflexivity.
  - apply Z.ltb_ge in E1. apply Z.eqb_neq in E0. destruct e as [|p|p]; try lia. unfold parse_exp. cbn [Z_str].
    change (69 =? 69) with true. change (45 =? 43) with false. change (45 =? 45) with true. simpl orb. cbv iota beta.
    pose proof (N_str_nonempty (Npos p)) as Hn. pose proof (digits_val_N_str (Npos p)) as Hv.
    destruct (N_str (Npos p)) as [|c s]; [congruence|]. rewrite Hv. reflexivity.
Qed.
Lemma exp_str_nodig e : nodig_hd (exp_str e).
Proof. unfold exp_str. destruct (e =? 0)%Z; [exact I|]. destruct (0 <? e)%Z; reflexivity. Qed.

(** without a point *)
Lemma parse_finite_int neg ds e n : dig ds -> ds <> [] -> digits_val ds = Some n ->
  parse_finite neg (ds ++ exp_str e) = Some (DFin neg n e).
Proof.
  intros Hd Hne Hv. unfold parse_finite. rewrite span_digits_app by (auto; apply exp_str_nodig).
  assert (E : (match exp_str e with c :: r' => if c =? 46 then span_digits r' else ([], exp_str e) | [] => ([], []) end) = ([], exp_str e)).
  { unfold exp_str. destruct (e =? 0)%Z; [reflexivity|]. destruct (0 <? e)%Z; reflexivity. }
  rewrite E. rewrite app_nil_r. destruct ds as [|c ds]; [congruence|]. rewrite Hv, parse_exp_str.
  simpl length. f_equal. f_equal. simpl Z.of_nat. lia.
Qed.
(** with a point *)
Lemma parse_finite_point neg a b e n : dig a -> dig b -> a <> [] -> digits_val (a ++ b) = Some n ->
  parse_finite neg (a ++ 46 :: b ++ exp_str e) = Some (DFin neg n (e - Z.of_nat (length b))).
Proof.
  intros Ha Hb Hne Hv. unfold parse_finite. rewrite span_digits_app by (auto; reflexivity).
  change (46 =? 46) with true. cbv iota. rewrite span_digits_app by (auto; apply exp_str_nodig).
  destruct (a ++ b) as [|c ds] eqn:E; [destruct a; [congruence|discriminate]|]. rewrite Hv, parse_exp_str. reflexivity.
Qed.

(** the unsigned text *)
Definition dec_body (coef : N) (exp : Z) : str :=
  let digs := N_str coef in
  let len := Z.of_nat (length digs) in
  let left := (exp + len)%Z in
  let dot := if ((exp <=? 0) && (-6 <? left))%Z%bool then left else 1%Z in
  (if (dot <=? 0)%Z then 48 :: 46 :: zeros (Z.to_nat (- dot)) ++ digs
   else if (len <=? dot)%Z then digs ++ zeros (Z.to_nat (dot - len))
   else firstn (Z.to_nat dot) digs ++ 46 :: skipn (Z.to_nat dot) digs)
  ++ exp_str (left - dot).
Lemma dec_str_body neg coef exp : dec_str (DFin neg coef exp) = (if neg then [45] else []) ++ dec_body coef exp.
Proof. reflexivity. Qed.

Lemma parse_finite_body neg coef exp : parse_finite neg (dec_body coef exp) = Some (DFin neg coef exp).
Proof.
  unfold dec_body. set (digs := N_str coef). set (len := Z.of_nat (length digs)).
  assert (Hd : dig digs) by (intros c Hc; eapply N_str_ascii; exact Hc).
  assert (Hne : digs <> []) by apply N_str_nonempty.
  assert (Hlen : (1 <= len)%Z) by (unfold len; destruct digs; [congruence|simpl length; lia]).
  assert (Hv : digits_val digs = Some coef) by apply digits_val_N_str.
  set (left := (exp + len)%Z).
  destruct ((exp <=? 0) && (-6 <? left))%Z%bool eqn:Ec.
  - apply andb_true_iff in Ec as [E1 E2]. apply Z.leb_le in E1. rewrite Z.sub_diag.
    destruct (left <=? 0)%Z eqn:E3.
    + apply Z.leb_le in E3.
      change (parse_finite neg ([48] ++ 46 :: (zeros (Z.to_nat (- left)) ++ digs) ++ exp_str 0) = Some (DFin neg coef exp)).
      rewrite (parse_finite_point neg [48] (zeros (Z.to_nat (- left)) ++ digs) 0 coef).
      * f_equal. f_equal. rewrite app_length. unfold zeros. rewrite repeat_length. unfold left, len in *. lia.
      * intros c [<-|[]]. lia.
      * apply dig_app; [apply dig_zeros|exact Hd].
      * discriminate.
      * unfold digits_val in *. cbn [app digits_val_acc]. change (digit_val 48) with (Some 0). cbv iota. rewrite digits_val_acc_zeros. exact Hv.
    + apply Z.leb_gt in E3. destruct (len <=? left)%Z eqn:E4.
      * apply Z.leb_le in E4. replace (Z.to_nat (left - len)) with 0%nat by (unfold left in *; lia).
        change (zeros 0) with (@nil N). rewrite (app_nil_r digs). rewrite (parse_finite_int neg digs 0 coef) by assumption. f_equal. f_equal. unfold left in *; lia.
      * apply Z.leb_gt in E4. rewrite <- app_assoc. cbn [app].
        rewrite (parse_finite_point neg _ _ 0 coef).
        -- f_equal. f_equal. rewrite skipn_length. unfold left, len in *. lia.
        -- apply dig_firstn; exact Hd.
        -- apply dig_skipn; exact Hd.
        -- destruct (Z.to_nat left) eqn:En; [lia|]. destruct digs; [congruence|discriminate].
        -- rewrite firstn_skipn. exact Hv.
  - change (1 <=? 0)%Z with false. cbv iota.
    destruct (len <=? 1)%Z eqn:E4.
    + apply Z.leb_le in E4. replace (Z.to_nat (1 - len)) with 0%nat by lia. change (zeros 0) with (@nil N). rewrite (app_nil_r digs).
      rewrite (parse_finite_int neg digs _ coef) by assumption. f_equal. f_equal. unfold left; lia.
    + apply Z.leb_gt in E4. rewrite <- app_assoc. cbn [app]. change (Z.to_nat 1) with 1%nat.
      rewrite (parse_finite_point neg _ _ _ coef).
      * f_equal. f_equal. rewrite skipn_length. unfold left, len in *. lia.
      * apply dig_firstn; exact Hd.
      * apply dig_skipn; exact Hd.
      * destruct digs; [congruence|discriminate].
      * rewrite firstn_skipn. exact Hv.
Qed.

(** every character of the text *)
Definition dchar (c : N) : Prop := 48 <= c <= 57 \/ c = 46 \/ c = 69 \/ c = 43 \/ c = 45.
Lemma exp_str_dchar e c : In c (exp_str e) -> dchar c.
Proof.
  unfold exp_str, dchar. destruct (e =? 0)%Z; [intros []|].
  destruct (0 <? e)%Z; cbn [In]; intros H; repeat (destruct H as [<-|H]; [tauto|]); apply Z_str_chars in H; tauto.
Qed.
Lemma dec_body_dchar coef exp c : In c (dec_body coef exp) -> dchar c.
Proof.
  unfold dec_body. set (digs := N_str coef).
  assert (Hd : dig digs) by (intros d Hc; eapply N_str_ascii; exact Hc).
  intros H. apply in_app_or in H as [H|H]; [|eapply exp_str_dchar; exact H].
  destruct (_ <=? 0)%Z.
  - destruct H as [<-|[<-|H]]; [left; lia|right; left; reflexivity|]. left. apply in_app_or in H as [H|H]; [exact (dig_zeros _ _ H)|exact (Hd _ H)].
  - destruct (_ <=? _)%Z.
    + left. apply in_app_or in H as [H|H]; [exact (Hd _ H)|exact (dig_zeros _ _ H)].
    + apply in_app_or in H as [H|[<-|H]]; [left; exact (dig_firstn _ _ Hd _ H)|right; left; reflexivity|left; exact (dig_skipn _ _ Hd _ H)].
Qed.
Lemma dec_body_head coef exp : exists c s, dec_body coef exp = c :: s /\ 48 <= c <= 57.
Proof.
  unfold dec_body. set (digs := N_str coef).
  assert (Hd : dig digs) by (intros d Hc; eapply N_str_ascii; exact Hc).
  assert (Hne : digs <> []) by apply N_str_nonempty.
  set (len := Z.of_nat (length digs)). set (left := (exp + len)%Z).
  set (dot := if ((exp <=? 0) && (-6 <? left))%Z%bool then left else 1%Z).
  generalize (exp_str (left - dot)). intros tl. clearbody dot len. clear left.
  destruct (dot <=? 0)%Z eqn:E0.
  - eexists; eexists; split; [cbn [app]; reflexivity|lia].
  - destruct digs as [|d ds]; [congruence|]. specialize (Hd d (or_introl eq_refl)).
    destruct (len <=? dot)%Z.
    + exists d. eexists. split; [cbn [app]; reflexivity|exact Hd].
    + destruct (Z.to_nat dot) as [|m] eqn:Em; [apply Z.leb_gt in E0; lia|].
      exists d. eexists. split; [cbn [firstn app]; reflexivity|exact Hd].
Qed.

Lemma filter_id {A} (p : A -> bool) l : (forall x, In x l -> p x = true) -> filter p l = l.
Proof.
  induction l as [|x l IH]; simpl; intros H; [reflexivity|]. rewrite (H x (or_introl eq_refl)), IH by (intros y Hy; apply H; right; exact Hy). reflexivity.
Qed.
Lemma dchar_plain c : dchar c -> is_ws c = false /\ (c =? 95) = false.
Proof.
  intros [H|[->|[->|[->| ->]]]]; try (split; reflexivity).
  split; [apply ws_digit; exact H|apply N.eqb_neq; lia].
Qed.

Theorem parse_dec_str neg coef exp : parse_dec (dec_str (DFin neg coef exp)) = Some (DFin neg coef exp).
Proof.
  rewrite dec_str_body. unfold parse_dec.
  assert (Hc : forall c, In c ((if neg then [45] else []) ++ dec_body coef exp) -> dchar c).
  { intros c H. apply in_app_or in H as [H|H]; [|eapply dec_body_dchar; exact H].
    destruct neg; [destruct H as [<-|[]]; unfold dchar; tauto|destruct H]. }
  rewrite strip_id by (intros x Hx; apply dchar_plain; auto).
  unfold remove_c. rewrite filter_id by (intros x Hx; destruct (dchar_plain x (Hc x Hx)) as [_ ->]; reflexivity).
  destruct neg; cbn [app].
  - change (45 =? 43) with false. change (45 =? 45) with true. cbv iota. rewrite parse_finite_body. reflexivity.
  - destruct (dec_body_head coef exp) as (c & s & E & Hr). rewrite E.
    replace (c =? 43) with false by (symmetry; apply N.eqb_neq; lia).
    replace (c =? 45) with false by (symmetry; apply N.eqb_neq; lia).
    rewrite <- E, parse_finite_body. reflexivity.
Qed.
