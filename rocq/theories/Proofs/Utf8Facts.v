(** UTF-8: the encoder and the decoder do what RFC 3629 says. *)
From Coq Require Import Permutation Lia ZifyN.
From Verif.Base Require Import PyStr PyVal PyDict Outcome.
From Verif.Model Require Import Lib Json Flatten Readers Csv Commands Utf8.
From Verif.Spec Require Import Bytes.
Local Open Scope N_scope.

Ltac Zify.zify_post_hook ::= Z.div_mod_to_equations.

Ltac bools := repeat match goal with
  | H : (_ && _)%bool = true |- _ => apply andb_prop in H as [? H]
  | H : (_ <? _) = true |- _ => apply N.ltb_lt in H
  | H : (_ <? _) = false |- _ => apply N.ltb_ge in H
  | H : (_ <=? _) = true |- _ => apply N.leb_le in H
  | H : (_ <=? _) = false |- _ => apply N.leb_gt in H
  | H : (_ =? _) = true |- _ => apply N.eqb_eq in H
  | H : (_ =? _) = false |- _ => apply N.eqb_neq in H
  end.
Lemma encode_char_says c b : encode_char c = Some b -> char_bytes c b.
Proof.
  unfold encode_char. destruct (c <? 128) eqn:E1; bools; [intros [= <-]; apply cb_one; exact E1|].
  destruct (c <? 2048) eqn:E2; bools; [intros [= <-]; apply cb_two; lia|].
  destruct (c <? 65536) eqn:E3; bools.
  - destruct ((55296 <=? c) && (c <=? 57343))%bool eqn:E4; [discriminate|]. intros [= <-].
    assert (scalar_value c) by (apply Bool.andb_false_iff in E4 as [E4|E4]; bools; [left; exact E4|right; lia]).
    apply cb_three; try lia. exact H.
  - destruct (c <? 1114112) eqn:E4; [|discriminate]; bools. intros [= <-]. apply cb_four; try lia. right. lia.
Qed.
Lemma char_bytes_scalar c b : char_bytes c b -> scalar_value c.
Proof. intros [x Hx|x x1 x0 H H1 H0 ->|x x2 x1 x0 H S _ _ _ _|x x3 x2 x1 x0 H S _ _ _ _ _]; unfold scalar_value; [lia|lia|exact S|exact S]. Qed.
Lemma encode_char_total c : scalar_value c -> exists b, encode_char c = Some b.
Proof.
  unfold encode_char, scalar_value. intros H. destruct (c <? 128) eqn:E1; [eauto|]. destruct (c <? 2048) eqn:E2; [eauto|]. destruct (c <? 65536) eqn:E3.
  - destruct ((55296 <=? c) && (c <=? 57343))%bool eqn:E4; [|eauto]. bools. lia.
  - destruct (c <? 1114112) eqn:E4; [eauto|]. bools. lia.
Qed.
Lemma char_bytes_one c b b' : char_bytes c b -> char_bytes c b' -> b = b'.
Proof.
  intros [x Hx|x x1 x0 H H1 H0 E|x x2 x1 x0 H S H2 H1 H0 E|x x3 x2 x1 x0 H S H3 H2 H1 H0 E]; intros H'; inversion H'; subst; try reflexivity; try (exfalso; lia).
  - assert (x1 = x2 /\ x0 = x3) as [-> ->] by lia. reflexivity.
  - assert (x2 = x3 /\ x1 = x4 /\ x0 = x5) as (-> & -> & ->) by lia. reflexivity.
  - assert (x3 = x4 /\ x2 = x5 /\ x1 = x6 /\ x0 = x7) as (-> & -> & -> & ->) by lia. reflexivity.
Qed.
Theorem encode_says s : forall b, encode s = Some b <-> text_bytes s b.
Proof.
  induction s as [|c s IH]; intros b; cbn [encode].
  - split; [intros [= <-]; constructor|intros H; inversion H; reflexivity].
  - split.
    + destruct (encode_char c) as [x|] eqn:Ex; [|discriminate]. destruct (encode s) as [r|] eqn:Er; [|discriminate]. intros [= <-]. constructor; [apply encode_char_says; exact Ex|apply IH; reflexivity].
    + intros H. inversion H as [|? x ? r Hx Hr]; subst. apply IH in Hr. rewrite Hr.
      destruct (encode_char_total c (char_bytes_scalar c x Hx)) as (x' & Ex). rewrite Ex. rewrite (char_bytes_one c x x' Hx (encode_char_says c x' Ex)). reflexivity.
Qed.
Theorem bytes_exist s : (exists b, text_bytes s b) <-> whole_chars s.
Proof.
  split.
  - intros [b H]. induction H as [|c x s r Hx Hr IH]; constructor; [exact (char_bytes_scalar c x Hx)|exact IH].
  - intros H. induction H as [|c s Hc Hs (r & Hr)]; [exists []; constructor|]. destruct (encode_char_total c Hc) as (x & Ex). exists (x ++ r)%list. constructor; [apply encode_char_says; exact Ex|exact Hr].
Qed.
Theorem encode_fails s : encode s = None <-> ~ whole_chars s.
Proof.
  split.
  - intros H W. apply bytes_exist in W as (b & Hb). apply encode_says in Hb. congruence.
  - intros H. destruct (encode s) as [b|] eqn:E; [|reflexivity]. exfalso. apply H. apply bytes_exist. exists b. apply encode_says. exact E.
Qed.
Lemma continuation x : x < 64 -> is_continuation (128 + x) = true.
Proof. intros H. unfold is_continuation. apply andb_true_intro. split; apply N.leb_le; lia. Qed.
Lemma decode_char c b r : char_bytes c b -> decode (b ++ r) = match decode r with Some s => Some (c :: s) | None => None end.
Proof.
  intros [x Hx|x x1 x0 H H1 H0 ->|x x2 x1 x0 H S H2 H1 H0 ->|x x3 x2 x1 x0 H S H3 H2 H1 H0 ->]; cbn [app decode].
  - rewrite (proj2 (N.ltb_lt x 128) Hx). reflexivity.
  - rewrite (proj2 (N.ltb_ge (192 + x1) 128)) by lia. rewrite (proj2 (N.leb_le 194 (192 + x1))), (proj2 (N.leb_le (192 + x1) 223)) by lia. cbn [andb]. rewrite continuation by exact H0.
    destruct (decode r); [|reflexivity]. do 2 f_equal. lia.
  - rewrite (proj2 (N.ltb_ge (224 + x2) 128)) by lia. rewrite (proj2 (N.leb_gt (224 + x2) 223)) by lia. rewrite Bool.andb_false_r. rewrite (proj2 (N.leb_le 224 (224 + x2))), (proj2 (N.leb_le (224 + x2) 239)) by lia. cbn [andb].
    assert (second_of_three (224 + x2) (128 + x1) = true) as ->.
    { unfold second_of_three. rewrite continuation by exact H1. cbn [andb]. destruct (224 + x2 =? 224) eqn:E1; bools; [apply N.leb_le; lia|]. destruct (224 + x2 =? 237) eqn:E2; bools; [|reflexivity]. apply N.ltb_lt. unfold scalar_value in S. lia. }
    rewrite continuation by exact H0. cbn [andb]. destruct (decode r); [|reflexivity]. do 2 f_equal. lia.
  - unfold scalar_value in S. rewrite (proj2 (N.ltb_ge (240 + x3) 128)) by lia. rewrite (proj2 (N.leb_gt (240 + x3) 223)) by lia. rewrite Bool.andb_false_r. rewrite (proj2 (N.leb_gt (240 + x3) 239)) by lia. rewrite Bool.andb_false_r.
    rewrite (proj2 (N.leb_le 240 (240 + x3))), (proj2 (N.leb_le (240 + x3) 244)) by lia. cbn [andb].
    assert (second_of_four (240 + x3) (128 + x2) = true) as ->.
    { unfold second_of_four. rewrite continuation by exact H2. cbn [andb]. destruct (240 + x3 =? 240) eqn:E1; bools; [apply N.leb_le; lia|]. destruct (240 + x3 =? 244) eqn:E2; bools; [|reflexivity]. apply N.ltb_lt. lia. }
    rewrite !continuation by assumption. cbn [andb]. destruct (decode r); [|reflexivity]. do 2 f_equal. lia.
Qed.
Lemma text_decodes s b : text_bytes s b -> decode b = Some s.
Proof. induction 1 as [|c x s r Hx Hr IH]; [reflexivity|]. rewrite (decode_char c x r Hx), IH. reflexivity. Qed.
Lemma tb_cons c b s r b' : char_bytes c b -> text_bytes s r -> b' = (b ++ r)%list -> text_bytes (c :: s) b'.
Proof. intros H1 H2 ->. constructor; assumption. Qed.
Lemma is_continuation_says b : is_continuation b = true -> 128 <= b <= 191.
Proof. unfold is_continuation. intros H. bools. lia. Qed.
Lemma decoded n : forall b s, (List.length b <= n)%nat -> decode b = Some s -> text_bytes s b.
Proof.
  induction n as [|n IH]; intros b s L H.
  - destruct b; [cbn in H; injection H as <-; constructor|cbn in L; lia].
  - destruct b as [|b0 r0]; [cbn in H; injection H as <-; constructor|]. cbn [decode] in H. cbn [List.length] in L.
    destruct (b0 <? 128) eqn:E0; bools.
    { destruct (decode r0) as [s'|] eqn:D; [|discriminate H]. injection H as <-. apply (tb_cons b0 [b0] s' r0); [apply cb_one; exact E0|apply IH; [lia|exact D]|reflexivity]. }
    destruct r0 as [|b1 r1]; [discriminate H|]. cbn [List.length] in L. destruct ((194 <=? b0) && (b0 <=? 223))%bool eqn:E1.
    { bools. destruct (is_continuation b1) eqn:C1; [|discriminate H]. apply is_continuation_says in C1. destruct (decode r1) as [s'|] eqn:D; [|discriminate H]. injection H as <-.
      apply (tb_cons _ [192 + (b0 - 192); 128 + (b1 - 128)] s' r1); [apply cb_two; lia|apply IH; [lia|exact D]|]. cbn [app]. repeat (apply (f_equal2 (@cons N)); [lia|]). reflexivity. }
    destruct r1 as [|b2 r2]; [discriminate H|]. cbn [List.length] in L. destruct ((224 <=? b0) && (b0 <=? 239))%bool eqn:E2.
    { bools. destruct (second_of_three b0 b1 && is_continuation b2)%bool eqn:C; [|discriminate H]. apply andb_prop in C as [C1 C2]. apply is_continuation_says in C2. unfold second_of_three in C1. apply andb_prop in C1 as [C1 C1']. apply is_continuation_says in C1.
      destruct (decode r2) as [s'|] eqn:D; [|discriminate H]. injection H as <-.
      assert (X : 2048 <= (b0 - 224) * 4096 + (b1 - 128) * 64 + (b2 - 128) /\ scalar_value ((b0 - 224) * 4096 + (b1 - 128) * 64 + (b2 - 128))).
      { unfold scalar_value. destruct (b0 =? 224) eqn:Q1; bools; [lia|]. destruct (b0 =? 237) eqn:Q2; bools; lia. }
      apply (tb_cons _ [224 + (b0 - 224); 128 + (b1 - 128); 128 + (b2 - 128)] s' r2); [apply cb_three; try lia; apply X|apply IH; [lia|exact D]|]. cbn [app]. repeat (apply (f_equal2 (@cons N)); [lia|]). reflexivity. }
    destruct r2 as [|b3 r3]; [discriminate H|]. cbn [List.length] in L. destruct ((240 <=? b0) && (b0 <=? 244))%bool eqn:E3; [|discriminate H].
    bools. destruct (second_of_four b0 b1 && is_continuation b2 && is_continuation b3)%bool eqn:C; [|discriminate H]. apply andb_prop in C as [C C3]. apply andb_prop in C as [C1 C2]. apply is_continuation_says in C2. apply is_continuation_says in C3.
    unfold second_of_four in C1. apply andb_prop in C1 as [C1 C1']. apply is_continuation_says in C1. destruct (decode r3) as [s'|] eqn:D; [|discriminate H]. injection H as <-.
    assert (X : 65536 <= (b0 - 240) * 262144 + (b1 - 128) * 4096 + (b2 - 128) * 64 + (b3 - 128) /\ scalar_value ((b0 - 240) * 262144 + (b1 - 128) * 4096 + (b2 - 128) * 64 + (b3 - 128))).
    { unfold scalar_value. destruct (b0 =? 240) eqn:Q1; bools; [lia|]. destruct (b0 =? 244) eqn:Q2; bools; lia. }
    apply (tb_cons _ [240 + (b0 - 240); 128 + (b1 - 128); 128 + (b2 - 128); 128 + (b3 - 128)] s' r3); [apply cb_four; try lia; apply X|apply IH; [lia|exact D]|]. cbn [app]. repeat (apply (f_equal2 (@cons N)); [lia|]). reflexivity.
Qed.
Theorem decode_says b s : decode b = Some s <-> text_bytes s b.
Proof. split; [apply (decoded (List.length b)); lia|apply text_decodes]. Qed.
Theorem text_one s s' b : text_bytes s b -> text_bytes s' b -> s = s'.
Proof. intros H H'. apply decode_says in H. apply decode_says in H'. congruence. Qed.
Theorem bytes_one s b b' : text_bytes s b -> text_bytes s b' -> b = b'.
Proof. intros H H'. apply encode_says in H. apply encode_says in H'. congruence. Qed.
Lemma char_bytes_below c b : char_bytes c b -> Forall (fun x => x < 256) b.
Proof. intros [x Hx|x x1 x0 H H1 H0 _|x x2 x1 x0 H S H2 H1 H0 _|x x3 x2 x1 x0 H S H3 H2 H1 H0 _]; repeat (apply Forall_cons; [lia|]); apply Forall_nil. Qed.
Theorem bytes_below s b : text_bytes s b -> Forall (fun x => x < 256) b.
Proof. induction 1 as [|c x s r Hx Hr IH]; [constructor|]. apply Forall_app. split; [exact (char_bytes_below c x Hx)|exact IH]. Qed.
(** files *)
Theorem files_encoded fs : forall bs, encode_files fs = Some bs <-> files_bytes fs bs.
Proof.
  induction fs as [|[n t] fs IH]; intros bs; cbn [encode_files].
  - split; [intros [= <-]; constructor|intros H; inversion H; reflexivity].
  - split.
    + destruct (encode t) as [b|] eqn:Eb; [|discriminate]. destruct (encode_files fs) as [r|] eqn:Er; [|discriminate]. intros [= <-]. constructor; [split; [reflexivity|apply encode_says; exact Eb]|apply IH; reflexivity].
    + intros H. inversion H as [|? [n' b] ? r [En Hb] Hr]; subst. cbn [fst snd] in En, Hb. subst n'. apply encode_says in Hb. apply IH in Hr. rewrite Hb, Hr. reflexivity.
Qed.
Theorem files_decoded fs : forall bs, decode_files bs = Some fs <-> files_bytes fs bs.
Proof.
  intros bs. revert fs. induction bs as [|[n b] bs IH]; intros fs; cbn [decode_files].
  - split; [intros [= <-]; constructor|intros H; inversion H; reflexivity].
  - split.
    + destruct (decode b) as [t|] eqn:Eb; [|discriminate]. destruct (decode_files bs) as [r|] eqn:Er; [|discriminate]. intros [= <-]. constructor; [split; [reflexivity|apply decode_says; exact Eb]|apply IH; reflexivity].
    + intros H. inversion H as [|[n' t] ? r ? [En Hb] Hr]; subst. cbn [fst snd] in En, Hb. subst n'. apply decode_says in Hb. apply IH in Hr. rewrite Hb, Hr. reflexivity.
Qed.
