(** Proofs for C42. *)
From Coq Require Import Lia.
From Verif.Base Require Import PyStr PyNum PyVal PyDict Outcome.
From Verif.Model Require Import Warn Lib Readers Ods.
From Verif.Spec Require Import OdsCells.

Lemma grow_set_nth l i v j : nth j (grow_set l i v) SNone = if (j =? i)%nat then v else nth j l SNone.
Proof.
  unfold grow_set. cbv zeta. set (l' := l ++ repeat SNone (i + 1 - length l)).
  assert (Hl : (i < length l')%nat) by (unfold l'; rewrite app_length, repeat_length; lia).
  assert (Hn : forall k, nth k l' SNone = nth k l SNone).
  { intros k. unfold l'. destruct (Nat.lt_ge_cases k (length l)) as [H|H]; [apply app_nth1; exact H|]. rewrite app_nth2 by exact H. rewrite (nth_overflow l) by exact H.
    generalize (k - length l)%nat (i + 1 - length l)%nat. intros a b. revert a. induction b as [|b IH]; intros [|a]; cbn; auto. }
  destruct (j =? i)%nat eqn:E.
  - apply Nat.eqb_eq in E. subst j. rewrite app_nth2; rewrite firstn_length, Nat.min_l by lia; [|lia]. rewrite Nat.sub_diag. reflexivity.
  - apply Nat.eqb_neq in E. rewrite <- Hn. transitivity (nth j (firstn (S i) l' ++ skipn (S i) l') SNone); [|rewrite firstn_skipn; reflexivity]. destruct (Nat.lt_ge_cases j i) as [H|H].
    + rewrite app_nth1 by (rewrite firstn_length; lia). rewrite app_nth1 by (rewrite firstn_length; lia).
      rewrite <- (firstn_skipn i (firstn (S i) l')). rewrite firstn_firstn, Nat.min_l by lia. rewrite app_nth1 by (rewrite firstn_length; lia). reflexivity.
    + rewrite app_nth2 by (rewrite firstn_length; lia). rewrite (app_nth2 (firstn (S i) l')) by (rewrite firstn_length; lia).
      rewrite !firstn_length, !Nat.min_l by lia. replace (j - i)%nat with (S (j - S i)) by lia. reflexivity.
Qed.
Lemma grow_set_length l i v : length (grow_set l i v) = Nat.max (length l) (S i).
Proof.
  unfold grow_set. cbv zeta. rewrite app_length. cbn [length]. rewrite firstn_length, skipn_length, app_length, repeat_length. lia.
Qed.

Lemma dot_mem v : str_mem [46%N] (map (fun x => [x]) v) = true <-> In 46%N v.
Proof.
  induction v as [|a v IH]; [cbn; intuition discriminate|]. cbn [map str_mem existsb In]. unfold str_mem in *. cbn [existsb]. rewrite Bool.orb_true_iff.
  destruct (str_eqb_spec [46%N] [a]) as [H|H].
  - injection H as <-. intuition.
  - rewrite IH. split; [intros [|]; [discriminate|auto]|intros [->|]; [contradiction|auto]].
Qed.
Lemma dot_mem_not v : ~ In 46%N v -> str_mem [46%N] (map (fun x => [x]) v) = false.
Proof. intros H. destruct (str_mem _ _) eqn:E; [|reflexivity]. apply dot_mem in E. contradiction. Qed.

Lemma takes_ok c n : takes c n -> cell_repeat false c = Ok n [].
Proof.
  unfold cell_repeat. intros [s z Hr Hp|Hr Hs].
  - rewrite Hr. destruct s as [|a s]; [discriminate Hp|]. cbn [attr_text]. unfold int_of. rewrite Hp. reflexivity.
  - assert (E : attr_text (oc_repeat c) = None) by (destruct Hr as [-> | ->]; reflexivity). rewrite E.
    destruct Hs as [-> | [-> | (s & z & -> & Hp)]]; cbn [attr_text]; [reflexivity|reflexivity|]. destruct s as [|a s]; [reflexivity|]. unfold int_of. rewrite Hp. reflexivity.
Qed.
Lemma takes_fun c n m : takes c n -> takes c m -> n = m.
Proof. intros H H'. apply takes_ok in H, H'. rewrite H in H'. injection H' as <-. reflexivity. Qed.
Lemma columns_fun cs n : columns cs n -> forall m, columns cs m -> n = m.
Proof. induction 1 as [|c cs n m Ht _ IH]; intros k H; inversion H; subst; [reflexivity|]. f_equal; [eapply takes_fun; eassumption|auto]. Qed.
Lemma shows_value E c v : shows E c v -> (oc_text c = [] /\ v = SNone) \/ (oc_text c <> [] /\ cell_value E c = Ok v []).
Proof.
  intros [Ht|x z Ht Hty Hv Hd Hp|x y Ht Hty Hv Hd Hp|x y Ht Hty Hv Hd Hp|x y Ht Hty Hv Hd Hp|Ht H1 H2]; [left; auto|right; split; [exact Ht|]..].
  - unfold cell_value. rewrite Hty, str_eqb_refl, Hv, dot_mem_not by exact Hd. unfold int_of. rewrite Hp. reflexivity.
  - unfold cell_value. rewrite Hty, str_eqb_refl, Hv. apply dot_mem in Hd. rewrite Hd, Hp. reflexivity.
  - unfold cell_value. rewrite Hty. change (str_eqb (u "date") (u "float")) with false. cbn iota. rewrite str_eqb_refl, Hv, dot_mem_not by exact Hd. cbn zeta. rewrite Hp. reflexivity.
  - unfold cell_value. rewrite Hty. change (str_eqb (u "date") (u "float")) with false. cbn iota. rewrite str_eqb_refl, Hv. apply dot_mem in Hd. rewrite Hd. cbn zeta. unfold ljust0. rewrite Hp. reflexivity.
  - unfold cell_value. destruct (oc_type c) as [t|]; [|reflexivity]. destruct (str_eqb_spec t (u "float")) as [->|]; [contradiction|]. destruct (str_eqb_spec t (u "date")) as [->|]; [contradiction|]. reflexivity.
Qed.

Section Row.
  Variable E : ods_env.
  Lemma put_cell_ok c v : shows E c v -> forall n arr k, (length arr <= k)%nat -> exists arr', put_cell E c n (arr, k) = Ok (arr', (k + n)%nat) [] /\
    (length arr' <= k + n)%nat /\ (forall j, (j < k)%nat -> nth j arr' SNone = nth j arr SNone) /\ (forall j, (k <= j < k + n)%nat -> nth j arr' SNone = v).
  Proof.
    intros Hs. induction n as [|n IH]; intros arr k Hl.
    - exists arr. cbn. rewrite Nat.add_0_r. repeat split; try lia; auto.
    - cbn [put_cell]. destruct (shows_value _ _ _ Hs) as [[Ht ->] | [Ht Hv]].
      + rewrite Ht. cbn [bind ret]. destruct (IH arr (S k) ltac:(lia)) as (arr' & -> & H1 & H2 & H3). exists arr'. cbn [app]. rewrite <- plus_n_Sm. cbn [plus]. split; [reflexivity|]. split; [lia|]. split.
        * intros j Hj. apply H2. lia.
        * intros j Hj. destruct (Nat.eq_dec j k) as [-> |Hne]; [rewrite H2 by lia; apply nth_overflow; exact Hl|apply H3; lia].
      + destruct (oc_text c) as [|a t]; [contradiction|]. rewrite Hv. cbn [bind ret app]. destruct (IH (grow_set arr k v) (S k)) as (arr' & -> & H1 & H2 & H3); [rewrite grow_set_length; lia|].
        exists arr'. rewrite <- plus_n_Sm. cbn [plus]. split; [reflexivity|]. split; [lia|]. split.
        * intros j Hj. rewrite H2 by lia. rewrite grow_set_nth. destruct (j =? k)%nat eqn:Ej; [apply Nat.eqb_eq in Ej; lia|reflexivity].
        * intros j Hj. destruct (Nat.eq_dec j k) as [-> |Hne]; [rewrite H2 by lia; rewrite grow_set_nth, Nat.eqb_refl; reflexivity|apply H3; lia].
  Qed.
  Lemma put_cells_ok cs N : columns cs N -> (forall c, In c cs -> exists v, shows E c v) -> forall arr k, (length arr <= k)%nat -> exists arr',
    put_cells E false cs (arr, k) = Ok (arr', (k + N)%nat) [] /\ (length arr' <= k + N)%nat /\ (forall j, (j < k)%nat -> nth j arr' SNone = nth j arr SNone) /\
    (forall pre c post n m i, cs = pre ++ c :: post -> columns pre n -> takes c m -> (i < m)%nat -> shows E c (nth (k + n + i) arr' SNone)).
  Proof.
    induction 1 as [|c cs n m Ht Hc IH]; intros Hs arr k Hl.
    - exists arr. rewrite Nat.add_0_r. cbn. split; [reflexivity|]. split; [exact Hl|]. split; [auto|]. intros [|] ? ? ? ? ? H; discriminate.
    - cbn [put_cells]. rewrite (takes_ok _ _ Ht). cbn [bind ret app]. destruct (Hs c (or_introl eq_refl)) as [v Hv].
      destruct (put_cell_ok c v Hv n arr k Hl) as (a1 & -> & L1 & K1 & V1). cbn [bind ret app].
      destruct (IH (fun c' H => Hs c' (or_intror H)) a1 (k + n)%nat L1) as (a2 & -> & L2 & K2 & V2). exists a2. rewrite Nat.add_assoc. split; [reflexivity|]. split; [exact L2|]. split.
      + intros j Hj. rewrite K2 by lia. apply K1. exact Hj.
      + intros [|p pre] c' post n' m' i Heq Hcol Ht' Hi; injection Heq as -> ->.
        * inversion Hcol; subst. rewrite (takes_fun _ _ _ Ht Ht') in *. rewrite K2 by lia. rewrite V1 by lia. exact Hv.
        * inversion Hcol as [|? ? a b Ha Hb]; subst. rewrite (takes_fun _ _ _ Ht Ha) in *. rewrite Nat.add_assoc. eapply V2; eauto.
  Qed.
End Row.

Lemma ods_row_read E r N : columns (or_cells r) N -> (forall c, In c (or_cells r) -> oc_covered c = false /\ exists v, shows E c v) ->
  exists row, read_row E false r = Ok row [] /\ (length row <= N)%nat /\
    forall pre c post n m i, or_cells r = pre ++ c :: post -> columns pre n -> takes c m -> (i < m)%nat -> shows E c (nth (n + i) row SNone).
Proof.
  intros Hc Hs. unfold read_row. replace (filter (fun c => negb (oc_covered c)) (or_cells r)) with (or_cells r).
  - destruct (put_cells_ok E (or_cells r) N Hc (fun c H => proj2 (Hs c H)) [] 0 (le_n _)) as (arr & -> & H1 & _ & H2). exists arr. split; [reflexivity|]. split; [exact H1|]. exact H2.
  - symmetry. clear Hc. induction (or_cells r) as [|c cs IH]; [reflexivity|]. cbn [filter]. destruct (Hs c (or_introl eq_refl)) as [-> _]. cbn [negb]. f_equal. apply IH. intros c' H. apply Hs. right. exact H.
Qed.

From Verif.Proofs Require Import LocationFacts.
Lemma read_ods_inv E doc : forall b0 b w, NoDup (map fst doc) -> (forall n, In n (map fst doc) -> ~ In n (map fst b0)) -> read_ods E false doc b0 = Ok b w ->
  exists b', b = b0 ++ b' /\ Forall2 (fun d s => fst d = fst s /\ Forall2 (fun r row => exists w, read_row E false r = Ok row w) (snd d) (snd s)) doc b'.
Proof.
  induction doc as [|[name rows] doc IH]; intros b0 b w Hnd Hout H; cbn [read_ods] in H.
  - injection H as <- _. exists []. rewrite app_nil_r. split; [reflexivity|constructor].
  - destruct (read_ods_sheet E false rows) as [g w1|] eqn:Eg; [|discriminate]. cbn [bind] in H. inversion Hnd; subst.
    destruct (read_ods E false doc (sset name g b0)) as [b1 w2|] eqn:Eb; [|discriminate]. cbn [bind] in H. injection H as <- _.
    assert (Hs : sset name g b0 = b0 ++ [(name, g)]).
    { apply sset_new. apply sget_None. apply Hout. left. reflexivity. }
    rewrite Hs in Eb. assert (Hout' : forall n, In n (map fst doc) -> ~ In n (map fst (b0 ++ [(name, g)]))).
    { intros n Hn. rewrite map_app, in_app_iff. intros [Hx|[<-|[]]]; [apply (Hout n (or_intror Hn) Hx)|contradiction]. }
    destruct (IH _ _ _ H3 Hout' Eb) as (b' & -> & HF).
    exists ((name, g) :: b'). rewrite <- app_assoc. split; [reflexivity|]. constructor; [|exact HF]. split; [reflexivity|]. cbn [snd]. unfold read_ods_sheet in Eg.
    apply map_res_inv in Eg. exact Eg.
Qed.
Lemma ods_sheets E doc b w : NoDup (map fst doc) -> read_ods E false doc [] = Ok b w ->
  Forall2 (fun d s => fst d = fst s /\ Forall2 (fun r row => exists w, read_row E false r = Ok row w) (snd d) (snd s)) doc b.
Proof. intros H1 H2. destruct (read_ods_inv E doc [] b w H1 (fun _ _ x => x) H2) as (b' & -> & H). exact H. Qed.
