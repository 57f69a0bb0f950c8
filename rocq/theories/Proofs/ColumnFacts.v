From Coq Require Import Lia.
From Verif.Base Require Import PyStr PyNum.
From Verif.Model Require Import Input.
From Verif.Spec Require Import Columns.
Local Open Scope N_scope.

Lemma letters_fold_app s : forall a, fold_left (fun a c => 26 * a + (c - 64)) s a = a * 26 ^ N.of_nat (length s) + fold_left (fun a c => 26 * a + (c - 64)) s 0.
Proof.
  induction s as [|c s IH]; intros a; cbn [fold_left length]; [simpl; lia|]. rewrite IH. rewrite (IH (26 * 0 + (c - 64))).
  rewrite Nat2N.inj_succ, N.pow_succ_r'. lia.
Qed.
Lemma column_letter_fuel_spec fuel : forall n acc, n < 2 ^ N.of_nat fuel -> (forall c, In c acc -> 65 <= c <= 90) ->
  (forall c, In c (column_letter_fuel fuel n acc) -> 65 <= c <= 90) /\
  fold_left (fun a c => 26 * a + (c - 64)) (column_letter_fuel fuel n acc) 0 = fold_left (fun a c => 26 * a + (c - 64)) acc n.
Proof.
  induction fuel as [|fuel IH]; intros n acc Hn Ha; cbn [column_letter_fuel].
  - simpl in Hn. assert (n = 0) as -> by lia. auto.
  - destruct (N.eqb_spec n 0) as [->|Hz]; [auto|].
    assert (HP : 0 < 2 ^ N.of_nat fuel) by (apply N.neq_0_lt_0, N.pow_nonzero; lia).
    assert (Hm : (n - 1) mod 26 < 26) by (apply N.mod_lt; lia). assert (Hd : n - 1 = 26 * ((n - 1) / 26) + (n - 1) mod 26) by (apply N.div_mod; lia).
    rewrite Nat2N.inj_succ, N.pow_succ_r' in Hn.
    destruct (IH ((n - 1) / 26) (65 + (n - 1) mod 26 :: acc)) as [H1 H2].
    + apply N.div_lt_upper_bound; [lia|]. clear -Hn HP Hz; revert Hn HP; generalize (2 ^ N.of_nat fuel); intros; lia.
    + intros c [<-|Hc]; [generalize dependent ((n - 1) mod 26); intros; lia|auto].
    + split; [exact H1|]. rewrite H2. cbn [fold_left]. f_equal. revert Hd Hm. generalize ((n - 1) mod 26) ((n - 1) / 26). intros; lia.
Qed.
Lemma column_letter_spec n : letters n (column_letter n).
Proof.
  destruct (column_letter_fuel_spec (N.to_nat (N.size n)) n []) as [H1 H2].
  - rewrite N2Nat.id. apply N.size_gt.
  - intros c [].
  - split; [exact H1|]. exact H2.
Qed.
Lemma column_name_ok v n : column_name v n (if v then N_str n else column_letter n).
Proof. destruct v; [reflexivity|apply column_letter_spec]. Qed.
