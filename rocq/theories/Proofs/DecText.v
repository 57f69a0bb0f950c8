(** [Decimal(str(d)) = d] for every Decimal, infinities and NaNs included. *)
From Coq Require Import Lia.
From Verif.Base Require Import PyStr PyNum.
From Verif.Proofs Require Import DecStr.
Local Open Scope N_scope.

Lemma dec_str_chars neg coef exp c : In c (dec_str (DFin neg coef exp)) -> dchar c.
Proof. rewrite dec_str_body. intros H. apply in_app_iff in H as [H|H]; [|apply (dec_body_dchar _ _ _ H)]. destruct neg; [|destruct H]. destruct H as [<-|[]]. unfold dchar. lia. Qed.
Lemma remove_c_id a s : ~ In a s -> remove_c a s = s.
Proof. intros H. apply filter_id. intros x Hx. destruct (N.eqb_spec x a) as [-> |Hne]; [contradiction|reflexivity]. Qed.
Lemma lower_digits s : dig s -> lower s = s.
Proof.
  intros H. unfold lower. rewrite <- (map_id s) at 2. apply map_ext_in. intros c Hc. apply H in Hc.
  unfold lower_c. destruct (N.leb_spec 65 c); [lia|]. cbn [andb]. destruct (N.eqb_spec c 8490); [lia|reflexivity].
Qed.
Definition payload (n : N) : str := if n =? 0 then [] else N_str n.
Lemma payload_val n : digits_val (payload n) = Some n.
Proof. unfold payload. destruct (N.eqb_spec n 0) as [-> |H]; [reflexivity|apply digits_val_N_str]. Qed.
Lemma payload_digits n : dig (payload n).
Proof. unfold payload. destruct (n =? 0); [intros c []|intros c; apply N_str_ascii]. Qed.
Lemma nan_text neg sig n : parse_dec (dec_str (DNan neg sig n)) = Some (DNan neg sig n).
Proof.
  change (dec_str (DNan neg sig n)) with ((if neg then [45] else []) ++ (if sig then u "sNaN" else u "NaN") ++ payload n). pose proof (payload_val n) as V. pose proof (payload_digits n) as D. generalize dependent (payload n). intros p V D.
  assert (C : forall c, In c ((if neg then [45] else []) ++ (if sig then u "sNaN" else u "NaN") ++ p) -> is_ws c = false /\ c <> 95).
  { intros c H. apply in_app_iff in H as [H|H]; [destruct neg; [destruct H as [<-|[]]; split; [reflexivity|lia]|destruct H]|]. apply in_app_iff in H as [H|H].
    - destruct sig; cbn in H; repeat (destruct H as [<-|H]; [split; [reflexivity|lia]|]); destruct H.
    - apply D in H. split; [apply ws_digit, H|lia]. }
  unfold parse_dec. rewrite strip_id by (intros x Hx; apply C, Hx). rewrite remove_c_id by (intros Hx; apply C in Hx; destruct Hx; congruence).
  assert (F : parse_finite neg ((if sig then u "sNaN" else u "NaN") ++ p) = None) by (destruct sig; reflexivity).
  assert (S : parse_special neg ((if sig then u "sNaN" else u "NaN") ++ p) = Some (DNan neg sig n)).
  { unfold parse_special. unfold lower. rewrite map_app. change (map lower_c p) with (lower p). rewrite (lower_digits p D).
    destruct sig.
    - change (map lower_c (u "sNaN") ++ p) with (115 :: 110 :: 97 :: 110 :: p). cbn -[digits_val]. replace (startswith p []) with true by (destruct p; reflexivity). rewrite V. reflexivity.
    - change (map lower_c (u "NaN") ++ p) with (110 :: 97 :: 110 :: p). cbn -[digits_val]. replace (startswith p []) with true by (destruct p; reflexivity). rewrite V. reflexivity. }
  destruct neg; cbn [app].
  - cbn [N.eqb Pos.eqb]. rewrite F, S. reflexivity.
  - destruct sig; change (u "sNaN") with [115; 78; 97; 78] in *; change (u "NaN") with [78; 97; 78] in *; cbn [app N.eqb Pos.eqb]; cbn [app] in F, S; rewrite F, S; reflexivity.
Qed.
(** [Decimal(str(d)) = d], to the sign and the exponent *)
Theorem dec_text d : parse_dec (dec_str d) = Some d.
Proof. destruct d as [n c e|n|n s p]; [apply parse_dec_str|destruct n; vm_compute; reflexivity|apply nan_text]. Qed.
