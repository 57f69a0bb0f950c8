(** What json.dumps writes is JSON and says the data. *)
From Verif.Base Require Import PyStr PyNum PyVal PyDict.
From Verif.Model Require Import Flatten JsonText.
From Verif.Spec Require Import JsonGrammar.
From Verif.Proofs Require Import JvInd JsonScan.
From Coq Require Import Lia.
From Coq Require Decimal DecimalFacts DecimalN.
Local Open Scope N_scope.

(** ** Integers *)
Lemma nzhead_no_zero d : match Decimal.nzhead d with Decimal.D0 _ => False | _ => True end.
Proof. induction d; cbn [Decimal.nzhead]; trivial. Qed.
Lemma value_N_str n : value (N_str n) = n.
Proof.
  unfold value, N_str. transitivity (N.of_uint (N.to_uint n)); [|apply DecimalN.Unsigned.of_to]. rewrite of_uint_fold.
  generalize (uint_digits (N.to_uint n)) as l. generalize 0 as a. intros a l. revert a. induction l as [|c l IH]; intros a; [reflexivity|]. cbn [fold_left].
  replace (a * 10 + (c - 48)) with (10 * a + (c - 48)) by lia. apply IH.
Qed.
Lemma N_str_whole n : whole_text (N_str n).
Proof.
  destruct n as [|p]; [left; reflexivity|]. right. unfold N_str.
  pose proof (DecimalN.Unsigned.to_of (N.to_uint (Npos p))) as E. rewrite DecimalN.Unsigned.of_to in E.
  assert (N.to_uint (Npos p) <> Decimal.D0 Decimal.Nil) as Hz.
  { intros X. pose proof (DecimalN.Unsigned.of_to (Npos p)) as Y. rewrite X in Y. discriminate Y. }
  remember (N.to_uint (Npos p)) as d eqn:Ed. clear Ed. unfold Decimal.unorm in E.
  pose proof (nzhead_no_zero d) as Hn.
  assert (forall x y, In y (uint_digits x) -> digit y) as Hdig by (intros x y Hy; exact (uint_digits_ascii x y Hy)).
  destruct (Decimal.nzhead d) as [|x|x|x|x|x|x|x|x|x|x] eqn:Eh; [congruence|destruct Hn|..]; rewrite E; cbn [uint_digits]; eexists; eexists;
    (split; [reflexivity|split; [lia|apply Forall_forall; apply Hdig]]).
Qed.
Lemma Z_str_says z : number_says (Z_str z) (VInt z).
Proof.
  destruct z as [|p|p]; cbn [Z_str].
  - exact (ns_int false [48] (or_introl eq_refl)).
  - pose proof (ns_int false (N_str (Npos p)) (N_str_whole _)) as H. rewrite value_N_str in H. exact H.
  - pose proof (ns_int true (N_str (Npos p)) (N_str_whole _)) as H. rewrite value_N_str in H. exact H.
Qed.

(** ** Strings *)
Lemma hex_digit_hex n : n < 16 -> hex (hex_digit n) n.
Proof.
  intros H. unfold hex_digit, hex. destruct (N.ltb_spec n 10) as [L|L]; [left|right; left]; lia.
Qed.
Lemma escape_says c t s : chars_say t s -> chars_say (escape c ++ t) (c :: s).
Proof.
  intros H. unfold escape.
  assert (forall x y, In (x, y) short_escapes -> chars_say ([92; x] ++ t) (y :: s)) as Hs by (intros x y Hin; apply cs_short; assumption).
  destruct (N.eqb_spec c 34) as [-> |N1]; [apply Hs; cbn; auto 10|]. destruct (N.eqb_spec c 92) as [-> |N2]; [apply Hs; cbn; auto 10|].
  destruct (N.eqb_spec c 10) as [-> |N3]; [apply Hs; cbn; auto 10|]. destruct (N.eqb_spec c 13) as [-> |N4]; [apply Hs; cbn; auto 10|].
  destruct (N.eqb_spec c 9) as [-> |N5]; [apply Hs; cbn; auto 10|]. destruct (N.eqb_spec c 12) as [-> |N6]; [apply Hs; cbn; auto 10|].
  destruct (N.eqb_spec c 8) as [-> |N7]; [apply Hs; cbn; auto 10|].
  destruct (N.ltb_spec c 32) as [L|L]; [|cbn [app]; apply cs_plain; assumption].
  assert (unit_text [92; 117; 48; 48; hex_digit (c / 16); hex_digit (c mod 16)] c) as Hu.
  { pose proof (N.div_mod c 16 ltac:(discriminate)) as Ed. pose proof (N.mod_lt c 16 ltac:(discriminate)).
    assert (c / 16 < 16) by (apply N.div_lt_upper_bound; lia).
    pose proof (ut_unicode 48 48 (hex_digit (c / 16)) (hex_digit (c mod 16)) 0 0 (c / 16) (c mod 16)) as X.
    replace (((0 * 16 + 0) * 16 + c / 16) * 16 + c mod 16) with c in X by lia. apply X; [left; lia|left; lia|apply hex_digit_hex; assumption|apply hex_digit_hex; assumption]. }
  apply cs_unit; [exact Hu| |exact H]. intros [X _]. unfold high in X. lia.
Qed.
Lemma escapes_say s : chars_say (flat_map escape s) s.
Proof. induction s as [|c s IH]; [constructor|]. cbn [flat_map]. apply escape_says. exact IH. Qed.

(** ** Layout *)
Lemma new_line_blanks l : blanks (new_line l).
Proof. unfold new_line, blanks. constructor; [auto|]. apply Forall_forall. intros c H. apply repeat_spec in H. auto. Qed.
Lemma items_laid lax l l' parts vs : Forall2 (says lax) parts vs -> parts <> [] ->
  items_say lax (new_line l ++ join ([44] ++ new_line l) parts ++ new_line l') vs.
Proof.
  intros H. induction H as [|t v parts vs Hv Hr IH]; intros Hn; [contradiction|]. destruct parts as [|t' parts].
  - inversion Hr; subst. cbn [join]. apply is_one; [apply new_line_blanks|exact Hv|apply new_line_blanks].
  - specialize (IH ltac:(discriminate)).
    replace (new_line l ++ join ([44] ++ new_line l) (t :: t' :: parts) ++ new_line l')
      with (new_line l ++ t ++ [] ++ [44] ++ (new_line l ++ join ([44] ++ new_line l) (t' :: parts) ++ new_line l')).
    + apply is_more; [apply new_line_blanks|exact Hv|constructor|exact IH].
    + cbn [join]. rewrite <- !app_assoc. reflexivity.
Qed.
Lemma array_laid lax level parts vs : Forall2 (says lax) parts vs -> says lax (bracketed 91 93 level parts) (VArr vs).
Proof.
  intros H. destruct H as [|t v parts vs Hv Hr]; [exact (js_no_items lax [] (Forall_nil _))|].
  pose proof (js_array lax _ _ (items_laid lax (S level) level (t :: parts) (v :: vs) (Forall2_cons _ _ Hv Hr) ltac:(discriminate))) as X.
  unfold bracketed. rewrite <- !app_assoc in X. exact X.
Qed.
Definition member_says (lax : bool) (p : str) (kv : str * jval) : Prop := exists t, p = quoted (fst kv) ++ [58; 32] ++ t /\ says lax t (snd kv).
Lemma members_laid lax l l' parts d : Forall2 (member_says lax) parts d -> parts <> [] ->
  members_say lax (new_line l ++ join ([44] ++ new_line l) parts ++ new_line l') d.
Proof.
  intros H. induction H as [|p [k v] parts d (t & -> & Hv) Hr IH]; intros Hn; [contradiction|]. cbn [fst snd] in *.
  assert (blanks [32]) as B by (constructor; [auto|constructor]).
  destruct parts as [|p' parts].
  - inversion Hr; subst. cbn [join]. unfold quoted.
    pose proof (ms_one lax (new_line l) (flat_map escape k) k [] [32] t v (new_line l') (new_line_blanks l) (escapes_say k) (Forall_nil _) B Hv (new_line_blanks l')) as X.
    rewrite <- !app_assoc. exact X.
  - specialize (IH ltac:(discriminate)).
    pose proof (ms_more lax (new_line l) (flat_map escape k) k [] [32] t v [] _ d (new_line_blanks l) (escapes_say k) (Forall_nil _) B Hv (Forall_nil _) IH) as X.
    cbn [join]. unfold quoted. rewrite <- !app_assoc. exact X.
Qed.
Lemma object_laid lax level parts d : Forall2 (member_says lax) parts d -> says lax (bracketed 123 125 level parts) (VObj d).
Proof.
  intros H. destruct H as [|t v parts vs Hv Hr]; [exact (js_no_members lax [] (Forall_nil _))|].
  pose proof (js_object lax _ _ (members_laid lax (S level) level (t :: parts) (v :: vs) (Forall2_cons _ _ Hv Hr) ltac:(discriminate))) as X.
  unfold bracketed. rewrite <- !app_assoc in X. exact X.
Qed.

Theorem dumped E lax v : forall level x, tells E lax v x -> says lax (dumps E level v) x.
Proof.
  induction v as [s|l IH|d IH] using jv_ind'; intros level x H.
  - inversion H; subst; cbn [dumps scalar_text].
    + constructor.
    + destruct b; constructor.
    + apply js_number. apply Z_str_says.
    + apply js_number. assumption.
    + apply js_odd; [reflexivity|left; reflexivity].
    + destruct n; (apply js_odd; [reflexivity|cbn; auto]).
    + unfold quoted. apply js_string. apply escapes_say.
  - inversion H as [| | | | | | |l' vs Hl|]; subst. cbn [dumps]. apply array_laid. clear H. induction Hl as [|y z l vs Hy Hl IHl]; [constructor|].
    apply Forall_cons_iff in IH as [H1 H2]. cbn [map]. constructor; [apply H1; exact Hy|exact (IHl H2)].
  - inversion H as [| | | | | | | |d' vs Hd]; subst. cbn [dumps]. apply object_laid. clear H. induction Hd as [|[k y] [k' z] d vs [Hk Hy] Hd IHd]; [constructor|].
    apply Forall_cons_iff in IH as [H1 H2]. cbn [map fst snd] in *. subst k'. constructor; [|exact (IHd H2)]. eexists. split; [reflexivity|]. apply H1. exact Hy.
Qed.
Theorem written E lax v level x : tells E lax v x -> document_says lax (dumps E level v) x.
Proof. intros H. exists [], (dumps E level v), []. rewrite app_nil_r. split; [reflexivity|]. split; [constructor|]. split; [exact (dumped E lax v level x H)|constructor]. Qed.

(** ** NaN and the infinities *)
Lemma strict_no_odd : (forall t v, says false t v -> ~ has_odd v) /\ (forall t vs, items_say false t vs -> Forall (fun v => ~ has_odd v) vs)
  /\ (forall t d, members_say false t d -> Forall (fun kv => ~ has_odd (snd kv)) d).
Proof.
  apply says_all.
  - intros H. inversion H.
  - intros H. inversion H.
  - intros H. inversion H.
  - intros t v H Ho. destruct H; inversion Ho.
  - discriminate.
  - intros t s _ H. inversion H.
  - intros w _ H. inversion H as [|v l Hin _|]; subst. destruct Hin.
  - intros t vs _ IH H. inversion H as [|v l Hin Hv|]; subst. exact (proj1 (Forall_forall _ _) IH v Hin Hv).
  - intros w _ H. inversion H as [| |k v d Hin _]; subst. destruct Hin.
  - intros t d _ IH H. inversion H as [| |k v d' Hin Hv]; subst. exact (proj1 (Forall_forall _ _) IH (k, v) Hin Hv).
  - intros a t b v _ _ IH _. constructor; [exact IH|constructor].
  - intros a t b v r vs _ _ IH _ _ IHr. constructor; assumption.
  - intros a k s b c t v e _ _ _ _ _ IH _. constructor; [exact IH|constructor].
  - intros a k s b c t v e r d _ _ _ _ _ IH _ _ IHr. constructor; assumption.
Qed.
Theorem odd_not_json E v level x : tells E true v x -> has_odd x -> forall y, ~ document_says false (dumps E level v) y.
Proof.
  intros H Ho y Hy. pose proof (one_meaning _ _ _ _ _ (written E true v level x H) Hy) as ->.
  destruct Hy as (a & m & b & _ & _ & Hs & _). exact (proj1 strict_no_odd m y Hs Ho).
Qed.

(** plain data always tells something, if Python's repr of floats is JSON *)
Lemma plain_tells E lax v : floats_are_json E -> plain_data v -> exists y, tells E lax v y.
Proof.
  intros HE. induction v as [s|l IH|d IH] using jv_ind'; intros H; inversion H as [s' Hs|l' Hl|d' Hd]; subst.
  - destruct s as [|b|z|d|f|t|d]; try destruct Hs; try (eexists; constructor; fail). destruct f as [n m x|n|].
    + destruct (HE n m x) as [y Hy]. exists y. constructor. exact Hy.
    + destruct Hs.
    + destruct Hs.
  - assert (exists vs, Forall2 (tells E lax) l vs) as [vs Hv]; [|exists (VArr vs); constructor; exact Hv]. clear H.
    induction IH as [|y l Hy _ IHl]; [exists []; constructor|]. apply Forall_cons_iff in Hl as [H1 H2]. destruct (Hy H1) as [z Hz]. destruct (IHl H2) as [vs Hv]. exists (z :: vs). constructor; assumption.
  - assert (exists vs, Forall2 (fun kx ky => fst kx = fst ky /\ tells E lax (snd kx) (snd ky)) d vs) as [vs Hv]; [|exists (VObj vs); constructor; exact Hv]. clear H.
    induction IH as [|[k y] d Hy _ IHd]; [exists []; constructor|]. apply Forall_cons_iff in Hd as [H1 H2]. destruct (Hy H1) as [z Hz]. destruct (IHd H2) as [vs Hv].
    exists ((k, z) :: vs). constructor; [split; [reflexivity|exact Hz]|exact Hv].
Qed.
