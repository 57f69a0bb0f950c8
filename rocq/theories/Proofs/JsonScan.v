(** Python's json.loads reads every JSON text as what it says. *)
From Verif.Base Require Import PyStr PyNum PyVal PyDict.
From Verif.Model Require Import Flatten JsonText.
From Verif.Spec Require Import JsonGrammar.
From Coq Require Import Lia.
Local Open Scope N_scope.

Scheme says_mind := Minimality for says Sort Prop
  with items_mind := Minimality for items_say Sort Prop
  with members_mind := Minimality for members_say Sort Prop.
Combined Scheme says_all from says_mind, items_mind, members_mind.

(** ** White space *)
Lemma ws_of c : c = 32 \/ c = 9 \/ c = 10 \/ c = 13 -> json_ws c = true.
Proof. intros [-> |[-> |[-> | ->]]]; reflexivity. Qed.
Lemma skip_blanks a s : blanks a -> skip_ws (a ++ s) = skip_ws s.
Proof. induction 1 as [|c a Hc _ IH]; [reflexivity|]. cbn [app skip_ws]. rewrite (ws_of c Hc). exact IH. Qed.
Lemma skip_stop c s : json_ws c = false -> skip_ws (c :: s) = c :: s.
Proof. intros H. cbn [skip_ws]. rewrite H. reflexivity. Qed.
Lemma blanks_skip a : blanks a -> skip_ws a = [].
Proof. intros H. rewrite <- (app_nil_r a), (skip_blanks a [] H). reflexivity. Qed.

(** ** Strings *)
Lemma hex_is c n : hex c n -> hex_val c = Some n.
Proof.
  unfold hex, hex_val, ascii_digit. intros [[H ->]|[[H ->]|[H ->]]].
  - replace (48 <=? c) with true by (symmetry; apply N.leb_le; lia). replace (c <=? 57) with true by (symmetry; apply N.leb_le; lia). reflexivity.
  - replace (c <=? 57) with false by (symmetry; apply N.leb_gt; lia). rewrite andb_false_r.
    replace (97 <=? c) with true by (symmetry; apply N.leb_le; lia). replace (c <=? 102) with true by (symmetry; apply N.leb_le; lia). reflexivity.
  - replace (c <=? 57) with false by (symmetry; apply N.leb_gt; lia). rewrite andb_false_r.
    replace (97 <=? c) with false by (symmetry; apply N.leb_gt; lia). cbn [andb].
    replace (65 <=? c) with true by (symmetry; apply N.leb_le; lia). replace (c <=? 70) with true by (symmetry; apply N.leb_le; lia). reflexivity.
Qed.
Lemma unit_is t n : unit_text t n -> exists a b c d, t = [92; 117; a; b; c; d] /\ hex4 a b c d = Some n.
Proof.
  intros [a b c d a' b' c' d' H1 H2 H3 H4]. exists a, b, c, d. split; [reflexivity|]. unfold hex4.
  rewrite (hex_is _ _ H1), (hex_is _ _ H2), (hex_is _ _ H3), (hex_is _ _ H4). reflexivity.
Qed.
Lemma high_is n : high n -> high_half n = true.
Proof. unfold high, high_half. intros H. apply andb_true_iff. split; apply N.leb_le; lia. Qed.
Lemma low_is n : low n -> low_half n = true.
Proof. unfold low, low_half. intros H. apply andb_true_iff. split; apply N.leb_le; lia. Qed.
Lemma is_low n : low_half n = true -> low n.
Proof. unfold low, low_half. intros H. apply andb_true_iff in H as [H1 H2]. apply N.leb_le in H1, H2. lia. Qed.
Lemma is_high n : high_half n = true -> high n.
Proof. unfold high, high_half. intros H. apply andb_true_iff in H as [H1 H2]. apply N.leb_le in H1, H2. lia. Qed.
Lemma low_not_high n : low n -> high_half n = false.
Proof. unfold low, high_half. intros H. apply andb_false_iff. right. apply N.leb_gt. lia. Qed.
(** after a high half, what follows is a low half or it is not a unit at all *)
Lemma second_half n t s r : chars_say t s -> ~ (high n /\ exists l tl t', unit_text tl l /\ low l /\ t = tl ++ t') -> high_half n = true ->
  match t ++ 34 :: r with
  | z :: z' :: a :: b :: c :: d :: s4 =>
    if (z =? 92) && (z' =? 117) then
      match hex4 a b c d with
      | None => None
      | Some n' => if low_half n' then opt_cons (halves n n') (scan_string s4) else opt_cons n (scan_string (t ++ 34 :: r))
      end
    else opt_cons n (scan_string (t ++ 34 :: r))
  | _ => opt_cons n (scan_string (t ++ 34 :: r))
  end = opt_cons n (scan_string (t ++ 34 :: r)).
Proof.
  intros H Hno Hh. remember (scan_string (t ++ 34 :: r)) as X eqn:EX. clear EX.
  assert (forall c t', t = c :: t' -> c <> 92 -> forall rest, match c :: rest with
     | z :: z' :: a :: b :: c :: d :: s4 => if (z =? 92) && (z' =? 117) then match hex4 a b c d with None => None | Some n' => if low_half n' then opt_cons (halves n n') (scan_string s4) else opt_cons n X end else opt_cons n X
     | _ => opt_cons n X end = opt_cons n X) as Hplain.
  { intros c t' _ Hc rest. assert (c =? 92 = false) as E by (apply N.eqb_neq; exact Hc). rewrite E. destruct rest as [|? [|? [|? [|? [|? ?]]]]]; reflexivity. }
  destruct H as [|c t s H1 H2 H3 H|x c t s Hin H|h l th tl t s Hh' Hl H4 H5 H|m tn t s Hu _ H].
  - cbn [app]. destruct r as [|? [|? [|? [|? [|? ?]]]]]; reflexivity.
  - cbn [app]. apply (Hplain c t eq_refl H3).
  - cbn [app]. assert (x =? 117 = false) as E.
    { unfold short_escapes in Hin. cbn [In] in Hin. apply N.eqb_neq. intros ->. repeat (destruct Hin as [Hin|Hin]; [discriminate Hin|]). destruct Hin. }
    rewrite E, andb_false_r. destruct (t ++ 34 :: r) as [|? [|? [|? [|? ?]]]]; reflexivity.
  - destruct (unit_is th h Hh') as (a & b & c & d & -> & E). rewrite <- !app_assoc. cbn [app]. rewrite !N.eqb_refl, E. cbn [andb].
    destruct (low_half h) eqn:El; [|reflexivity]. pose proof (high_is h H4) as X0. rewrite (low_not_high h (is_low h El)) in X0. discriminate X0.
  - destruct (unit_is tn m Hu) as (a & b & c & d & -> & E). rewrite <- !app_assoc. cbn [app]. rewrite !N.eqb_refl, E. cbn [andb].
    destruct (low_half m) eqn:El; [|reflexivity]. exfalso. apply Hno. split; [apply is_high; exact Hh|]. exists m, [92; 117; a; b; c; d], t.
    split; [exact Hu|]. split; [apply is_low; exact El|reflexivity].
Qed.
Lemma scan_string_ok t s r : chars_say t s -> scan_string (t ++ 34 :: r) = Some (s, r).
Proof.
  induction 1 as [|c t s H1 H2 H3 H IH|x c t s Hin H IH|h l th tl t s Hh Hl H4 H5 H IH|m tn t s Hu Hno H IH].
  - reflexivity.
  - cbn [app scan_string]. replace (c =? 34) with false by (symmetry; apply N.eqb_neq; exact H2). replace (c =? 92) with false by (symmetry; apply N.eqb_neq; exact H3).
    replace (c <? 32) with false by (symmetry; apply N.ltb_ge; exact H1). rewrite IH. reflexivity.
  - rewrite <- app_assoc. cbn [app scan_string]. change (92 =? 34) with false. change (92 =? 92) with true. cbv iota.
    assert (x =? 117 = false /\ unescape x = Some c) as [-> ->]; [|rewrite IH; reflexivity].
    unfold short_escapes in Hin. cbn [In] in Hin. repeat (destruct Hin as [Hin|Hin]; [injection Hin as <- <-; split; reflexivity|]). destruct Hin.
  - destruct (unit_is th h Hh) as (a & b & c & d & -> & E). destruct (unit_is tl l Hl) as (a' & b' & c' & d' & -> & E').
    rewrite <- !app_assoc. cbn [app scan_string]. change (92 =? 34) with false. change (92 =? 92) with true. change (117 =? 117) with true. cbv iota.
    rewrite E, (high_is h H4), E', (low_is l H5), IH. reflexivity.
  - destruct (unit_is tn m Hu) as (a & b & c & d & -> & E). rewrite <- !app_assoc. cbn [app]. remember (t ++ 34 :: r) as rest eqn:Er.
    cbn [scan_string]. change (92 =? 34) with false. change (92 =? 92) with true. change (117 =? 117) with true. cbv iota. rewrite E.
    destruct (high_half m) eqn:Eh; [|rewrite IH; reflexivity]. subst rest. rewrite (second_half m t s r H Hno Eh), IH. reflexivity.
Qed.

(** ** Numbers *)
Lemma digit_is c : digit c -> ascii_digit c = true.
Proof. unfold digit, ascii_digit. intros H. apply andb_true_iff. split; apply N.leb_le; lia. Qed.
Definition no_digit (r : str) : Prop := match r with c :: _ => ascii_digit c = false | [] => True end.
Lemma take_digits_ok ds r : Forall digit ds -> no_digit r -> take_digits (ds ++ r) = (ds, r).
Proof.
  intros H Hr. induction H as [|c ds Hc _ IH].
  - destruct r as [|c r]; [reflexivity|]. cbn [app take_digits]. cbn [no_digit] in Hr. rewrite Hr. reflexivity.
  - cbn [app take_digits]. rewrite (digit_is c Hc), IH. reflexivity.
Qed.
(** what can follow a number *)
Definition after_number (r : str) : Prop := match r with c :: _ => ascii_digit c = false /\ c <> 46 /\ c <> 101 /\ c <> 69 | [] => True end.
Lemma after_no_digit r : after_number r -> no_digit r.
Proof. destruct r; [trivial|]. intros [H _]. exact H. Qed.
Lemma exponent_ok te e r : exponent_text te e -> after_number r -> scan_exponent (te ++ r) = (e, r) /\ no_digit (te ++ r) /\ (te = [] \/ exists c x, te = c :: x /\ (c = 101 \/ c = 69)).
Proof.
  intros H Hr. destruct H as [|c ds Hc Hn Hd|c ds Hc Hn Hd|c ds Hc Hn Hd].
  - split; [|split; [apply after_no_digit; exact Hr|left; reflexivity]]. destruct r as [|c r]; [reflexivity|]. destruct Hr as (_ & _ & H1 & H2). cbn [app scan_exponent].
    replace (c =? 101) with false by (symmetry; apply N.eqb_neq; exact H1). replace (c =? 69) with false by (symmetry; apply N.eqb_neq; exact H2). reflexivity.
  - split; [|split; [destruct Hc as [-> | ->]; reflexivity|right; eexists; eexists; split; [reflexivity|exact Hc]]]. rewrite <- app_assoc. cbn [app scan_exponent].
    replace ((c =? 101) || (c =? 69)) with true by (destruct Hc as [-> | ->]; reflexivity).
    destruct ds as [|d ds]; [contradiction|]. pose proof (Forall_inv Hd) as Hd1. unfold digit in Hd1. cbn [app].
    replace (d =? 45) with false by (symmetry; apply N.eqb_neq; lia). replace (d =? 43) with false by (symmetry; apply N.eqb_neq; lia).
    change (d :: ds ++ r) with ((d :: ds) ++ r). rewrite (take_digits_ok (d :: ds) r Hd (after_no_digit r Hr)). reflexivity.
  - split; [|split; [destruct Hc as [-> | ->]; reflexivity|right; eexists; eexists; split; [reflexivity|exact Hc]]]. rewrite <- app_assoc. cbn [app scan_exponent].
    replace ((c =? 101) || (c =? 69)) with true by (destruct Hc as [-> | ->]; reflexivity). change (43 =? 45) with false. change (43 =? 43) with true. cbv iota.
    rewrite (take_digits_ok ds r Hd (after_no_digit r Hr)). destruct ds; [contradiction|reflexivity].
  - split; [|split; [destruct Hc as [-> | ->]; reflexivity|right; eexists; eexists; split; [reflexivity|exact Hc]]]. rewrite <- app_assoc. cbn [app scan_exponent].
    replace ((c =? 101) || (c =? 69)) with true by (destruct Hc as [-> | ->]; reflexivity). change (45 =? 45) with true. cbv iota.
    rewrite (take_digits_ok ds r Hd (after_no_digit r Hr)). destruct ds; [contradiction|reflexivity].
Qed.
Lemma fraction_ok f x : (forall fs, f = Some fs -> fs <> [] /\ Forall digit fs) -> no_digit x -> (match x with c :: _ => c <> 46 | [] => True end) ->
  scan_fraction (fraction_text f ++ x) = (match f with Some fs => fs | None => [] end, x) /\ no_digit (fraction_text f ++ x).
Proof.
  intros Hf Hx Hp. destruct f as [fs|]; cbn [fraction_text].
  - destruct (Hf fs eq_refl) as [Hn Hd]. split; [|reflexivity]. rewrite <- app_assoc. cbn [app scan_fraction]. change (46 =? 46) with true. cbv iota.
    rewrite (take_digits_ok fs x Hd Hx). destruct fs; [contradiction|reflexivity].
  - split; [|exact Hx]. destruct x as [|c x]; [reflexivity|]. cbn [app scan_fraction]. replace (c =? 46) with false by (symmetry; apply N.eqb_neq; exact Hp). reflexivity.
Qed.
Lemma whole_ok ds x : whole_text ds -> no_digit x ->
  scan_whole (ds ++ x) = Some (ds, x).
Proof.
  intros [-> |(c & r & -> & Hc & Hr)] Hx; [reflexivity|]. unfold scan_whole. cbn [app]. replace (c =? 48) with false by (symmetry; apply N.eqb_neq; lia).
  rewrite (digit_is c ltac:(unfold digit; lia)). change (c :: r ++ x) with ((c :: r) ++ x). rewrite (take_digits_ok (c :: r) x); [reflexivity| |exact Hx].
  constructor; [unfold digit; lia|exact Hr].
Qed.
Lemma whole_start ds : whole_text ds -> exists c r, ds = c :: r /\ 48 <= c <= 57.
Proof. intros [-> |(c & r & -> & Hc & _)]; eexists; eexists; (split; [reflexivity|lia]). Qed.
Lemma minus_ok neg ds x : whole_text ds ->
  scan_minus (minus neg ++ ds ++ x) = (neg, ds ++ x).
Proof.
  intros H. destruct (whole_start ds H) as (c & r & -> & Hc). destruct neg; [reflexivity|]. cbn [minus app]. unfold scan_minus.
  replace (c =? 45) with false by (symmetry; apply N.eqb_neq; lia). reflexivity.
Qed.
Lemma fold_value ds : digits_N ds = value ds.
Proof. reflexivity. Qed.
Lemma scan_number_ok t v r : number_says t v -> after_number r -> scan_number (t ++ r) = Some (v, r).
Proof.
  intros H Hr. destruct H as [neg ds Hw|neg ds f te e Hw Hf He Hn].
  - rewrite <- app_assoc. unfold scan_number. rewrite (minus_ok neg ds r Hw). rewrite (whole_ok ds r Hw (after_no_digit r Hr)).
    destruct (fraction_ok None r ltac:(discriminate) (after_no_digit r Hr) ltac:(destruct r; [trivial|apply Hr])) as [E1 _]. cbn [fraction_text app] in E1. rewrite E1.
    destruct (exponent_ok [] None r et_none Hr) as [E2 _]. cbn [app] in E2. rewrite E2. reflexivity.
  - rewrite <- !app_assoc. unfold scan_number. rewrite (minus_ok neg ds (fraction_text f ++ te ++ r) Hw).
    destruct (exponent_ok te e r He Hr) as (E2 & N2 & S2).
    assert (match te ++ r with c :: _ => c <> 46 | [] => True end) as Hp.
    { destruct S2 as [-> |(c & x & -> & Hc)]; [|cbn [app]; destruct Hc as [-> | ->]; discriminate]. cbn [app]. destruct r; [trivial|apply Hr]. }
    destruct (fraction_ok f (te ++ r) Hf N2 Hp) as [E1 N1]. rewrite (whole_ok ds _ Hw N1), E1, E2. destruct f as [fs|].
    + destruct (Hf fs eq_refl) as [Hne _]. destruct fs as [|c fs]; [contradiction|]. reflexivity.
    + destruct e as [e|]; [reflexivity|]. exfalso. apply Hn. split; reflexivity.
Qed.
Lemma number_start t v : number_says t v -> exists c r, t = c :: r /\ (48 <= c <= 57 \/ c = 45 /\ exists d x, r = d :: x /\ 48 <= d <= 57).
Proof.
  assert (forall neg ds x, whole_text ds -> exists c r, minus neg ++ ds ++ x = c :: r /\ (48 <= c <= 57 \/ c = 45 /\ exists d y, r = d :: y /\ 48 <= d <= 57)) as G.
  { intros neg ds x Hw. destruct (whole_start ds Hw) as (c & r & -> & Hc). destruct neg; cbn [minus app].
    - exists 45, (c :: r ++ x). split; [reflexivity|]. right. split; [reflexivity|]. exists c, (r ++ x). split; [reflexivity|exact Hc].
    - exists c, (r ++ x). split; [reflexivity|]. left. exact Hc. }
  intros [neg ds Hw|neg ds f te e Hw _ _ _]; [|apply G; exact Hw]. specialize (G neg ds [] Hw). rewrite app_nil_r in G. exact G.
Qed.
Lemma no_word t v r : number_says t v -> scan_word (t ++ r) = None.
Proof.
  intros H. destruct (number_start t v H) as (c & t' & -> & [Hc|[-> (d & x & -> & Hd)]]); cbn [app]; unfold scan_word;
    (let W := eval vm_compute in words in change words with W); cbn [find fst].
  - assert (forall a w, a < 48 \/ 57 < a -> startswith (c :: t' ++ r) (a :: w) = false) as G.
    { intros a w Ha. cbn [startswith]. replace (a =? c) with false by (symmetry; apply N.eqb_neq; lia). replace (c =? a) with false by (symmetry; apply N.eqb_neq; lia). reflexivity. }
    rewrite !(G _ _); [reflexivity|..]; lia.
  - assert (forall a w, a <> 45 -> startswith (45 :: d :: x ++ r) (a :: w) = false) as G.
    { intros a w Ha. cbn [startswith]. replace (a =? 45) with false by (symmetry; apply N.eqb_neq; exact Ha). replace (45 =? a) with false by (symmetry; apply N.eqb_neq; lia). reflexivity. }
    assert (forall a w, a < 48 \/ 57 < a -> startswith (45 :: d :: x ++ r) (45 :: a :: w) = false) as G'.
    { intros a w Ha. cbn [startswith]. replace (a =? d) with false by (symmetry; apply N.eqb_neq; lia). replace (d =? a) with false by (symmetry; apply N.eqb_neq; lia). rewrite ?andb_false_r. reflexivity. }
    rewrite !G by discriminate. rewrite G' by lia. reflexivity.
Qed.

(** ** Values *)
Lemma says_nonempty lax t v : says lax t v -> t <> [].
Proof. intros H. destruct H as [| | |t v H|t _ H|t s H|w H|t vs H|w H|t d H]; try discriminate. - destruct (number_start t v H) as (c & r & -> & _). discriminate. - destruct H as [<- |[<- |[<- |[]]]]; discriminate. Qed.
Lemma says_start lax t v : says lax t v -> exists c r, t = c :: r /\ json_ws c = false /\ c <> 93 /\ c <> 125.
Proof.
  intros H. destruct H as [| | |t v H|t _ H|t s H|w H|t vs H|w H|t d H];
    try (eexists; eexists; split; [reflexivity|split; [reflexivity|split; discriminate]]).
  - destruct (number_start t v H) as (c & r & -> & Hc). exists c, r. split; [reflexivity|]. destruct Hc as [Hc|[-> _]]; [|split; [reflexivity|split; discriminate]].
    split; [|split; lia]. unfold json_ws. repeat (apply orb_false_iff; split); apply N.eqb_neq; lia.
  - destruct H as [<- |[<- |[<- |[]]]]; (eexists; eexists; split; [reflexivity|split; [reflexivity|split; discriminate]]).
Qed.
Lemma skip_start lax t v x : says lax t v -> skip_ws (t ++ x) = t ++ x.
Proof. intros H. destruct (says_start lax t v H) as (c & r & -> & Hc & _). cbn [app]. apply skip_stop. exact Hc. Qed.
Lemma after_blank b x c : blanks b -> (c = 44 \/ c = 93 \/ c = 125) -> after_number (b ++ c :: x).
Proof.
  intros Hb Hc. destruct Hb as [|d b Hd _]; cbn [app after_number].
  - destruct Hc as [-> |[-> | ->]]; repeat split; discriminate.
  - destruct Hd as [-> |[-> |[-> | ->]]]; repeat split; discriminate.
Qed.
Lemma after_end b : blanks b -> after_number b.
Proof. intros [|d b' Hd _]; cbn [after_number]; [trivial|]. destruct Hd as [-> |[-> |[-> | ->]]]; repeat split; discriminate. Qed.

Definition value_read (t : str) (v : jval) : Prop :=
  forall n r, (2 * List.length t <= n)%nat -> after_number r -> scan_value n (t ++ r) = Some (v, r).
Definition items_read (t : str) (vs : list jval) : Prop :=
  forall n r, (2 * List.length t + 1 <= n)%nat -> scan_items n (skip_ws (t ++ 93 :: r)) = Some (vs, r).
Definition members_read (t : str) (d : list (str * jval)) : Prop :=
  forall n r, (2 * List.length t + 1 <= n)%nat -> scan_members n (skip_ws (t ++ 125 :: r)) = Some (d, r).
Lemma items_start lax t vs r : items_say lax t vs -> exists c x, skip_ws (t ++ 93 :: r) = c :: x /\ c <> 93.
Proof.
  intros [a t' b v Ha Hv Hb|a t' b v r' vs' Ha Hv Hb _]; destruct (says_start lax t' v Hv) as (c & x & E & Hc & H1 & _); rewrite <- !app_assoc, (skip_blanks a _ Ha), E; cbn [app];
    rewrite (skip_stop c _ Hc); eexists; eexists; (split; [reflexivity|exact H1]).
Qed.
Lemma members_start lax t d r : members_say lax t d -> exists x, skip_ws (t ++ 125 :: r) = 34 :: x.
Proof.
  intros [a k s b c t' v e Ha Hk Hb Hc Hv He|a k s b c t' v e r' d' Ha Hk Hb Hc Hv He _]; rewrite <- !app_assoc, (skip_blanks a _ Ha); cbn [app];
    rewrite (skip_stop 34 _ eq_refl); eexists; reflexivity.
Qed.
Lemma words_read w v r : In (w, v) words -> scan_word (w ++ r) = Some (v, r).
Proof.
  unfold words. cbn [In]. intros H. repeat (destruct H as [H|H]; [injection H as <- <-; destruct r; vm_compute; reflexivity|]). exfalso. exact H.
Qed.
Lemma word_value w v r n : In (w, v) words -> (2 * List.length w <= n)%nat -> scan_value n (w ++ r) = Some (v, r).
Proof.
  intros H Hn. pose proof (words_read w v r H) as E. destruct n as [|n].
  - destruct w; [|cbn [List.length] in Hn; lia]. unfold words in H. cbn [In] in H. repeat (destruct H as [H|H]; [discriminate H|]). destruct H.
  - destruct w as [|c w]; [unfold words in H; cbn [In] in H; repeat (destruct H as [H|H]; [discriminate H|]); destruct H|].
    assert ((c =? 34) = false /\ (c =? 91) = false /\ (c =? 123) = false) as (X & Y & Z).
    { (let W := eval vm_compute in words in change words with W in H). cbn [In] in H. repeat (destruct H as [H|H]; [injection H as <- _ _; repeat split|]). destruct H. }
    cbn [app] in E. cbn [app scan_value]. rewrite X, Y, Z, E. reflexivity.
Qed.
Theorem all_read lax :
  (forall t v, says lax t v -> value_read t v) /\ (forall t vs, items_say lax t vs -> items_read t vs) /\ (forall t d, members_say lax t d -> members_read t d).
Proof.
  apply says_all; unfold value_read, items_read, members_read.
  - intros n r Hn _. apply word_value; [left; reflexivity|exact Hn].
  - intros n r Hn _. apply word_value; [right; left; reflexivity|exact Hn].
  - intros n r Hn _. apply word_value; [right; right; left; reflexivity|exact Hn].
  - intros t v H n r Hn Hr. pose proof (scan_number_ok t v r H Hr) as E. pose proof (no_word t v r H) as F. destruct (number_start t v H) as (c & x & -> & Hc).
    destruct n as [|n]; [cbn [List.length] in Hn; lia|]. cbn [app] in *. cbn [scan_value].
    replace (c =? 34) with false by (symmetry; apply N.eqb_neq; lia). replace (c =? 91) with false by (symmetry; apply N.eqb_neq; lia).
    replace (c =? 123) with false by (symmetry; apply N.eqb_neq; lia). rewrite F. exact E.
  - intros t _ H n r Hn _. apply word_value; [|exact Hn]. destruct H as [<- |[<- |[<- |[]]]]; unfold words; cbn [In]; auto 8.
  - intros t s H n r Hn _. rewrite <- !app_assoc. cbn [app]. destruct n as [|n]; [cbn [List.length app] in Hn; lia|]. cbn [scan_value]. change (34 =? 34) with true. cbv iota.
    rewrite (scan_string_ok t s r H). reflexivity.
  - intros w Hw n r Hn _. rewrite <- !app_assoc. cbn [app]. destruct n as [|n]; [cbn [List.length app] in Hn; lia|]. cbn [scan_value]. change (91 =? 34) with false. change (91 =? 91) with true. cbv iota.
    rewrite (skip_blanks w _ Hw), (skip_stop 93 r eq_refl). reflexivity.
  - intros t vs H IH n r Hn _. rewrite <- !app_assoc. cbn [app]. destruct n as [|n]; [cbn [List.length app] in Hn; lia|]. cbn [scan_value]. change (91 =? 34) with false. change (91 =? 91) with true. cbv iota.
    rewrite !app_length in Hn. cbn [List.length] in Hn. specialize (IH n r ltac:(lia)).
    destruct (items_start lax t vs r H) as (c & x & E & Hc). rewrite E in *. replace (c =? 93) with false by (symmetry; apply N.eqb_neq; exact Hc). rewrite IH. reflexivity.
  - intros w Hw n r Hn _. rewrite <- !app_assoc. cbn [app]. destruct n as [|n]; [cbn [List.length app] in Hn; lia|]. cbn [scan_value]. change (123 =? 34) with false. change (123 =? 91) with false. change (123 =? 123) with true. cbv iota.
    rewrite (skip_blanks w _ Hw), (skip_stop 125 r eq_refl). reflexivity.
  - intros t d H IH n r Hn _. rewrite <- !app_assoc. cbn [app]. destruct n as [|n]; [cbn [List.length app] in Hn; lia|]. cbn [scan_value]. change (123 =? 34) with false. change (123 =? 91) with false. change (123 =? 123) with true. cbv iota.
    rewrite !app_length in Hn. cbn [List.length] in Hn. specialize (IH n r ltac:(lia)).
    destruct (members_start lax t d r H) as (x & E). rewrite E in *. change (34 =? 125) with false. cbv iota. rewrite IH. reflexivity.
  - intros a t b v Ha Hv IH Hb n r Hn. rewrite !app_length in Hn. destruct n as [|n]; [lia|]. rewrite <- !app_assoc, (skip_blanks a _ Ha), (skip_start lax t v _ Hv). cbn [scan_items].
    rewrite (IH n (b ++ 93 :: r)); [|lia|apply after_blank; [exact Hb|auto]]. rewrite (skip_blanks b _ Hb), (skip_stop 93 r eq_refl). reflexivity.
  - intros a t b v r' vs Ha Hv IH Hb Hr IHr n r Hn. rewrite !app_length in Hn. cbn [List.length] in Hn. destruct n as [|n]; [lia|]. rewrite <- !app_assoc, (skip_blanks a _ Ha), (skip_start lax t v _ Hv). cbn [scan_items app].
    assert (0 < List.length t)%nat by (pose proof (says_nonempty lax t v Hv); destruct t; [contradiction|cbn [List.length]; lia]).
    rewrite (IH n (b ++ 44 :: r' ++ 93 :: r)); [|lia|apply after_blank; [exact Hb|auto]]. rewrite (skip_blanks b _ Hb), (skip_stop 44 _ eq_refl).
    change (44 =? 93) with false. change (44 =? 44) with true. cbv iota. rewrite (IHr n r); [reflexivity|lia].
  - intros a k s b c t v e Ha Hk Hb Hc Hv IH He n r Hn. rewrite !app_length in Hn. destruct n as [|n]; [lia|]. rewrite <- !app_assoc, (skip_blanks a _ Ha). cbn [app]. rewrite (skip_stop 34 _ eq_refl). cbn [scan_members].
    change (34 =? 34) with true. cbv iota. rewrite (scan_string_ok k s _ Hk), (skip_blanks b _ Hb). cbn [app]. rewrite (skip_stop 58 _ eq_refl). change (58 =? 58) with true. cbv iota.
    rewrite (skip_blanks c _ Hc), (skip_start lax t v _ Hv). rewrite (IH n (e ++ 125 :: r)); [|cbn [List.length] in Hn; lia|apply after_blank; [exact He|auto]].
    rewrite (skip_blanks e _ He), (skip_stop 125 r eq_refl). reflexivity.
  - intros a k s b c t v e r' d Ha Hk Hb Hc Hv IH He Hr IHr n r Hn. rewrite !app_length in Hn. cbn [List.length] in Hn. destruct n as [|n]; [lia|]. rewrite <- !app_assoc, (skip_blanks a _ Ha). cbn [app]. rewrite (skip_stop 34 _ eq_refl). cbn [scan_members].
    change (34 =? 34) with true. cbv iota. rewrite (scan_string_ok k s _ Hk), (skip_blanks b _ Hb). cbn [app]. rewrite (skip_stop 58 _ eq_refl). change (58 =? 58) with true. cbv iota.
    rewrite (skip_blanks c _ Hc), (skip_start lax t v _ Hv). rewrite (IH n (e ++ 44 :: r' ++ 125 :: r)); [|lia|apply after_blank; [exact He|auto]].
    rewrite (skip_blanks e _ He), (skip_stop 44 _ eq_refl). change (44 =? 125) with false. change (44 =? 44) with true. cbv iota. rewrite (IHr n r); [reflexivity|lia].
Qed.
Theorem document_scanned lax t v : document_says lax t v -> scan_document t = Some v.
Proof.
  intros (a & m & b & -> & Ha & Hv & Hb). unfold scan_document. rewrite (skip_blanks a _ Ha), (skip_start lax m v _ Hv).
  destruct (all_read lax) as [H _]. rewrite (H m v Hv _ b); [|rewrite !app_length; lia|apply after_end; exact Hb]. rewrite (blanks_skip b Hb). reflexivity.
Qed.
Theorem one_meaning lax lax' t v v' : document_says lax t v -> document_says lax' t v' -> v = v'.
Proof. intros H H'. apply document_scanned in H, H'. rewrite H in H'. injection H' as <-. reflexivity. Qed.

(** ** Keys given once *)
Fixpoint jval_ind' (P : jval -> Prop) (H1 : forall v, match v with VArr _ | VObj _ => False | _ => True end -> P v)
  (H2 : forall l, Forall P l -> P (VArr l)) (H3 : forall d, Forall (fun kx => P (snd kx)) d -> P (VObj d)) (v : jval) : P v :=
  match v with
  | VArr l => H2 l ((fix go l : Forall P l := match l with [] => Forall_nil _ | x :: l' => Forall_cons x (jval_ind' P H1 H2 H3 x) (go l') end) l)
  | VObj d => H3 d ((fix go (d : list (str * jval)) : Forall (fun kx => P (snd kx)) d := match d with [] => Forall_nil _ | kx :: d' => Forall_cons kx (jval_ind' P H1 H2 H3 (snd kx)) (go d') end) d)
  | v => H1 v I
  end.
Lemma set_all {A} (d : list (str * A)) : forall a, NoDup (map fst (a ++ d)) -> fold_left (fun a kx => sset (fst kx) (snd kx) a) d a = a ++ d.
Proof.
  induction d as [|[k x] d IH]; intros a H; [rewrite app_nil_r; reflexivity|]. cbn [fold_left fst snd].
  assert (~ In k (map fst a)) as Hk.
  { rewrite map_app in H. cbn [map fst] in H. apply NoDup_remove_2 in H. intros X. apply H. apply in_or_app. left. exact X. }
  rewrite sset_new by (apply sget_None; exact Hk). rewrite IH; rewrite <- app_assoc; [reflexivity|exact H].
Qed.
Lemma keys_kept v : keys_once v -> last_keys v = v.
Proof.
  induction v as [v Hv|l IH|d IH] using jval_ind'; intros H.
  - destruct v; try reflexivity; destruct Hv.
  - cbn [last_keys]. f_equal. inversion H as [l' Hl E| |v Hv]; subst; [|destruct Hv]. clear H. induction IH as [|x l Hx _ IHl]; [reflexivity|].
    apply Forall_cons_iff in Hl as [H1 H2]. cbn [map]. rewrite (Hx H1), (IHl H2). reflexivity.
  - cbn [last_keys]. f_equal. inversion H as [|d' Hn Hd|v Hv]; subst; [|destruct Hv]. clear H.
    assert (map (fun kx => (fst kx, last_keys (snd kx))) d = d) as ->.
    { clear Hn. induction IH as [|[k x] d Hx _ IHd]; [reflexivity|]. apply Forall_cons_iff in Hd as [H1 H2]. cbn [map fst snd] in *. rewrite (Hx H1), (IHd H2). reflexivity. }
    apply (set_all d []). exact Hn.
Qed.
Theorem document_loaded lax t v : document_says lax t v -> keys_once v -> loads t = Some v.
Proof. intros H Hk. unfold loads. rewrite (document_scanned lax t v H). cbn [option_map]. rewrite (keys_kept v Hk). reflexivity. Qed.

(** ** Keys given more than once *)
Definition set_each {A} (d a : list (str * A)) : list (str * A) := fold_left (fun a kx => sset (fst kx) (snd kx) a) d a.
Lemma set_key_In {A} k (x : A) l h : In h (map fst (sset k x l)) <-> h = k \/ In h (map fst l).
Proof.
  rewrite sset_keys_gen. destruct (sget k l) eqn:E; rewrite ?in_app_iff; cbn [In]; [|intuition congruence]. split; [tauto|]. intros [-> |H]; [|exact H].
  apply sget_In in E. apply in_map_iff. eexists. split; [|exact E]. reflexivity.
Qed.
Lemma set_keys {A} (d : list (str * A)) : forall a k, In k (map fst (set_each d a)) <-> In k (map fst a) \/ In k (map fst d).
Proof.
  induction d as [|[k' x] d IH]; intros a k; cbn [set_each fold_left fst snd map In]; [tauto|]. fold (@set_each A). change (fold_left _ d (sset k' x a)) with (set_each d (sset k' x a)).
  rewrite IH, set_key_In. split; intros H; intuition congruence.
Qed.
Lemma set_once {A} (d : list (str * A)) : forall a, NoDup (map fst a) -> NoDup (map fst (set_each d a)).
Proof. induction d as [|[k x] d IH]; intros a H; [exact H|]. apply (IH (sset k x a)). apply sset_NoDup. exact H. Qed.
Lemma set_other {A} (d : list (str * A)) k : ~ In k (map fst d) -> forall a, sget k (set_each d a) = sget k a.
Proof.
  induction d as [|[k' x] d IH]; intros H a; [reflexivity|]. cbn [map fst In] in H. transitivity (sget k (sset k' x a)); [apply (IH ltac:(tauto) (sset k' x a))|].
  apply sget_sset_neq. intros ->. apply H. left. reflexivity.
Qed.
Lemma set_last {A} (d1 : list (str * A)) k x d2 a : ~ In k (map fst d2) -> sget k (set_each (d1 ++ (k, x) :: d2) a) = Some x.
Proof.
  intros H. unfold set_each. rewrite fold_left_app. cbn [fold_left fst snd]. change (fold_left _ d2 ?b) with (set_each d2 b). rewrite (set_other d2 k H). apply sget_sset_eq.
Qed.
Lemma last_counted v : last_counts v (last_keys v).
Proof.
  induction v as [v Hv|l IH|d IH] using jval_ind'.
  - destruct v; try (constructor; exact I); destruct Hv.
  - cbn [last_keys]. constructor. induction IH as [|x l Hx _ IHl]; [constructor|]. cbn [map]. constructor; assumption.
  - cbn [last_keys]. change (fold_left _ ?dd []) with (set_each dd []). constructor.
    + apply set_once. constructor.
    + intros k. rewrite set_keys. rewrite map_map. cbn [fst]. change (map (fun x => fst x) d) with (map fst d). cbn [map In]. tauto.
    + intros a k x b y -> Hk Hy. rewrite map_app in Hy. cbn [map fst snd] in Hy.
      assert (sget k (set_each (map (fun kx => (fst kx, last_keys (snd kx))) a ++ (k, last_keys x) :: map (fun kx => (fst kx, last_keys (snd kx))) b) []) = Some (last_keys x)) as E.
      { apply set_last. rewrite map_map. cbn [fst]. exact Hk. }
      apply In_sget in Hy; [|apply set_once; constructor]. rewrite E in Hy. injection Hy as <-.
      apply Forall_app in IH as [_ IH]. apply Forall_cons_iff in IH as [IH _]. exact IH.
Qed.
