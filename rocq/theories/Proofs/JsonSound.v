(** What json.loads accepts is JSON (or one of the three odd words), and it says
    what was read. *)
From Verif.Base Require Import PyStr PyNum PyVal PyDict.
From Verif.Model Require Import Flatten JsonText.
From Verif.Spec Require Import JsonGrammar.
From Verif.Proofs Require Import JsonScan.
From Coq Require Import Lia.
Local Open Scope N_scope.

(** ** White space *)
Lemma is_ws_json c : json_ws c = true -> c = 32 \/ c = 9 \/ c = 10 \/ c = 13.
Proof. unfold json_ws. rewrite !orb_true_iff, !N.eqb_eq. tauto. Qed.
Lemma skip_split s : exists a, s = a ++ skip_ws s /\ blanks a.
Proof.
  induction s as [|c s (a & E & Ha)]; [exists []; split; [reflexivity|constructor]|]. cbn [skip_ws]. destruct (json_ws c) eqn:Ec.
  - exists (c :: a). split; [cbn [app]; rewrite <- E; reflexivity|]. constructor; [apply is_ws_json; exact Ec|exact Ha].
  - exists []. split; [reflexivity|constructor].
Qed.

(** ** Strings *)
Lemma ascii_is c : ascii_digit c = true -> digit c.
Proof. unfold digit, ascii_digit. intros H. apply andb_true_iff in H as [H1 H2]. apply N.leb_le in H1, H2. lia. Qed.
Lemma is_hex c n : hex_val c = Some n -> hex c n.
Proof.
  unfold hex_val, hex. destruct (ascii_digit c) eqn:E1.
  - intros [= <-]. left. split; [exact (ascii_is c E1)|reflexivity].
  - destruct ((97 <=? c) && (c <=? 102)) eqn:E2.
    + intros [= <-]. right. left. apply andb_true_iff in E2 as [A B]. apply N.leb_le in A, B. lia.
    + destruct ((65 <=? c) && (c <=? 70)) eqn:E3; [|discriminate]. intros [= <-]. right. right. apply andb_true_iff in E3 as [A B]. apply N.leb_le in A, B. lia.
Qed.
Lemma is_unit a b c d n : hex4 a b c d = Some n -> unit_text [92; 117; a; b; c; d] n.
Proof.
  unfold hex4. destruct (hex_val a) as [a'|] eqn:Ea; [|discriminate]. destruct (hex_val b) as [b'|] eqn:Eb; [|discriminate].
  destruct (hex_val c) as [c'|] eqn:Ec; [|discriminate]. destruct (hex_val d) as [d'|] eqn:Ed; [|discriminate].
  intros [= <-]. constructor; apply is_hex; assumption.
Qed.
Lemma unescape_short y n : unescape y = Some n -> In (y, n) short_escapes.
Proof.
  unfold unescape, short_escapes. destruct ((y =? 34) || (y =? 92) || (y =? 47)) eqn:E.
  - intros [= <-]. rewrite !orb_true_iff, !N.eqb_eq in E. destruct E as [[-> | ->]| ->]; cbn; auto.
  - clear E. destruct (N.eqb_spec y 98) as [-> |]; [intros [= <-]; cbn; auto|]. destruct (N.eqb_spec y 102) as [-> |]; [intros [= <-]; cbn; auto 10|].
    destruct (N.eqb_spec y 110) as [-> |]; [intros [= <-]; cbn; auto 10|]. destruct (N.eqb_spec y 114) as [-> |]; [intros [= <-]; cbn; auto 10|].
    destruct (N.eqb_spec y 116) as [-> |]; [intros [= <-]; cbn; auto 10|discriminate].
Qed.
Lemma opt_cons_some c x s r : opt_cons c x = Some (s, r) -> exists s', s = c :: s' /\ x = Some (s', r).
Proof. destruct x as [[s' r']|]; [|discriminate]. intros [= <- <-]. exists s'. split; reflexivity. Qed.
Lemma string_sound n : forall s x r, (List.length s <= n)%nat -> scan_string s = Some (x, r) -> exists t, s = t ++ 34 :: r /\ chars_say t x.
Proof.
  induction n as [|n IH]; intros s x r Hn; (destruct s as [|q s]; [discriminate|]); cbn [List.length] in Hn; [lia|].
  cbn [scan_string]. destruct (N.eqb_spec q 34) as [-> |N1].
  { intros [= <- <-]. exists []. split; [reflexivity|constructor]. }
  destruct (N.eqb_spec q 92) as [-> |N2].
  2:{ destruct (N.ltb_spec q 32) as [L|L]; [discriminate|]. intros H. destruct (opt_cons_some _ _ _ _ H) as (s' & -> & H'). destruct (IH s s' r ltac:(lia) H') as (t & -> & Ht).
      exists (q :: t). split; [reflexivity|]. apply cs_plain; assumption. }
  destruct s as [|y s2]; [discriminate|]. destruct (N.eqb_spec y 117) as [-> |N3].
  2:{ destruct (unescape y) as [m|] eqn:E; [|discriminate]. intros H. destruct (opt_cons_some _ _ _ _ H) as (s' & -> & H').
      cbn [List.length] in Hn. destruct (IH s2 s' r ltac:(lia) H') as (t & -> & Ht). exists ([92; y] ++ t). split; [reflexivity|]. apply cs_short; [apply unescape_short; exact E|exact Ht]. }
  destruct s2 as [|a [|b [|c [|d s3]]]]; try discriminate. destruct (hex4 a b c d) as [m|] eqn:Em; [|discriminate]. pose proof (is_unit _ _ _ _ _ Em) as Hu.
  cbn [List.length] in Hn.
  assert (~ (high m /\ exists l tl t', unit_text tl l /\ low l /\ s3 = tl ++ t') -> opt_cons m (scan_string s3) = Some (x, r) ->
          exists t, 92 :: 117 :: a :: b :: c :: d :: s3 = t ++ 34 :: r /\ chars_say t x) as Hone.
  { intros Hno H. destruct (opt_cons_some _ _ _ _ H) as (s' & -> & H'). destruct (IH s3 s' r ltac:(lia) H') as (t & -> & Ht).
    exists ([92; 117; a; b; c; d] ++ t). split; [reflexivity|]. apply cs_unit; [exact Hu| |exact Ht]. intros (Hh & l & tl & t' & H1 & H2 & ->). apply Hno.
    split; [exact Hh|]. exists l, tl, (t' ++ 34 :: r). split; [exact H1|]. split; [exact H2|]. rewrite <- app_assoc. reflexivity. }
  destruct (high_half m) eqn:Eh.
  2:{ apply Hone. intros (Hh & _). rewrite (high_is m Hh) in Eh. discriminate Eh. }
  assert (forall l tl t', unit_text tl l -> s3 = tl ++ t' -> exists a' b' c' d', s3 = 92 :: 117 :: a' :: b' :: c' :: d' :: t' /\ hex4 a' b' c' d' = Some l) as Hstart.
  { intros l tl t' H1 ->. destruct (unit_is tl l H1) as (a' & b' & c' & d' & -> & E). exists a', b', c', d'. split; [reflexivity|exact E]. }
  destruct s3 as [|z [|z' [|a' [|b' [|c' [|d' s4]]]]]];
    try (apply Hone; intros (_ & l & tl & t' & H1 & _ & H3); destruct (Hstart l tl t' H1 H3) as (? & ? & ? & ? & X & _); discriminate X).
  destruct ((z =? 92) && (z' =? 117)) eqn:Ez.
  2:{ apply Hone. intros (_ & l & tl & t' & H1 & _ & H3). destruct (Hstart l tl t' H1 H3) as (? & ? & ? & ? & X & _). injection X as -> -> _ _ _ _ _. discriminate Ez. }
  apply andb_true_iff in Ez as [E1 E2]. apply N.eqb_eq in E1, E2. subst z z'. destruct (hex4 a' b' c' d') as [m'|] eqn:Em'; [|discriminate].
  destruct (low_half m') eqn:El.
  - intros H. destruct (opt_cons_some _ _ _ _ H) as (s' & -> & H'). cbn [List.length] in Hn. destruct (IH s4 s' r ltac:(lia) H') as (t & -> & Ht).
    exists ([92; 117; a; b; c; d] ++ [92; 117; a'; b'; c'; d'] ++ t). split; [reflexivity|]. unfold halves.
    apply cs_pair; [exact Hu|apply is_unit; exact Em'|apply is_high; exact Eh|apply is_low; exact El|exact Ht].
  - apply Hone. intros (_ & l & tl & t' & H1 & H2 & H3). destruct (Hstart l tl t' H1 H3) as (? & ? & ? & ? & X & E). injection X as -> -> -> -> _.
    rewrite Em' in E. injection E as ->. rewrite (low_is l H2) in El. discriminate El.
Qed.

(** ** Numbers *)
Lemma take_sound s : forall a b, take_digits s = (a, b) -> s = a ++ b /\ Forall digit a.
Proof.
  induction s as [|c s IH]; intros a b; cbn [take_digits]; [intros [= <- <-]; split; [reflexivity|constructor]|].
  destruct (ascii_digit c) eqn:E; [|intros [= <- <-]; split; [reflexivity|constructor]]. destruct (take_digits s) as [a' b']. intros [= <- <-].
  destruct (IH a' b' eq_refl) as [-> H]. split; [reflexivity|]. constructor; [apply ascii_is; exact E|exact H].
Qed.
Lemma fraction_sound s fs r : scan_fraction s = (fs, r) ->
  exists f, s = fraction_text f ++ r /\ fs = match f with Some x => x | None => [] end /\ (forall x, f = Some x -> x <> [] /\ Forall digit x) /\ (fs = [] -> f = None).
Proof.
  assert (forall x, exists f : option str, x = fraction_text f ++ x /\ [] = match f with Some x => x | None => [] end /\ (forall x, f = Some x -> x <> [] /\ Forall digit x) /\ (@nil N = [] -> f = None)) as Hno.
  { intros x. exists None. split; [reflexivity|]. split; [reflexivity|]. split; [discriminate|reflexivity]. }
  destruct s as [|c s]; cbn [scan_fraction]; [intros [= <- <-]; apply Hno|]. destruct (N.eqb_spec c 46) as [-> |]; [|intros [= <- <-]; apply Hno].
  destruct (take_digits s) as [ds rest] eqn:E. destruct ds as [|d ds]; [intros [= <- <-]; apply Hno|]. intros [= <- <-]. destruct (take_sound s _ _ E) as [-> H].
  exists (Some (d :: ds)). split; [reflexivity|]. split; [reflexivity|]. split; [|discriminate]. intros x [= <-]. split; [discriminate|exact H].
Qed.
Lemma exponent_sound s e r : scan_exponent s = (e, r) -> exists te, s = te ++ r /\ exponent_text te e.
Proof.
  assert (forall x, exists te, x = te ++ x /\ exponent_text te None) as Hno by (intros x; exists []; split; [reflexivity|constructor]).
  destruct s as [|c s]; cbn [scan_exponent]; [intros [= <- <-]; apply Hno|]. destruct ((c =? 101) || (c =? 69)) eqn:Ec; [|intros [= <- <-]; apply Hno].
  rewrite orb_true_iff, !N.eqb_eq in Ec.
  assert (forall (neg : bool) x mid, (forall ds rest, x = ds ++ rest -> ds <> [] -> Forall digit ds -> exists te, c :: s = te ++ rest /\ exponent_text te (Some (if neg then (- Z.of_N (digits_N ds))%Z else Z.of_N (digits_N ds)))) -> mid = x ->
    (match take_digits mid with ([], _) => (None, c :: s) | (ds, rest) => (Some (if neg then (- Z.of_N (digits_N ds))%Z else Z.of_N (digits_N ds)), rest) end) = (e, r) ->
    exists te, c :: s = te ++ r /\ exponent_text te e) as Hgo.
  { intros neg x mid Hx ->. destruct (take_digits x) as [ds rest] eqn:E. destruct (take_sound x _ _ E) as [E' H]. destruct ds as [|d ds]; [intros [= <- <-]; apply Hno|].
    intros [= <- <-]. apply Hx; [exact E'|discriminate|exact H]. }
  destruct s as [|y s].
  - apply (Hgo false []); [|reflexivity]. intros ds rest X Hd _. destruct ds; [contradiction|discriminate X].
  - destruct (N.eqb_spec y 45) as [-> |].
    + apply (Hgo true s); [|reflexivity]. intros ds rest -> Hd H. exists ([c; 45] ++ ds). split; [reflexivity|]. apply et_minus; assumption.
    + destruct (N.eqb_spec y 43) as [-> |].
      * apply (Hgo false s); [|reflexivity]. intros ds rest -> Hd H. exists ([c; 43] ++ ds). split; [reflexivity|]. apply et_plus; assumption.
      * apply (Hgo false (y :: s)); [|reflexivity]. intros ds rest -> Hd H. exists ([c] ++ ds). split; [reflexivity|]. apply et_plain; assumption.
Qed.
Lemma whole_sound s ds r : scan_whole s = Some (ds, r) -> s = ds ++ r /\ whole_text ds.
Proof.
  unfold scan_whole. destruct s as [|c s]; [discriminate|]. destruct (N.eqb_spec c 48) as [-> |N1]; [intros [= <- <-]; split; [reflexivity|left; reflexivity]|].
  destruct (ascii_digit c) eqn:E; [|discriminate]. cbn [take_digits]. rewrite E. destruct (take_digits s) as [a b] eqn:Et. intros [= <- <-]. destruct (take_sound s _ _ Et) as [-> H].
  split; [reflexivity|]. right. exists c, a. split; [reflexivity|]. split; [|exact H]. pose proof (ascii_is c E) as X. unfold digit in X. lia.
Qed.
Lemma minus_sound s neg r : scan_minus s = (neg, r) -> s = minus neg ++ r.
Proof. unfold scan_minus. destruct s as [|c s]; [intros [= <- <-]; reflexivity|]. destruct (N.eqb_spec c 45) as [-> |]; intros [= <- <-]; reflexivity. Qed.
Lemma number_sound s v r : scan_number s = Some (v, r) -> exists t, s = t ++ r /\ number_says t v.
Proof.
  unfold scan_number. destruct (scan_minus s) as [neg s1] eqn:E1. apply minus_sound in E1. subst s. destruct (scan_whole s1) as [[ds s2]|] eqn:E2; [|discriminate].
  apply whole_sound in E2 as [-> Hw]. destruct (scan_fraction s2) as [fs s3] eqn:E3. destruct (fraction_sound _ _ _ E3) as (f & -> & Ef & Hf & Hn).
  destruct (scan_exponent s3) as [e s4] eqn:E4. destruct (exponent_sound _ _ _ E4) as (te & -> & He).
  assert (forall vv, (VReal neg (digits_N (ds ++ fs)) (match e with Some x => x | None => 0 end - Z.of_nat (List.length fs))%Z) = vv -> ~ (f = None /\ e = None) ->
    exists t, minus neg ++ ds ++ fraction_text f ++ te ++ s4 = t ++ s4 /\ number_says t vv) as Hreal.
  { intros vv <- Hne. exists (minus neg ++ ds ++ fraction_text f ++ te). split; [rewrite <- !app_assoc; reflexivity|]. subst fs. apply ns_real; assumption. }
  destruct fs as [|d fs].
  - destruct e as [e|].
    + intros [= <- <-]. apply Hreal; [reflexivity|]. intros [_ X]. discriminate X.
    + intros [= <- <-]. rewrite (Hn eq_refl) in *. assert (te = []) as -> by (inversion He; reflexivity). cbn [fraction_text app].
      exists (minus neg ++ ds). split; [rewrite <- app_assoc; reflexivity|]. apply ns_int. exact Hw.
  - intros H. assert (Some (VReal neg (digits_N (ds ++ d :: fs)) (match e with Some x => x | None => 0 end - Z.of_nat (List.length (d :: fs)))%Z, s4) = Some (v, r)) as H' by (destruct e; exact H).
    injection H' as <- <-. apply Hreal; [reflexivity|]. intros [X _]. subst f. discriminate Ef.
Qed.

(** ** Values *)
Lemma word_sound s v r : scan_word s = Some (v, r) -> exists w, s = w ++ r /\ In (w, v) words.
Proof.
  unfold scan_word. destruct (find (fun wv => startswith s (fst wv)) words) as [[w v']|] eqn:E; [|discriminate]. intros [= <- <-].
  apply find_some in E as [Hin Hs]. cbn [fst] in Hs. exists w. split; [|exact Hin]. apply startswith_spec in Hs as [x ->].
  rewrite skipn_app, Nat.sub_diag, skipn_all. reflexivity.
Qed.
Lemma word_says w v : In (w, v) words -> says true w v.
Proof.
  intros H. unfold words in H. cbn [In] in H.
  destruct H as [[= <- <-]|[[= <- <-]|[[= <- <-]|[[= <- <-]|[[= <- <-]|[[= <- <-]|[]]]]]]];
    [constructor|constructor|constructor|apply js_odd; [reflexivity|]..]; cbn [In]; auto.
Qed.
Definition value_sound n := forall s v r, scan_value n s = Some (v, r) -> exists t, s = t ++ r /\ says true t v.
Definition members_sound n := forall s d r, scan_members n s = Some (d, r) -> exists t, s = t ++ 125 :: r /\ members_say true t d.
Lemma blanks_before_items a t vs : blanks a -> items_say true t vs -> items_say true (a ++ t) vs.
Proof.
  intros Ha H. assert (forall b, blanks b -> blanks (a ++ b)) as Hb by (intros b Hb; apply Forall_app; split; assumption).
  destruct H as [b t c v H1 H2 H3|b t c v r vs H1 H2 H3 H4].
  - replace (a ++ b ++ t ++ c) with ((a ++ b) ++ t ++ c) by (rewrite <- !app_assoc; reflexivity). apply is_one; auto.
  - replace (a ++ b ++ t ++ c ++ [44] ++ r) with ((a ++ b) ++ t ++ c ++ [44] ++ r) by (rewrite <- !app_assoc; reflexivity). apply is_more; auto.
Qed.
Lemma blanks_before_members a t d : blanks a -> members_say true t d -> members_say true (a ++ t) d.
Proof.
  intros Ha H. assert (forall b, blanks b -> blanks (a ++ b)) as Hb by (intros b Hb; apply Forall_app; split; assumption).
  destruct H as [b k s b' c t v e H1 H2 H3 H4 H5 H6|b k s b' c t v e r d H1 H2 H3 H4 H5 H6 H7]; rewrite app_assoc.
  - apply ms_one; auto.
  - apply ms_more; auto.
Qed.
Lemma all_sound n : value_sound n /\ (forall s vs r, scan_items n s = Some (vs, r) -> exists t, s = t ++ 93 :: r /\ items_say true t vs) /\ members_sound n.
Proof.
  induction n as [|n (IHv & IHi & IHm)]; [split; [|split]; (intros s v r H; discriminate H)|]. split; [|split].
  - intros s v r H. destruct s as [|c s]; [discriminate H|]. cbn [scan_value] in H. destruct (N.eqb_spec c 34) as [-> |N1].
    { destruct (scan_string s) as [[x r']|] eqn:E; [|discriminate H]. injection H as <- <-. destruct (string_sound _ s x r' (Nat.le_refl _) E) as (t & -> & Ht).
      exists ([34] ++ t ++ [34]). split; [rewrite <- !app_assoc; reflexivity|]. apply js_string. exact Ht. }
    destruct (N.eqb_spec c 91) as [-> |N2].
    { destruct (skip_split s) as (a & E & Ha). destruct (skip_ws s) as [|c' r'] eqn:Es; [discriminate H|]. destruct (N.eqb_spec c' 93) as [-> |N3].
      - injection H as <- <-. exists ([91] ++ a ++ [93]). split; [rewrite E, <- !app_assoc; reflexivity|]. apply js_no_items. exact Ha.
      - destruct (scan_items n (c' :: r')) as [[l x]|] eqn:Ei; [|discriminate H]. injection H as <- <-. destruct (IHi _ _ _ Ei) as (t & Et & Ht).
        exists ([91] ++ (a ++ t) ++ [93]). split; [rewrite E, Et, <- !app_assoc; reflexivity|]. apply js_array. apply blanks_before_items; assumption. }
    destruct (N.eqb_spec c 123) as [-> |N3].
    { destruct (skip_split s) as (a & E & Ha). destruct (skip_ws s) as [|c' r'] eqn:Es; [discriminate H|]. destruct (N.eqb_spec c' 125) as [-> |N3'].
      - injection H as <- <-. exists ([123] ++ a ++ [125]). split; [rewrite E, <- !app_assoc; reflexivity|]. apply js_no_members. exact Ha.
      - destruct (scan_members n (c' :: r')) as [[l x]|] eqn:Ei; [|discriminate H]. injection H as <- <-. destruct (IHm _ _ _ Ei) as (t & Et & Ht).
        exists ([123] ++ (a ++ t) ++ [125]). split; [rewrite E, Et, <- !app_assoc; reflexivity|]. apply js_object. apply blanks_before_members; assumption. }
    destruct (scan_word (c :: s)) as [[v' r']|] eqn:Ew.
    + injection H as <- <-. destruct (word_sound _ _ _ Ew) as (w & -> & Hin). exists w. split; [reflexivity|]. apply word_says. exact Hin.
    + destruct (number_sound _ _ _ H) as (t & -> & Ht). exists t. split; [reflexivity|]. apply js_number. exact Ht.
  - intros s vs r H. cbn [scan_items] in H. destruct (scan_value n s) as [[v r1]|] eqn:Ev; [|discriminate H]. destruct (IHv _ _ _ Ev) as (t & -> & Ht).
    destruct (skip_split r1) as (a & E & Ha). destruct (skip_ws r1) as [|c r2] eqn:Es; [discriminate H|]. destruct (N.eqb_spec c 93) as [-> |N1].
    { injection H as <- <-. exists ([] ++ t ++ a). split; [rewrite E, <- !app_assoc; reflexivity|]. apply is_one; [constructor|exact Ht|exact Ha]. }
    destruct (N.eqb_spec c 44) as [-> |N2]; [|discriminate H]. destruct (scan_items n (skip_ws r2)) as [[l x]|] eqn:Ei; [|discriminate H]. injection H as <- <-.
    destruct (IHi _ _ _ Ei) as (t2 & Et & Ht2). destruct (skip_split r2) as (b & Eb & Hb).
    exists ([] ++ t ++ a ++ [44] ++ (b ++ t2)). split; [rewrite E, Eb, Et, <- !app_assoc; reflexivity|].
    apply is_more; [constructor|exact Ht|exact Ha|]. apply blanks_before_items; assumption.
  - intros s d r H. destruct s as [|q s]; [discriminate H|]. cbn [scan_members] in H. destruct (N.eqb_spec q 34) as [-> |]; [|discriminate H].
    destruct (scan_string s) as [[k s2]|] eqn:Ek; [|discriminate H]. destruct (string_sound _ s k s2 (Nat.le_refl _) Ek) as (tk & -> & Hk).
    destruct (skip_split s2) as (b & Eb & Hb). destruct (skip_ws s2) as [|c s3] eqn:Es2; [discriminate H|]. destruct (N.eqb_spec c 58) as [-> |]; [|discriminate H].
    destruct (skip_split s3) as (c & Ec & Hc). destruct (scan_value n (skip_ws s3)) as [[v r1]|] eqn:Ev; [|discriminate H]. destruct (IHv _ _ _ Ev) as (t & Et & Ht).
    destruct (skip_split r1) as (e & Ee & He). destruct (skip_ws r1) as [|c' r2] eqn:Es; [discriminate H|]. destruct (N.eqb_spec c' 125) as [-> |].
    { injection H as <- <-. exists ([] ++ [34] ++ tk ++ [34] ++ b ++ [58] ++ c ++ t ++ e). split; [rewrite Eb, Ec, Et, Ee; repeat (rewrite <- ?app_assoc; cbn [app]); reflexivity|].
      apply ms_one; try assumption. constructor. }
    destruct (N.eqb_spec c' 44) as [-> |]; [|discriminate H]. destruct (scan_members n (skip_ws r2)) as [[l x]|] eqn:Em; [|discriminate H]. injection H as <- <-.
    destruct (IHm _ _ _ Em) as (t2 & Et2 & Ht2). destruct (skip_split r2) as (b2 & Eb2 & Hb2).
    exists ([] ++ [34] ++ tk ++ [34] ++ b ++ [58] ++ c ++ t ++ e ++ [44] ++ (b2 ++ t2)).
    split; [rewrite Eb, Ec, Et, Ee, Eb2, Et2; repeat (rewrite <- ?app_assoc; cbn [app]); reflexivity|].
    apply ms_more; try assumption; [constructor|]. apply blanks_before_members; assumption.
Qed.
Theorem scanned_document t v : scan_document t = Some v -> document_says true t v.
Proof.
  unfold scan_document. destruct (skip_split t) as (a & E & Ha). destruct (scan_value (2 * List.length t + 2) (skip_ws t)) as [[v' r]|] eqn:Ev; [|discriminate].
  destruct (skip_split r) as (b & Eb & Hb). destruct (skip_ws r) as [|c r'] eqn:Er; [|discriminate]. intros [= <-]. rewrite app_nil_r in Eb. subst r.
  destruct (proj1 (all_sound _) _ _ _ Ev) as (m & Em & Hm). exists a, m, b. split; [rewrite <- Em; exact E|]. split; [exact Ha|]. split; [exact Hm|exact Hb].
Qed.
(** ** With and without the odd words *)
Lemma strict_lax : (forall t v, says false t v -> says true t v) /\ (forall t vs, items_say false t vs -> items_say true t vs) /\
  (forall t d, members_say false t d -> members_say true t d).
Proof. apply says_all; intros; try discriminate; econstructor; eassumption. Qed.
Lemma document_lax lax t v : document_says lax t v -> document_says true t v.
Proof. destruct lax; [trivial|]. intros (a & m & b & E & H1 & H2 & H3). exists a, m, b. split; [exact E|]. split; [exact H1|]. split; [apply strict_lax; exact H2|exact H3]. Qed.
Lemma lax_strict : (forall t v, says true t v -> ~ has_odd v -> says false t v) /\ (forall t vs, items_say true t vs -> (forall v, In v vs -> ~ has_odd v) -> items_say false t vs) /\
  (forall t d, members_say true t d -> (forall k v, In (k, v) d -> ~ has_odd v) -> members_say false t d).
Proof.
  apply says_all.
  - constructor.
  - constructor.
  - constructor.
  - intros t v H _. apply js_number. exact H.
  - intros t _ _ Ho. exfalso. apply Ho. constructor.
  - intros t s H _. apply js_string. exact H.
  - intros w H _. apply js_no_items. exact H.
  - intros t vs _ IH Ho. apply js_array. apply IH. intros v Hv X. apply Ho. exact (ho_array v vs Hv X).
  - intros w H _. apply js_no_members. exact H.
  - intros t d _ IH Ho. apply js_object. apply IH. intros k v Hv X. apply Ho. exact (ho_object k v d Hv X).
  - intros a t b v Ha _ IH Hb Ho. apply is_one; [exact Ha| |exact Hb]. apply IH. apply Ho. left. reflexivity.
  - intros a t b v r vs Ha _ IH Hb _ IHr Ho. apply is_more; [exact Ha| |exact Hb|]; [apply IH; apply Ho; left; reflexivity|]. apply IHr. intros x Hx. apply Ho. right. exact Hx.
  - intros a k s b c t v e Ha Hk Hb Hc _ IH He Ho. apply ms_one; try assumption. apply IH. apply (Ho s). left. reflexivity.
  - intros a k s b c t v e r d Ha Hk Hb Hc _ IH He _ IHr Ho. apply ms_more; try assumption; [apply IH; apply (Ho s); left; reflexivity|]. apply IHr. intros k' x Hx. apply (Ho k'). right. exact Hx.
Qed.
Lemma document_strict t v : document_says true t v -> ~ has_odd v -> document_says false t v.
Proof. intros (a & m & b & E & H1 & H2 & H3) Ho. exists a, m, b. split; [exact E|]. split; [exact H1|]. split; [apply lax_strict; assumption|exact H3]. Qed.
Theorem any_loaded lax t v : document_says lax t v -> exists w, loads t = Some w /\ last_counts v w.
Proof. intros H. exists (last_keys v). unfold loads. rewrite (document_scanned lax t v H). split; [reflexivity|apply last_counted]. Qed.
Theorem only_json t w : loads t = Some w -> exists v, document_says true t v /\ last_counts v w.
Proof.
  unfold loads. destruct (scan_document t) as [v|] eqn:E; [|discriminate]. cbn [option_map]. intros [= <-]. exists v. split; [apply scanned_document; exact E|apply last_counted].
Qed.
(** a decision *)
Fixpoint odd_b (v : jval) : bool :=
  match v with
  | VOdd _ => true
  | VArr l => existsb odd_b l
  | VObj d => existsb (fun kx => odd_b (snd kx)) d
  | _ => false
  end.
Lemma odd_check v : odd_b v = false -> ~ has_odd v.
Proof.
  induction v as [v Hv|l IH|d IH] using jval_ind'; intros E Ho.
  - destruct Ho as [s|x l _ _|k x d _ _]; [discriminate E|exact Hv|exact Hv].
  - inversion Ho as [|x l' Hin Hx|]; subst. cbn [odd_b] in E. apply (proj1 (Forall_forall _ _) IH x Hin); [|exact Hx]. destruct (odd_b x) eqn:Ex; [|reflexivity].
    rewrite <- E. symmetry. apply existsb_exists. exists x. split; assumption.
  - inversion Ho as [| |k x d' Hin Hx]; subst. cbn [odd_b] in E. apply (proj1 (Forall_forall _ _) IH (k, x) Hin); [|exact Hx]. destruct (odd_b x) eqn:Ex; [|cbn [snd]; exact Ex].
    cbn [snd]. rewrite Ex, <- E. symmetry. apply existsb_exists. exists (k, x). split; assumption.
Qed.
Lemma read_check t v : scan_document t = Some v -> odd_b v = false -> document_says false t v.
Proof. intros H Ho. apply document_strict; [apply scanned_document; exact H|apply odd_check; exact Ho]. Qed.
