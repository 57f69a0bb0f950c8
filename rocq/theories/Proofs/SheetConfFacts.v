(** parse_sheet_configuration means what Spec/SheetConf.v says. *)
From Verif.Base Require Import PyStr PyNum PyVal Outcome.
From Verif.Model Require Import Warn Lib.
From Verif.Spec Require Import SheetConf.

Lemma split_ws_aux_words s : forall cur, (forall c, In c cur -> is_ws c = false) ->
  (cur = [] -> words s (split_ws_aux [] s)) /\
  (cur <> [] -> exists w rest ws, s = w ++ rest /\ split_ws_aux cur s = (rev cur ++ w) :: ws /\
      (forall c, In c w -> is_ws c = false) /\ ends_word rest /\ words rest ws).
Proof.
  induction s as [|c s IH]; intros cur Hcur.
  - split.
    + intros _. constructor. intros c [].
    + intros Hne. exists [], [], []. destruct cur as [|x cur]; [congruence|]. simpl. rewrite app_nil_r.
      repeat split; try (intros ? []); constructor. intros ? [].
  - simpl. destruct (is_ws c) eqn:W.
    + split.
      * intros ->. destruct (IH [] (fun c H => match H with end)) as [I1 _]. specialize (I1 eq_refl).
        inversion I1 as [sp Hsp E1 E2|sp w rest ws Hsp Hw Hr Hws E1 E2].
        -- constructor. intros x [<-|Hx]; auto.
        -- apply (words_next (c :: sp)); auto. intros x [<-|Hx]; auto.
      * intros Hne. destruct cur as [|x cur]; [congruence|]. exists [], (c :: s), (split_ws_aux [] s).
        rewrite app_nil_r. repeat split; try (intros ? []); [exact W|].
        destruct (IH [] (fun c H => match H with end)) as [I1 _]. specialize (I1 eq_refl).
        inversion I1 as [sp Hsp E1 E2|sp w rest ws Hsp Hw Hr Hws E1 E2].
        -- constructor. intros y [<-|Hy]; auto.
        -- apply (words_next (c :: sp)); auto. intros y [<-|Hy]; auto.
    + assert (Hc : forall x, In x (c :: cur) -> is_ws x = false) by (intros x [<-|Hx]; auto).
      destruct (IH (c :: cur) Hc) as [_ I2]. destruct I2 as (w & rest & ws & -> & E & Hw & Hr & Hws); [congruence|].
      split.
      * intros ->. rewrite E. simpl. apply (words_next [] (c :: w)); auto.
        -- intros ? [].
        -- split; [congruence|]. intros x [<-|Hx]; auto.
      * intros _. exists (c :: w), rest, ws. rewrite E. simpl. rewrite <- app_assoc. repeat split; auto. intros x [<-|Hx]; auto.
Qed.
Lemma split_ws_words s : words s (split_ws s).
Proof. destruct (split_ws_aux_words s [] (fun c H => match H with end)) as [H _]. exact (H eq_refl). Qed.

Lemma span_unique {A} (p : A -> Prop) (np : A -> Prop) : (forall x, p x -> np x -> False) ->
  forall a b r1 r2, (forall x, In x a -> p x) -> (forall x, In x b -> p x) ->
    (match r1 with [] => True | c :: _ => np c end) -> (match r2 with [] => True | c :: _ => np c end) ->
    a ++ r1 = b ++ r2 -> a = b /\ r1 = r2.
Proof.
  intros Hd. induction a as [|x a IH]; intros b r1 r2 Ha Hb H1 H2 E; destruct b as [|y b]; simpl in E.
  - auto.
  - subst r1. exfalso. apply (Hd y); [apply Hb; left; reflexivity|exact H1].
  - subst r2. exfalso. apply (Hd x); [apply Ha; left; reflexivity|exact H2].
  - injection E as -> E. destruct (IH b r1 r2) as [-> ->]; auto; intros z Hz; [apply Ha|apply Hb]; right; exact Hz.
Qed.
Lemma words_inv s vs : words s vs -> (all_space s /\ vs = []) \/
  exists sp w rest ws, s = sp ++ w ++ rest /\ vs = w :: ws /\ all_space sp /\ a_word w /\ ends_word rest /\ words rest ws.
Proof. intros H. destruct H as [sp H|sp w rest ws A B C D]; [left; auto|right; exists sp, w, rest, ws; repeat split; try assumption; exact (proj1 B) || exact (proj2 B)]. Qed.
Lemma words_unique s ws : words s ws -> forall vs, words s vs -> ws = vs.
Proof.
  assert (Hd1 : forall x, is_ws x = true -> is_ws x = false -> False) by congruence.
  assert (Hd2 : forall x, is_ws x = false -> is_ws x = true -> False) by congruence.
  induction 1 as [sp Hsp|sp w rest ws Hsp Hw Hr Hws IH]; intros vs Hv.
  - destruct (words_inv _ _ Hv) as [[H1 ->]|(sp' & w' & rest' & ws' & E1 & -> & H1 & [H2 H2'] & H3 & H4)]; [reflexivity|].
    exfalso. destruct w' as [|c w']; [congruence|].
    assert (is_ws c = true) by (apply Hsp; rewrite E1; apply in_or_app; right; left; reflexivity).
    rewrite (H2' c) in H; [discriminate|left; reflexivity].
  - destruct (words_inv _ _ Hv) as [[H1 ->]|(sp' & w' & rest' & ws' & E1 & -> & H1 & H2 & H3 & H4)].
    + exfalso. destruct Hw as [Hne Hw]. destruct w as [|c w]; [congruence|].
      assert (is_ws c = true) by (apply H1; apply in_or_app; right; left; reflexivity).
      rewrite (Hw c) in H; [discriminate|left; reflexivity].
    + destruct Hw as [Hne Hw], H2 as [Hne' Hw'].
      destruct (span_unique _ _ Hd1 sp' sp (w' ++ rest') (w ++ rest)) as [-> E]; auto.
      { destruct w'; [congruence|]. simpl. apply Hw'. left; reflexivity. }
      { destruct w; [congruence|]. simpl. apply Hw. left; reflexivity. }
      destruct (span_unique _ _ Hd2 w' w rest' rest) as [-> ->]; auto. rewrite (IH ws' H4). reflexivity.
Qed.
Lemma words_iff s ws : words s ws <-> split_ws s = ws.
Proof. split; [intros H; exact (words_unique _ _ (split_ws_words s) _ H)|intros <-; apply split_ws_words]. Qed.
Lemma command_iff i n v : command i n v <-> exists k, split_ws i = [k; v] /\ lower k = n.
Proof. unfold command. setoid_rewrite words_iff. reflexivity. Qed.
Lemma flag_iff i n : flag i n <-> exists k, split_ws i = [k] /\ lower k = n.
Proof. unfold flag. setoid_rewrite words_iff. reflexivity. Qed.

Lemma last_of_snoc_hit {A} (P : str -> A -> Prop) l i a : P i a -> last_of P (l ++ [i]) (Some a).
Proof. intros H. apply (last_some P _ l i [] a); auto. Qed.
Lemma last_of_snoc_miss {A} (P : str -> A -> Prop) l i o : (forall a, ~ P i a) -> last_of P l o -> last_of P (l ++ [i]) o.
Proof.
  intros Hi H. destruct H as [H|l1 j l2 a -> Hj Hl].
  - apply last_none. intros j a Hj. apply in_app_or in Hj as [Hj|[<-|[]]]; auto.
  - apply (last_some P _ l1 j (l2 ++ [i]) a); [rewrite <- app_assoc; reflexivity|exact Hj|].
    intros j' b Hj'. apply in_app_or in Hj' as [Hj'|[<-|[]]]; auto.
Qed.
Lemma exists_snoc (P : str -> Prop) l i : (exists j, In j (l ++ [i]) /\ P j) <-> (exists j, In j l /\ P j) \/ P i.
Proof.
  split.
  - intros (j & Hj & HP). apply in_app_or in Hj as [Hj|[<-|[]]]; eauto.
  - intros [(j & Hj & HP)|H]; [exists j|exists i]; (split; [apply in_or_app; simpl; auto|auto]).
Qed.

Lemma conf_item_means l c i : conf_means l c -> conf_means (l ++ [i]) (conf_item c i).
Proof.
  intros [H1 H2 H3 H4 H5 H6 H7].
  assert (Hcmd : forall n v, command i n v -> exists k, split_ws i = [k; v] /\ lower k = n) by (intros n v; apply command_iff).
  assert (Hflag : forall n, flag i n -> exists k, split_ws i = [k] /\ lower k = n) by (intros n; apply flag_iff).
  assert (Hcmd' : forall k v, split_ws i = [k; v] -> command i (lower k) v) by (intros k v E; apply command_iff; eauto).
  assert (Hflag' : forall k, split_ws i = [k] -> flag i (lower k)) by (intros k E; apply flag_iff; eauto).
  (* nothing said: everything stays *)
  assert (Hstay : (forall n v, command i n v -> n <> u "skiprows" /\ n <> u "headerrows" /\ n <> u "xmlroottag" /\ n <> u "rootlistpath" /\ n <> u "idname") ->
     (forall n, flag i n -> n <> u "ignore" /\ n <> u "hashcomments" /\ n <> u "hashcomment") -> conf_means (l ++ [i]) c).
  { intros Hc Hf. split.
    - apply last_of_snoc_miss; [|exact H1]. intros a (v & n & Hx & _). apply Hc in Hx. tauto.
    - apply last_of_snoc_miss; [|exact H2]. intros a (v & n & Hx & _). apply Hc in Hx. tauto.
    - apply last_of_snoc_miss; [|exact H3]. intros a Hx. apply Hc in Hx. tauto.
    - apply last_of_snoc_miss; [|exact H4]. intros a Hx. apply Hc in Hx. tauto.
    - apply last_of_snoc_miss; [|exact H5]. intros a Hx. apply Hc in Hx. tauto.
    - rewrite exists_snoc, H6. split; [auto|]. intros [H|H]; [exact H|]. apply Hf in H. tauto.
    - rewrite exists_snoc, H7. split; [auto|]. intros [H|[H|H]]; [exact H| |]; apply Hf in H; tauto. }
  unfold conf_item. destruct (split_ws i) as [|k [|v [|x t]]] eqn:E.
  - apply Hstay; [intros n v H; apply Hcmd in H as (? & ? & ?); discriminate|intros n H; apply Hflag in H as (? & ? & ?); discriminate].
  - (* one word *)
    assert (Hnc : forall n v, ~ command i n v) by (intros n v H; apply Hcmd in H as (? & ? & ?); discriminate).
    assert (Hfl : forall n, flag i n <-> n = lower k).
    { intros n. split; [intros H; apply Hflag in H as (k' & [= <-] & <-); reflexivity|intros ->; apply Hflag'; reflexivity]. }
    assert (Hother : forall c', sc_skip c' = sc_skip c -> sc_header c' = sc_header c -> sc_xmlroot c' = sc_xmlroot c -> sc_rootlist c' = sc_rootlist c -> sc_idname c' = sc_idname c ->
       (sc_ignore c' = true <-> sc_ignore c = true \/ lower k = u "ignore") ->
       (sc_hash c' = true <-> sc_hash c = true \/ (lower k = u "hashcomments" \/ lower k = u "hashcomment")) -> conf_means (l ++ [i]) c').
    { intros c' E1 E2 E3 E4 E5 E6 E7. split.
      - rewrite E1. apply last_of_snoc_miss; [|exact H1]. intros a (v & n & Hx & _). eapply Hnc; exact Hx.
      - rewrite E2. apply last_of_snoc_miss; [|exact H2]. intros a (v & n & Hx & _). eapply Hnc; exact Hx.
      - rewrite E3. apply last_of_snoc_miss; [|exact H3]. intros a Hx. eapply Hnc; exact Hx.
      - rewrite E4. apply last_of_snoc_miss; [|exact H4]. intros a Hx. eapply Hnc; exact Hx.
      - rewrite E5. apply last_of_snoc_miss; [|exact H5]. intros a Hx. eapply Hnc; exact Hx.
      - rewrite exists_snoc, E6, H6, Hfl. split; (intros [?|?]; auto).
      - rewrite exists_snoc, E7, H7, !Hfl. split; (intros [?|[?|?]]; auto). }
    destruct (str_eqb_spec (lower k) (u "ignore")) as [Ek|Nk].
    { apply Hother; try reflexivity; simpl; [tauto|]. split; [auto|]. intros [H|[H|H]]; [exact H| |]; rewrite Ek in H; discriminate H. }
    destruct (str_eqb_spec (lower k) (u "hashcomments")) as [Ek|Nk1]; [|destruct (str_eqb_spec (lower k) (u "hashcomment")) as [Ek|Nk2]]; cbn [orb];
      apply Hother; try reflexivity; simpl; tauto.
  - (* two words *)
    assert (Hnf : forall n, ~ flag i n) by (intros n H; apply Hflag in H as (? & ? & ?); discriminate).
    assert (Hcm : forall n w, command i n w <-> n = lower k /\ w = v).
    { intros n w. split; [intros H; apply Hcmd in H as (k' & [= <- <-] & <-); auto|intros [-> ->]; apply Hcmd'; reflexivity]. }
    assert (Hig : sc_ignore c = true <-> exists j, In j (l ++ [i]) /\ flag j (u "ignore")).
    { rewrite exists_snoc, H6. split; [auto|]. intros [H|H]; [exact H|]. exfalso; eapply Hnf; exact H. }
    assert (Hha : sc_hash c = true <-> exists j, In j (l ++ [i]) /\ (flag j (u "hashcomments") \/ flag j (u "hashcomment"))).
    { rewrite exists_snoc, H7. split; [auto|]. intros [H|[H|H]]; [exact H| |]; exfalso; eapply Hnf; exact H. }
    assert (Hm : forall {A} (P : str -> A -> Prop) n (Q : str -> A -> Prop) o, lower k <> n ->
       (forall a, P i a -> exists w, command i n w /\ Q w a) -> last_of P l o -> last_of P (l ++ [i]) o).
    { intros A P n Q o Hn HP Ho. apply last_of_snoc_miss; [|exact Ho]. intros a Ha. destruct (HP a Ha) as (w & Hw & _). apply Hcm in Hw as [-> _]. congruence. }
    pose (P1 := fun i z => exists v n, command i (u "skiprows") v /\ parse_int v = Some n /\ z = Z.max n 0).
    pose (P2 := fun i z => exists v n, command i (u "headerrows") v /\ parse_int v = Some n /\ z = Z.max n 1).
    assert (M1 : lower k <> u "skiprows" \/ parse_int v = None -> last_of P1 (l ++ [i]) (sc_skip c)).
    { intros Hx. apply last_of_snoc_miss; [|exact H1]. intros a (w & n & Hc & Hp & _). apply Hcm in Hc as [Hc ->]. destruct Hx; congruence. }
    assert (M2 : lower k <> u "headerrows" \/ parse_int v = None -> last_of P2 (l ++ [i]) (sc_header c)).
    { intros Hx. apply last_of_snoc_miss; [|exact H2]. intros a (w & n & Hc & Hp & _). apply Hcm in Hc as [Hc ->]. destruct Hx; congruence. }
    assert (M : forall n o, lower k <> n -> last_of (fun i v => command i n v) l o -> last_of (fun i v => command i n v) (l ++ [i]) o).
    { intros n o Hn Ho. apply last_of_snoc_miss; [|exact Ho]. intros a Hc. apply Hcm in Hc as [Hc _]. congruence. }
    assert (HH : forall n, lower k = n -> last_of (fun i v => command i n v) (l ++ [i]) (Some v)).
    { intros n <-. apply last_of_snoc_hit. apply Hcm. auto. }
    destruct (str_eqb_spec (lower k) (u "skiprows")) as [Ek|N1].
    { assert (forall n, n <> u "skiprows" -> lower k <> n) by congruence.
      destruct (parse_int v) as [z|] eqn:Ep.
      - split; try assumption; simpl.
        + apply last_of_snoc_hit. exists v, z. rewrite Hcm. auto.
        + apply M2. left. apply H. discriminate.
        + apply M; [apply H; discriminate|assumption].
        + apply M; [apply H; discriminate|assumption].
        + apply M; [apply H; discriminate|assumption].
      - split; try assumption; auto; apply M; try assumption; apply H; discriminate. }
    destruct (str_eqb_spec (lower k) (u "headerrows")) as [Ek|N2].
    { assert (forall n, n <> u "headerrows" -> lower k <> n) by congruence.
      destruct (parse_int v) as [z|] eqn:Ep.
      - split; try assumption; simpl.
        + apply M1. left. apply H. discriminate.
        + apply last_of_snoc_hit. exists v, z. rewrite Hcm. auto.
        + apply M; [apply H; discriminate|assumption].
        + apply M; [apply H; discriminate|assumption].
        + apply M; [apply H; discriminate|assumption].
      - split; try assumption; auto; apply M; try assumption; apply H; discriminate. }
    destruct (str_eqb_spec (lower k) (u "xmlroottag")) as [Ek|N3].
    { assert (forall n, n <> u "xmlroottag" -> lower k <> n) by congruence.
      split; try assumption; simpl; auto; apply M; try assumption; apply H; discriminate. }
    destruct (str_eqb_spec (lower k) (u "rootlistpath")) as [Ek|N4].
    { assert (forall n, n <> u "rootlistpath" -> lower k <> n) by congruence.
      split; try assumption; simpl; auto; apply M; try assumption; apply H; discriminate. }
    destruct (str_eqb_spec (lower k) (u "idname")) as [Ek|N5].
    { assert (forall n, n <> u "idname" -> lower k <> n) by congruence.
      split; try assumption; simpl; auto; apply M; try assumption; apply H; discriminate. }
    split; auto.
  - apply Hstay; [intros n w H; apply Hcmd in H as (? & ? & ?); discriminate|intros n H; apply Hflag in H as (? & ? & ?); discriminate].
Qed.

Lemma parse_means l : forall l0 c, conf_means l0 c ->
  exists c', parse_sheet_configuration (map SStr l) c = Ok c' [] /\ conf_means (l0 ++ l) c'.
Proof.
  induction l as [|i l IH]; intros l0 c Hc; simpl.
  - exists c. rewrite app_nil_r. auto.
  - destruct (IH (l0 ++ [i]) (conf_item c i) (conf_item_means _ _ _ Hc)) as (c' & E & H).
    exists c'. rewrite <- app_assoc in H. auto.
Qed.
Theorem parse_sheet_configuration_means l :
  exists c, parse_sheet_configuration (map SStr l) empty_conf = Ok c [] /\ conf_means l c.
Proof.
  apply (parse_means l []). split; simpl; try (apply last_none; intros ? ? []); (split; [discriminate|intros (? & [] & _)]).
Qed.
Lemma last_of_bound {P : str -> Z -> Prop} {l z} (b : Z) : (forall i z, P i z -> (b <= z)%Z) -> last_of P l (Some z) -> (b <= z)%Z.
Proof. intros H Hl. inversion Hl; subst. eauto. Qed.
Theorem parse_sheet_configuration_clamped l c : conf_means l c ->
  (forall z, sc_skip c = Some z -> (0 <= z)%Z) /\ (forall z, sc_header c = Some z -> (1 <= z)%Z).
Proof.
  intros [H1 H2 _ _ _ _ _]. split; intros z E.
  - rewrite E in H1. eapply last_of_bound; [|exact H1]. intros i y (v & n & _ & _ & ->). lia.
  - rewrite E in H2. eapply last_of_bound; [|exact H2]. intros i y (v & n & _ & _ & ->). lia.
Qed.
