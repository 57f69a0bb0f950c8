(** The round trip: what the rows of the flattened records say. *)
From Coq Require Import Permutation Lia.
From Verif.Base Require Import PyStr PyNum PyVal PyDict Outcome.
From Verif.Model Require Import Warn Lib Convert Input Flatten.
From Verif.Spec Require Import Flat Sites Paths Headings RoundTrip.
From Verif.Proofs Require Import JvInd FlattenPaths FlattenItems RtMerge RtRow RtLine.

Definition jx1 (st : jstep) : xpath := XKey (fst st) :: match snd st with Some i => [XIdx i] | None => [] end.
Definition jx (Q : jpath) : xpath := flat_map jx1 Q.
Lemma jx_app a b : jx (a ++ b) = jx a ++ jx b.
Proof. apply flat_map_app. Qed.
Lemma jx_down ks : jx (down ks) = map XKey ks.
Proof. induction ks as [|k ks IH]; [reflexivity|]. cbn. f_equal. exact IH. Qed.
Lemma x_path Q : forall v y, at_x v (jx Q) = Some y -> at_path v Q = Some y.
Proof.
  induction Q as [|[k o] Q IH]; intros v y H; [exact H|]. change (jx ((k, o) :: Q)) with (XKey k :: match o with Some i => [XIdx i] | None => [] end ++ jx Q) in H.
  cbn [at_path at_x] in H |- *. destruct v as [|?|d]; try discriminate. destruct (sget k d) as [z|]; [|destruct o; discriminate].
  destruct o as [i|]; cbn [app at_x] in H.
  - destruct z as [|l|]; try discriminate. destruct (nth_error l i) as [[|?|e]|]; try discriminate. apply IH. exact H.
  - apply IH. exact H.
Qed.
Lemma path_x Q : forall v e, at_path v Q = Some (JO e) -> at_x v (jx Q) = Some (JO e).
Proof.
  induction Q as [|[k o] Q IH]; intros v y H; [exact H|]. change (jx ((k, o) :: Q)) with (XKey k :: match o with Some i => [XIdx i] | None => [] end ++ jx Q).
  cbn [at_path at_x] in H |- *. destruct v as [|?|d]; try discriminate. destruct o as [i|]; cbn [app at_x]; (destruct (sget k d) as [z|]; [|discriminate]).
  - destruct z as [|l|]; try discriminate. destruct (nth_error l i) as [x|]; [|discriminate].
    assert (exists e, x = JO e) as (e & ->). { destruct x as [s|l'|e]; [| |eauto]; destruct Q as [|[? ?] ?]; discriminate. }
    apply IH. exact H.
  - apply IH. exact H.
Qed.
Lemma path_x_key Q k v y : at_path v (Q ++ [(k, None)]) = Some y -> at_x v (jx (Q ++ [(k, None)])) = Some y.
Proof.
  intros H. rewrite at_path_app in H. destruct (at_path v Q) as [z|] eqn:E; [|discriminate]. cbn [at_path] in H. destruct z as [| |d]; try discriminate.
  rewrite jx_app, at_x_app, (path_x _ _ _ E). cbn. exact H.
Qed.
Lemma path_x_down Q ks k v y : at_path v (Q ++ down (ks ++ [k])) = Some y -> at_x v (jx (Q ++ down (ks ++ [k]))) = Some y.
Proof. unfold down. rewrite map_app, app_assoc. apply path_x_key. Qed.
Lemma hp_jx Q : hp (jx Q) = heading_path Q.
Proof.
  unfold hp, jx, heading_path. rewrite !flat_map_concat_map, concat_map, map_map. f_equal. apply map_ext. intros [k [i|]]; reflexivity.
Qed.
Lemma htext_jx Q k : htext (jx Q ++ [XKey k]) = pre Q ++ k.
Proof.
  rewrite pre_segs. unfold htext. rewrite map_app. f_equal. f_equal. unfold jx, segs. rewrite flat_map_concat_map, concat_map, map_map, flat_map_concat_map. f_equal.
  apply map_ext. intros [k0 [i|]]; reflexivity.
Qed.
Lemma htext_leaf Q ks k : htext (jx (Q ++ down (ks ++ [k]))) = pre Q ++ pre (down ks) ++ k.
Proof.
  rewrite app_assoc, <- pre_app, <- htext_jx. f_equal. change [XKey k] with (jx [(k, None)]). rewrite <- jx_app. unfold down. rewrite map_app, app_assoc. reflexivity.
Qed.
Lemma follows_nil ks : forall Q, follows Q (map XKey ks).
Proof. induction ks as [|k ks IH]; intros Q; [exact I|]. cbn [map follows]. apply IH. Qed.
Lemma follows_part a : forall b ks, follows (a ++ b) (a ++ map XKey ks).
Proof.
  induction a as [|[k|i] a IH]; intros b ks; cbn [app follows].
  - apply follows_nil.
  - unfold into. rewrite str_eqb_refl. apply IH.
  - split; [reflexivity|]. apply IH.
Qed.
Lemma follows_idx q1 i q2 : forall Q, follows Q (q1 ++ XIdx i :: q2) -> exists b0, Q = q1 ++ XIdx i :: b0.
Proof.
  induction q1 as [|[k|n] q1 IH]; intros Q F; cbn [app follows] in F.
  - destruct Q as [|[?|j] Q]; try tauto. destruct F as [-> _]. eexists. reflexivity.
  - destruct (IH _ F) as (b0 & Eb). unfold into in Eb. destruct Q as [|[k'|j] Q]; try (destruct q1; discriminate). destruct (str_eqb_spec k k') as [-> |Hne]; [|destruct q1; discriminate].
    exists b0. cbn [app]. f_equal. exact Eb.
  - destruct Q as [|[?|j] Q]; try tauto. destruct F as [-> F]. destruct (IH _ F) as (b0 & ->). exists b0. reflexivity.
Qed.
Lemma jx_idx Q : forall a i b, jx Q = a ++ XIdx i :: b -> exists Q1 k Q2, Q = Q1 ++ (k, Some i) :: Q2 /\ a = jx Q1 ++ [XKey k] /\ b = jx Q2.
Proof.
  induction Q as [|[k o] Q IH]; intros a i b E.
  - destruct a; discriminate.
  - change (jx ((k, o) :: Q)) with (XKey k :: match o with Some i => [XIdx i] | None => [] end ++ jx Q) in E. destruct a as [|s a]; [discriminate|]. cbn [app] in E.
    injection E as <- E. destruct o as [j|]; cbn [app] in E.
    + destruct a as [|s a]; cbn [app] in E.
      * injection E as <- <-. exists [], k, Q. auto.
      * injection E as <- E. destruct (IH _ _ _ E) as (Q1 & k1 & Q2 & -> & -> & ->). exists ((k, Some j) :: Q1), k1, Q2. auto.
    + destruct (IH _ _ _ E) as (Q1 & k1 & Q2 & -> & -> & ->). exists ((k, None) :: Q1), k1, Q2. auto.
Qed.
Lemma split_down (Q : jpath) : exists Q0 ks, Q = Q0 ++ down ks /\ (Q0 = [] \/ exists a k i, Q0 = a ++ [(k, Some i)]).
Proof.
  induction Q as [|[k [i|]] Q IH] using rev_ind.
  - exists [], []. auto.
  - exists (Q ++ [(k, Some i)]), []. split; [rewrite app_nil_r; reflexivity|]. right. eauto.
  - destruct IH as (Q0 & ks & -> & H). exists Q0, (ks ++ [k]). split; [|exact H]. unfold down. rewrite map_app, app_assoc. reflexivity.
Qed.

Section Doc.
  Variable O : popts.
  Notation idn := (po_id_name O).
  Notation rid := (po_root_id O).
  Notation tidy := (tidy idn).

  Lemma leaf_clean y : leaf y -> clean y.
  Proof.
    destruct y as [s|l|d]; [intros _; exact I| |intros []]. intros [_ H]. cbn [clean].
    assert (G : forall x, In x l -> clean x).
    { intros x Hx. destruct H as [H|H]; [specialize (H x Hx); destruct x; try discriminate; exact I|].
      destruct (H x Hx) as (l' & -> & Hl'). cbn [clean]. clear -Hl'. induction l' as [|z l' IH]; [exact I|]. split; [specialize (Hl' z (or_introl eq_refl)); destruct z; try discriminate; exact I|apply IH; intros; apply Hl'; right; assumption]. }
    clear H. induction l as [|x l IH]; [exact I|]. split; [apply G; left; reflexivity|apply IH; intros; apply G; right; assumption].
  Qed.
  Lemma tidy_clean v : tidy v -> clean v.
  Proof.
    induction v as [s|l IH|d IH] using jv_ind'; intros Ht; [exact I| |].
    - destruct (tidy_JA idn l Ht) as [Hl|(_ & Ha & _)]; [apply leaf_clean; exact Hl|]. cbn [clean]. 
      clear Ht. induction IH as [|y l Hy _ IHl]; [exact I|]. split; [apply Hy; apply Ha; left; reflexivity|apply IHl; intros; apply Ha; right; assumption].
    - destruct (tidy_JO idn d Ht) as (_ & Hn & Ha & _). cbn [clean]. split; [exact Hn|]. clear Ht Hn. induction IH as [|[k y] d Hy _ IHd]; [exact I|]. destruct (Ha k y (or_introl eq_refl)) as [(_ & Hk & _) Hty].
      split; [exact Hk|]. split; [apply Hy; exact Hty|]. apply IHd. intros; apply Ha; right; assumption.
  Qed.
  Lemma tidy_regular v : tidy v -> regular v.
  Proof.
    induction v as [s|l IH|d IH] using jv_ind'; intros Ht; cbn [regular].
    - inversion Ht as [? Hp| |]; subst. exact Hp.
    - destruct (tidy_JA idn l Ht) as [[_ [Hl|Hl]]|(_ & Ha & _ & Hj)]; [left; exact Hl|right; left|right; right].
      + intros x Hx. destruct (Hl x Hx) as (l' & E & Hl'). exists l'. left. auto.
      + split; [intros y Hy; right; auto|].
        clear Ht Hj. induction IH as [|y l Hy _ IHl]; [exact I|]. split; [apply Hy; apply Ha; left; reflexivity|apply IHl; intros; apply Ha; right; assumption].
    - destruct (tidy_JO idn d Ht) as (_ & _ & Ha & _). clear Ht. induction IH as [|[k y] d Hy _ IHd]; [exact I|]. destruct (Ha k y (or_introl eq_refl)) as [_ Hty].
      split; [apply Hy; exact Hty|]. apply IHd. intros; apply Ha; right; assumption.
  Qed.
  (** the value of the cell of a leaf *)
  Definition cell_of (y : jv) : scalar := match leaf_cell O y with Some (JS s) => s | _ => SNone end.
  Lemma cell_of_value s : cell_of (JS s) = s.
  Proof. reflexivity. Qed.
  Lemma leaf_has_cell y : leaf y -> leaf_cell O y = Some (JS (cell_of y)).
  Proof.
    intros Hl. unfold cell_of. destruct y as [s|l|d]; [reflexivity| |destruct Hl]. cbn [leaf_cell]. destruct (forallb jbasic l) eqn:Eb; [reflexivity|]. destruct (forallb inner_array l) eqn:E; [reflexivity|]. exfalso.
    destruct Hl as [Hne [Hl|Hl]].
    - enough (forallb jbasic l = true) by congruence. apply forallb_forall. exact Hl.
    - enough (forallb inner_array l = true) by congruence. apply forallb_forall. intros x Hx. destruct (Hl x Hx) as (l' & -> & Hl'). cbn. apply forallb_forall. exact Hl'.
  Qed.
  Lemma cell_leaf y c : tidy y -> leaf_cell O y = Some c -> leaf y /\ c = JS (cell_of y).
  Proof.
    intros Ht H. assert (Hl : leaf y); [|split; [exact Hl|rewrite (leaf_has_cell y Hl) in H; congruence]].
    destruct y as [s|l|d]; cbn [leaf_cell] in H; [|destruct (tidy_JA idn l Ht) as [Hl|(Hne & _ & _ & Hj)]; [exact Hl|]|discriminate].
    - inversion Ht as [? Hp| |]; subst. exact Hp.
    - exfalso. destruct l as [|y l]; [congruence|]. destruct (Hj y (or_introl eq_refl)) as (o & ->). discriminate H.
  Qed.
  Lemma onto n : forall q o y, (length q <= n)%nat -> tidy (JO o) -> at_x (JO o) q = Some y -> leaf y -> exists Q, q = jx Q.
  Proof.
    induction n as [|n IH]; intros q o y Hn Ht H Hy; [destruct q; [exists []; reflexivity|cbn in Hn; lia]|].
    destruct q as [|[k|i] q]; [exists []; reflexivity| |discriminate]. cbn [at_x] in H. destruct (sget k o) as [x|] eqn:Ex; [|discriminate]. cbn [length] in Hn.
    destruct (tidy_JO idn o Ht) as (_ & _ & Ha & _). apply sget_In in Ex. destruct (Ha _ _ Ex) as [_ Hx]. destruct x as [s|l|e].
    - destruct q as [|[?|?] ?]; try discriminate. exists [(k, None)]. reflexivity.
    - destruct q as [|[?|i] q]; cbn [at_x] in H; [exists [(k, None)]; reflexivity|discriminate|].
      destruct (nth_error l i) as [[| |o1]|] eqn:Ez; try discriminate. destruct (item_get idn l i o1 Hx Ez) as (s1 & Ho1). destruct (item_plain idn l i s1 o1 Hx Ho1) as [_ Ho].
      cbn [length] in Hn. destruct (IH q o1 y) as (Q & ->); [lia|exact Ho|exact H|exact Hy|]. exists ((k, Some i) :: Q). reflexivity.
    - destruct (IH q e y) as (Q & ->); [lia|exact Hx|exact H|exact Hy|]. exists ((k, None) :: Q). reflexivity.
  Qed.
  Hypothesis Hpres : po_preserve O = [].
  Lemma keeps_all Q : keeps O Q = true.
  Proof.
    unfold keeps. generalize (@nil N) as p. induction Q as [|[k o] Q IH]; intros p; [reflexivity|]. cbn [keeps_from]. unfold kept. rewrite Hpres. cbn [andb]. apply IH.
  Qed.

  (** the row of the record or of an item of it *)
  Definition row_shown (o : jobj) (Q : jpath) (row : frow) : Prop :=
    (Q = [] /\ record_shown O o row) \/
    (exists x, Q = it_path x /\ at_path (JO o) Q = Some (JO (it_obj x)) /\ item_shown O (JO o, x) row).

  Lemma leaf_only o Q e row : tidy (JO o) -> root_id_once O (JO o) -> (rid <> [] -> has_value (sget rid o)) -> at_path (JO o) Q = Some (JO e) ->
    shows_only O (leaf_cell O) (keeps O) (JO o) Q e row -> row_only cell_of o (jx Q) row.
  Proof.
    intros Ht Ho Hr He H c x Hc. destruct (H c x Hc) as [(ks & k & y & Hy & Hl & _ & ->)|(Q1 & Q2 & d & -> & Hne & Hd & [(-> & Hi)|(Hrid & -> & Hi)])].
    - assert (Hat : at_path (JO o) (Q ++ down (ks ++ [k])) = Some y) by (rewrite at_path_app, He; exact Hy).
      apply path_x_down in Hat. destruct (cell_leaf y x (tidy_at idn _ _ _ Ht Hat) Hl) as (Hly & ->). exists (jx (Q ++ down (ks ++ [k]))), y.
      split; [reflexivity|]. split; [symmetry; apply htext_leaf|]. split; [exact Hat|]. split; [exact Hly|]. rewrite jx_app, jx_down. rewrite <- (app_nil_r (jx Q)) at 1. apply follows_part.
    - pose proof (path_x _ _ _ Hd) as Hd'. pose proof (tidy_at idn _ _ _ Ht Hd') as Htd. destruct (tidy_JO idn d Htd) as (_ & _ & _ & Hid). destruct (Hid x Hi) as (s & Es & Hs). injection Es as ->.
      exists (jx Q1 ++ [XKey idn]), (JS s). split; [reflexivity|]. split; [symmetry; apply htext_jx|]. split; [rewrite at_x_app, Hd'; cbn [at_x]; rewrite Hi; reflexivity|]. split; [apply plain_basic; exact Hs|].
      rewrite jx_app. apply (follows_part (jx Q1) (jx Q2) [idn]).
    - assert (Q1 = []) as ->. { destruct Q1 as [|st Q1]; [reflexivity|]. exfalso. rewrite (Ho (st :: Q1) d) in Hi; [discriminate|discriminate|exact Hd|exact Hrid]. }
      cbn in Hd. injection Hd as <-. destruct (Hr Hrid) as (s & Hs & Hp). rewrite Hs in Hi. injection Hi as <-. exists [XKey rid], (JS s). split; [reflexivity|]. split; [reflexivity|].
      split; [cbn [at_x]; rewrite Hs; reflexivity|]. split; [apply plain_basic; exact Hp|]. apply (follows_nil [rid]).
  Qed.

  Theorem shown_row o Q row : record_ok O o -> row_shown o Q row ->
    row_only cell_of o (jx Q) row /\ row_ids idn (jx Q) row /\ (rid <> [] -> exists s, sget rid o = Some (JS s) /\ sget rid row = Some (JS s)) /\
    (forall ks y, at_x (JO o) (jx (Q ++ down ks)) = Some y -> leaf y -> sget (htext (jx (Q ++ down ks))) row = Some (JS (cell_of y)) /\ follows (jx Q) (jx (Q ++ down ks))).
  Proof.
    intros (Ht & Hid & Hr & Ho) H.
    assert (He : exists e, at_path (JO o) Q = Some (JO e) /\ shows_leaves (leaf_cell O) (keeps O) Q e row /\ shows_only O (leaf_cell O) (keeps O) (JO o) Q e row).
    { destruct H as [[-> [A B]]|(x & -> & Hx & A & B & C)]; eauto. exists o. auto. }
    destruct He as (e & He & Hl & Honly).
    assert (Hleaf : forall ks y, at_x (JO o) (jx (Q ++ down ks)) = Some y -> leaf y -> sget (htext (jx (Q ++ down ks))) row = Some (JS (cell_of y)) /\ follows (jx Q) (jx (Q ++ down ks))).
    { intros ks y Hs Hly. split; [|rewrite jx_app, jx_down; rewrite <- (app_nil_r (jx Q)) at 1; apply follows_part].
      apply x_path in Hs. rewrite at_path_app, He in Hs. destruct ks as [|k ks _] using rev_ind; [cbn in Hs; injection Hs as <-; destruct Hly|]. rewrite htext_leaf.
      apply (Hl ks k y (JS (cell_of y))); [exact Hs|apply leaf_has_cell; exact Hly|apply keeps_all]. }
    split; [eapply leaf_only; eassumption|]. 
    assert (Hown : forall s, sget idn e = Some (JS s) -> exists v, sget (pre Q ++ idn) row = Some v).
    { intros s Hs. exists (JS s). apply (Hl [] idn (JS s) (JS s)); [|reflexivity|apply keeps_all]. cbn. rewrite Hs. reflexivity. }
    split; [|split; [|exact Hleaf]].
    - split.
      + destruct Hid as (s & Hs & _). destruct H as [[-> _]|(x & E & Hx & _ & B & _)].
        * cbn in He. injection He as <-. exact (Hown s Hs).
        * destruct (B Ho) as [B1 _]. exists (JS s). apply (B1 [] Q o); [rewrite E; reflexivity|rewrite E; unfold it_path; destruct (it_at x); discriminate|reflexivity|exact Hs].
      + intros a i b E. apply jx_idx in E as (Q1 & k & Q2 & E & -> & ->).
        assert (Eh : htext ((jx Q1 ++ [XKey k]) ++ [XIdx i; XKey idn]) = pre (Q1 ++ [(k, Some i)]) ++ idn).
        { rewrite <- htext_jx, jx_app. cbn [jx flat_map jx1 fst snd app]. rewrite <- !app_assoc. reflexivity. }
        rewrite Eh.
        assert (Hat : exists s f, at_path (JO o) (Q1 ++ [(k, Some i)]) = Some (JO f) /\ sget idn f = Some (JS s)).
        { pose proof (path_x _ _ _ He) as Hx. rewrite E, jx_app, at_x_app in Hx. destruct (at_x (JO o) (jx Q1)) as [g|] eqn:Eg; [|discriminate].
          change (jx ((k, Some i) :: Q2)) with (XKey k :: XIdx i :: jx Q2) in Hx. cbn [at_x] in Hx. destruct g as [| |g]; try discriminate. destruct (sget k g) as [[|l|]|] eqn:Ek; try discriminate.
          destruct (nth_error l i) as [[| |f]|] eqn:Ei; try discriminate. pose proof (tidy_at idn _ _ _ Ht Eg) as Hg. destruct (tidy_JO idn g Hg) as (_ & _ & Ha & _).
          destruct (Ha _ _ (sget_In _ _ _ Ek)) as [_ Hla]. destruct (item_get idn l i f Hla Ei) as (s & [_ Hs]). exists s, f. split; [|exact Hs].
          rewrite at_path_app, (x_path _ _ _ Eg). cbn [at_path]. rewrite Ek, Ei. reflexivity. }
        destruct Hat as (s & f & Hf & Hs). destruct Q2 as [|st Q2].
        * rewrite E in He. rewrite He in Hf. injection Hf as <-. rewrite <- E. exact (Hown s Hs).
        * exists (JS s). destruct H as [[-> _]|(x & E0 & Hx & _ & B & _)]; [destruct Q1; discriminate|]. destruct (B Ho) as [B1 _].
          apply (B1 (Q1 ++ [(k, Some i)]) (st :: Q2) f); [rewrite <- E0, E, <- app_assoc; reflexivity|discriminate|exact Hf|exact Hs].
    - intros Hrid. destruct (Hr Hrid) as (s & Hs & _). exists s. split; [exact Hs|]. destruct H as [[-> _]|(x & E & Hx & _ & B & _)].
      + cbn in He. injection He as <-. apply (Hl [] rid (JS s) (JS s)); [cbn; rewrite Hs; reflexivity|reflexivity|apply keeps_all].
      + destruct (B Ho) as [_ B2]. apply (B2 o); [reflexivity|exact Hrid|exact Hs].
  Qed.

  (** every value of the record is in the row of the record or of an item *)
  Theorem leaf_somewhere o q y : tidy (JO o) -> at_x (JO o) q = Some y -> leaf y ->
    exists Q ks, q = jx (Q ++ down ks) /\ (Q = [] \/ exists x, Q = it_path x /\ In x (items_in (JO o)) /\ at_path (JO o) Q = Some (JO (it_obj x))).
  Proof.
    intros Ht H Hl. destruct (onto (length q) q o _ (le_n _) Ht H Hl) as (Q & ->).
    destruct (split_down Q) as (Q0 & ks & -> & HQ). exists Q0, ks. split; [reflexivity|]. destruct HQ as [-> |(a & k & i & ->)]; [left; reflexivity|right].
    rewrite jx_app, at_x_app in H. destruct (at_x (JO o) (jx (a ++ [(k, Some i)]))) as [z|] eqn:Ez; [|discriminate].
    assert (exists e, z = JO e) as (e & ->).
    { rewrite jx_app, at_x_app in Ez. destruct (at_x (JO o) (jx a)) as [g|]; [|discriminate]. cbn [jx flat_map jx1 fst snd app at_x] in Ez. destruct g as [| |g]; try discriminate.
      destruct (sget k g) as [[|l|]|]; try discriminate. destruct (nth_error l i) as [[| |f]|]; try discriminate. injection Ez as <-. eauto. }
    apply x_path in Ez.
    exists {| it_at := a; it_key := k; it_pos := i; it_obj := e |}. split; [reflexivity|]. split; [|exact Ez]. apply items_all; [apply tidy_clean; exact Ht|exact Ez].
  Qed.
  (** every place of a leaf is a path that ends with a key *)
  Lemma leaf_place o q y : tidy (JO o) -> at_x (JO o) q = Some y -> leaf y -> exists Q k, q = jx (Q ++ [(k, None)]) /\ at_path (JO o) (Q ++ [(k, None)]) = Some y.
  Proof.
    intros Ht H Hl. destruct (onto (length q) q o _ (le_n _) Ht H Hl) as (Q & ->). destruct Q as [|[k [i|]] Q _] using rev_ind.
    - cbn in H. injection H as <-. destruct Hl.
    - exfalso. rewrite jx_app, at_x_app in H. destruct (at_x (JO o) (jx Q)) as [g|]; [|discriminate]. cbn [jx flat_map jx1 fst snd app at_x] in H. destruct g as [| |g]; try discriminate.
      destruct (sget k g) as [[|l|]|]; try discriminate. destruct (nth_error l i) as [[| |f]|]; try discriminate. injection H as <-. destruct Hl.
    - exists Q, k. split; [reflexivity|]. apply x_path. exact H.
  Qed.
End Doc.
