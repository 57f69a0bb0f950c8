(** The round trip: reading the line of a row. *)
From Coq Require Import Permutation Lia.
From Verif.Base Require Import PyStr PyNum PyVal PyDict Outcome.
From Verif.Model Require Import Warn Lib Convert Input Flatten.
From Verif.Spec Require Import Paths Headings RoundTrip Alike Rows.
From Verif.Proofs Require Import TreeInd Total RowBuild RowFin RowRead RowRun RtMerge RtRow.
Local Open Scope res_scope.

(** headings of places *)
Definition xpart (s : xstep) : str := match s with XKey k => k | XIdx _ => u "0" end.
Definition htext (q : xpath) : str := join (u "/") (map xpart q).
Definition hpart (s : hstep) : str := match s with HKey k => k | HPos _ => u "0" end.
Lemma htext_hp q : htext q = join (u "/") (map hpart (hp q)).
Proof. unfold htext, hp. rewrite map_map. f_equal. apply map_ext. intros [k|i]; reflexivity. Qed.

Section Doc.
  Variable idn : str.
  Notation tidy := (tidy idn).

  Lemma leaf_spelled n : forall q o y, length q <= n -> tidy (JO o) -> at_x (JO o) q = Some y -> leaf y ->
    (forall x, In x (map xpart q) -> ~ In 47%N x) /\ spelled (hp q) (map (rstrip is_bracket) (map xpart q)).
  Proof.
    induction n as [|n IH]; intros q o s Hn Ht H Hl.
    - destruct q; [|cbn in Hn; lia]. cbn in H. injection H as <-. destruct Hl.
    - destruct q as [|[k|i] q]; cbn [at_x] in H; try discriminate; [injection H as <-; destruct Hl|]. destruct (sget k o) as [y|] eqn:Ey; [|discriminate].
      destruct (tidy_JO idn o Ht) as (_ & _ & Ha & _). apply sget_In in Ey. destruct (Ha _ _ Ey) as [(Hf & Hs & Hr) Hy]. cbn [length] in Hn.
      assert (Hk : rstrip is_bracket k = k) by exact Hr.
      assert (H1 : q = [] -> (forall x, In x (map xpart (XKey k :: q)) -> ~ In 47%N x) /\ spelled (hp (XKey k :: q)) (map (rstrip is_bracket) (map xpart (XKey k :: q)))).
      { intros ->. cbn [map xpart hp]. rewrite Hk. split; [intros x [<-|[]]; exact Hs|]. apply sp_leaf. exact Hf. }
      destruct y as [v|l|e].
      + destruct q as [|[?|?] q]; cbn [at_x] in H; try discriminate. auto.
      + destruct q as [|[k2|i] q]; cbn [at_x] in H; [auto|discriminate|]. destruct (nth_error l i) as [[|?|o1]|] eqn:Ei; try discriminate.
        destruct (item_get idn l i o1 Hy Ei) as (s1 & Ho1). destruct (item_plain idn l i s1 o1 Hy Ho1) as [_ Ho].
        cbn [length] in Hn. destruct (IH q o1 s) as [A B]; [lia|exact Ho|exact H|exact Hl|]. cbn [map xpart hp]. rewrite Hk. split.
        * intros x [<-|[<-|Hx]]; [exact Hs|intros [Q|[]]; discriminate Q|auto].
        * eapply sp_at; [exact Hf|reflexivity|exact B].
      + destruct q as [|st q]; [auto|]. destruct (IH (st :: q) e s) as [A B]; [lia|exact Hy|exact H|exact Hl|]. cbn [map xpart] in *. cbn [hp map] in *. rewrite Hk. split; [intros x [<-|Hx]; auto|]. apply sp_in; assumption.
  Qed.
  Lemma leaf_heading q o y : tidy (JO o) -> at_x (JO o) q = Some y -> leaf y -> heading_of (SStr (htext q)) (hp q).
  Proof. intros Ht H Hl. destruct (leaf_spelled (length q) q o y (le_n _) Ht H Hl) as [A B]. exists (map xpart q). split; [reflexivity|]. auto. Qed.

  Lemma spelled_int t i : parse_int t = Some i -> ~ field_name t.
  Proof. intros H [_ Q]. congruence. Qed.
  Lemma spelled_fun p l : spelled p l -> forall p', spelled p' l -> p = p'.
  Proof.
    induction 1 as [k Hk|k p l Hk Hp IH|k i t p l Hk Ht Hp IH]; intros p' H'; inversion H'; subst; try reflexivity;
      repeat match goal with H : spelled _ [] |- _ => inversion H end.
    - f_equal. auto.
    - exfalso. apply spelled_head in Hp as (k' & ? & ? & _ & E & Hf). injection E as <- <-. eapply spelled_int; eassumption.
    - exfalso. match goal with H : spelled _ (t :: l) |- _ => apply spelled_head in H as (k' & ? & ? & _ & E & Hf) end. injection E as <- <-. eapply spelled_int; eassumption.
    - f_equal. assert (i = i0) by congruence. subst. f_equal. auto.
  Qed.
  Lemma heading_fun (E : conv_env) h p p' : heading_of (SStr h) p -> heading_of (SStr h) p' -> p = p'.
  Proof. intros H H'. apply (heading_items E) in H, H'. eapply spelled_fun; eassumption. Qed.

  (** columns of one row do not contradict each other *)
  Lemma at_leaf y q z : leaf y -> at_x y q = Some z -> q = [].
  Proof.
    intros Hl H. destruct q as [|[k|i] q]; [reflexivity| |]; cbn [at_x] in H; destruct y as [|l|d]; try discriminate; [destruct Hl|].
    destruct (nth_error l i) as [[|?|o]|] eqn:E; try discriminate. exfalso. apply nth_error_In in E. exact (leaf_no_objects l o Hl E).
  Qed.
  Lemma leaves_compatible q1 : forall q2 x Q y1 y2, at_x x q1 = Some y1 -> leaf y1 -> at_x x q2 = Some y2 -> leaf y2 -> follows Q q1 -> follows Q q2 ->
    hp q1 <> hp q2 -> compatible (hp q1) (hp q2).
  Proof.
    induction q1 as [|a q1 IH]; intros q2 x Q s1 s2 H1 L1 H2 L2 F1 F2 Hne.
    - cbn in H1. injection H1 as ->. apply at_leaf in H2; [|exact L1]. subst q2. congruence.
    - destruct q2 as [|b q2].
      + cbn in H2. injection H2 as ->. apply at_leaf in H1; [discriminate|exact L2].
      + destruct a as [k1|i1], b as [k2|i2]; cbn [at_x] in H1, H2; cbn [hp map compatible hstep_eqb].
        * destruct (str_eqb_spec k1 k2) as [<-|Hk]; [|reflexivity]. destruct x as [|?|d]; try discriminate. destruct (sget k1 d) as [y|]; [|discriminate].
          cbn [follows] in F1, F2. eapply IH; [exact H1|exact L1|exact H2|exact L2|exact F1|exact F2|]. intros E. apply Hne. cbn [hp map]. f_equal. exact E.
        * destruct x; discriminate.
        * destruct x; discriminate.
        * cbn [follows] in F1, F2. destruct Q as [|[?|j] Q]; try tauto. destruct F1 as [-> F1], F2 as [-> F2]. destruct x as [|l|?]; try discriminate.
          destruct (nth_error l j) as [[|?|o]|]; try discriminate. cbn [Z.eqb]. eapply IH; [exact H1|exact L1|exact H2|exact L2|exact F1|exact F2|]. intros E. apply Hne. cbn [hp map]. f_equal. exact E.
  Qed.
  Lemma leaf_id_ends o q y a r : tidy (JO o) -> at_x (JO o) q = Some y -> hp q = a ++ HKey idn :: r -> r = [].
  Proof.
    intros Ht H E. unfold hp in E. apply map_eq_app in E as (q1 & q2 & -> & _ & E). destruct q2 as [|[k|i] q2]; cbn [map] in E; try discriminate.
    injection E as -> <-. rewrite at_x_app in H. destruct (at_x (JO o) q1) as [z0|] eqn:Ey; [|discriminate]. pose proof (tidy_at idn _ _ _ Ht Ey) as Hy.
    cbn [at_x] in H. destruct z0 as [|?|d]; try discriminate. destruct (sget idn d) as [z|] eqn:Ez; [|discriminate].
    destruct (tidy_JO idn d Hy) as (_ & _ & _ & Hid). destruct (Hid z Ez) as (s2 & Es2 & _). injection Es2 as ->. destruct q2 as [|[?|?] ?]; [reflexivity|discriminate|discriminate].
  Qed.

  Context {alike : jv -> cellval -> Prop}.
  Variables (O : opts) (write : scalar -> scalar) (cell_of : jv -> scalar).
  Hypothesis Hxml : o_xml O = false.
  Hypothesis Hidn : o_id_name O = idn.
  Hypothesis Hcell : forall s, cell_of (JS s) = s.
  Notation rid := (o_root_id O).

  (** what a row says about the record [o], [Q] being the place of its item *)
  Definition row_only (o : jobj) (Q : xpath) (row : frow) : Prop :=
    forall h v, sget h row = Some v -> exists q y, v = JS (cell_of y) /\ h = htext q /\ at_x (JO o) q = Some y /\ leaf y /\ follows Q q.
  Definition row_ids (Q : xpath) (row : frow) : Prop :=
    (exists v, sget idn row = Some v) /\ forall a i b, Q = a ++ XIdx i :: b -> exists v, sget (htext (a ++ [XIdx i; XKey idn])) row = Some v.
  Definition survives (o : jobj) : Prop := forall q y, at_x (JO o) q = Some y -> leaf y -> cell_comes alike O write (hp q) y (cell_of y).
  (** the column of a leaf *)
  Definition column_of (o : jobj) (Q : xpath) (header : list str) (c : column) : Prop :=
    exists h q y v, c = (SStr h, (hp q, v)) /\ In h header /\ h = htext q /\ at_x (JO o) q = Some y /\ leaf y /\ follows Q q /\
      alike y v /\ (forall a s, hp q = a ++ [HKey idn] -> y = JS s -> v = CV s).

  Lemma table_reads b o Q row : blank b = true -> tidy (JO o) -> survives o -> row_only o Q row -> forall header, NoDup header ->
    exists C W, reads (o_conv O) (o_types O) (table_line write b header row) C W /\ concat W = [] /\ NoDup (map fst C) /\
      (forall c, In c C -> column_of o Q header c) /\
      (forall h q y v, In h header -> h = htext q -> at_x (JO o) q = Some y -> leaf y -> sget h row = Some v -> exists x, In (SStr h, (hp q, x)) C).
  Proof.
    intros Hb Ht Hsv Hrow header. induction header as [|h header IH]; intros Hnd.
    - exists [], []. split; [constructor|]. split; [reflexivity|]. split; [constructor|]. split; [intros ? []|intros ? ? ? ? []].
    - inversion Hnd as [|? ? Hn1 Hn2]; subst. destruct (IH Hn2) as (C & W & HR & HW & HN & HC & Hall). cbn [table_line map].
      assert (Hmore : forall c, In c C -> column_of o Q (h :: header) c).
      { intros c Hin. destruct (HC c Hin) as (h' & q & y & v & A & B & D). exists h', q, y, v. split; [exact A|]. split; [right; exact B|exact D]. }
      destruct (sget h row) as [v|] eqn:Eh.
      2:{ exists C, W. split; [apply reads_blank; assumption|]. split; [exact HW|]. split; [exact HN|]. split; [exact Hmore|].
          intros h' q y v [<-|Hin] E1 E2 E3 E4; [congruence|]. eapply Hall; eassumption. }
      destruct (Hrow h v Eh) as (q & y & -> & Eq & Ha & Hl & Hf). destruct (Hsv q y Ha Hl) as (Hfit & Hnb & x & Hcv & Hxb & Hsame & Hid).
      exists ((SStr h, (hp q, x)) :: C), ([] :: W). split.
      { eapply reads_cell; [exact Hnb|eapply says_fits; [rewrite Eq; eapply leaf_heading; eassumption|exact Hfit]|exact Hfit|exact Hcv|exact Hxb|exact HR]. }
      split; [exact HW|]. split.
      { cbn [map fst]. constructor; [|exact HN]. intros Hin. apply in_map_iff in Hin as (c & Ec & Hin). destruct (HC c Hin) as (h' & q' & y' & v' & -> & Hin' & _). cbn [fst] in Ec. injection Ec as ->. contradiction. }
      split.
      + intros c [<-|Hin]; [|exact (Hmore c Hin)]. exists h, q, y, x. split; [reflexivity|]. split; [left; reflexivity|]. split; [exact Eq|]. split; [exact Ha|]. split; [exact Hl|]. split; [exact Hf|].
        split; [exact Hsame|]. intros a s Ep ->. rewrite Hcell in Hid. apply Hid. rewrite Ep, last_last, Hidn. reflexivity.
      + intros h' q' y' v' [<-|Hin] E1 E2 E3 E4; [|destruct (Hall h' q' y' v' Hin E1 E2 E3 E4) as (x' & Hx'); exists x'; right; exact Hx']. exists x. left.
        assert (hp q' = hp q) as -> ; [|reflexivity]. apply (heading_fun (o_conv O) h); [rewrite E1|rewrite Eq]; eapply leaf_heading; eassumption.
  Qed.

  (** the object of a row: part of the record *)
  Definition part (o : jobj) (Q : xpath) (row : frow) (d : tdict) : Prop :=
    view (alike := alike) idn False (JO o) (TDict d) /\ single (TDict d) /\
    (forall q, has idn (JO o) (TDict d) q -> follows Q q) /\
    (forall q y v, follows Q q -> at_x (JO o) q = Some y -> leaf y -> sget (htext q) row = Some v -> has idn (JO o) (TDict d) q) /\
    (exists s, sget idn o = Some (JS s) /\ main_id O d = Ok (Some s) [] /\ item_key false idn d = Ok (Some s) []).

  Lemma kget_table b h header row : In h header -> kget (SStr h) (table_line write b header row) = Some (match sget h row with Some (JS s) => write s | _ => b end).
  Proof.
    unfold kget. induction header as [|h' header IH]; [intros []|]. intros Hin. cbn [table_line map aget]. rewrite py_eqb_str.
    destruct (str_eqb_spec h h') as [-> |Hne]; [reflexivity|]. destruct Hin as [->|Hin]; [congruence|]. apply IH. exact Hin.
  Qed.
  Theorem line_part b o Q row header sheet hs j : blank b = true -> tidy (JO o) -> survives o -> has_value (sget idn o) -> row_only o Q row -> row_ids Q row -> NoDup header ->
    (forall h v, sget h row = Some v -> In h header) -> (hs = None \/ hs = Some (map SStr header)) -> (rid <> [] -> exists s, sget rid o = Some (JS s) /\ sget rid row = Some (JS s)) ->
    exists cells d, forallb (fun kv => blank (snd kv)) (table_line write b header row) = false /\ line_cells O sheet hs j 0 (table_line write b header row) = Ok cells [] /\
      unflatten_row (o_conv O) (o_types O) (o_xml O) (o_id_name O) cells = Ok d [] /\ part o Q row d /\
      (line_root O (table_line write b header row) = match rid with [] => SNone | _ => match sget rid o with Some (JS s) => write s | _ => SNone end end).
  Proof.
    intros Hb Ht Hsv Hido Hrow [Hid Hids] Hnd Hcov Hhs Hroot.
    destruct (table_reads b o Q row Hb Ht Hsv Hrow header Hnd) as (C & W & HR & HW & HN & HC & Hall).
    assert (Hpath : NoDup (map path_of C)).
    { clear -HN HC. induction C as [|c C IH]; [constructor|]. cbn [map] in *. inversion HN as [|? ? N1 N2]; subst. constructor; [|apply IH; [exact N2|intros; apply HC; right; assumption]].
      intros Hin. apply in_map_iff in Hin as (c' & Ec & Hin). apply N1. destruct (HC c) as (h & q & y & v & -> & _ & -> & _); [left; reflexivity|].
      destruct (HC c') as (h' & q' & y' & v' & -> & _ & -> & _); [right; exact Hin|]. unfold path_of in Ec. cbn [fst snd] in *. apply in_map_iff. eexists. split; [|exact Hin]. cbn [fst].
      rewrite !htext_hp, Ec. reflexivity. }
    assert (Hends : id_ends idn (map snd C)).
    { intros p v q0 r Hin E. apply in_map_iff in Hin as (c & Ec & Hin). destruct (HC c Hin) as (h & q & y & v' & -> & _ & _ & Ha & _). cbn [snd] in Ec. injection Ec as <- <-. eapply leaf_id_ends; eassumption. }
    assert (Hplain : ids_plain idn (map snd C)).
    { intros q0 x Hin. apply in_map_iff in Hin as (c & Ec & Hin). destruct (HC c Hin) as (h & q & y & v & -> & _ & _ & Ha & _ & _ & _ & X). cbn [snd] in Ec. injection Ec as Ep ->.
      assert (exists s, y = JS s /\ plain_value s) as (s & -> & Hs).
      { unfold hp in Ep. apply map_eq_app in Ep as (q1 & q2 & -> & _ & E). destruct q2 as [|[k|i] [|? ?]]; cbn [map] in E; try discriminate. injection E as ->.
        rewrite at_x_app in Ha. destruct (at_x (JO o) q1) as [z|] eqn:Ez; [|discriminate]. cbn [at_x] in Ha. destruct z as [| |dz]; try discriminate. destruct (sget idn dz) as [z|] eqn:Ei; [|discriminate]. injection Ha as ->.
        destruct (tidy_JO idn dz (tidy_at idn _ _ _ Ht Ez)) as (_ & _ & _ & Hi). destruct (Hi _ Ei) as (s & Es & Hs). injection Es as ->. eauto. }
      exists s. rewrite (X q0 s Ep eq_refl). split; [reflexivity|]. destruct Hs as [(t & -> & _)|(z & ->)]; reflexivity. }
    assert (Hdist : ids_distinct idn (map snd C)).
    { intros q0 i1 i2 x y H1 H2 Hne. exfalso. apply Hne.
      assert (Z0 : forall i x, In (q0 ++ [HPos i; HKey idn], CV x) (map snd C) -> i = 0%Z).
      { intros i x0 Hin. apply in_map_iff in Hin as (c & Ec & Hin). destruct (HC c Hin) as (h & q & y0 & v0 & -> & _). cbn [snd] in Ec. injection Ec as Ep _.
        unfold hp in Ep. apply map_eq_app in Ep as (qa & qb & _ & _ & Ep). destruct qb as [|[k|n] qb]; cbn [map] in Ep; try discriminate. injection Ep as Ep _. symmetry. exact Ep. }
      rewrite (Z0 _ _ H1), (Z0 _ _ H2). reflexivity. }
    assert (Hag : agree (map snd C)).
    { unfold agree. clear -Hpath HC. induction C as [|c C IH]; [constructor|]. cbn [map] in *. inversion Hpath as [|? ? N1 N2]; subst. constructor; [|apply IH; [intros; apply HC; right; assumption|exact N2]].
      apply Forall_forall. intros pv Hin. apply in_map_iff in Hin as (c' & <- & Hin). destruct (HC c) as (h & q & y & v & -> & _ & _ & Ha & Hl & Hf & _); [left; reflexivity|].
      destruct (HC c') as (h' & q' & y' & v' & -> & _ & _ & Ha' & Hl' & Hf' & _); [right; exact Hin|]. cbn [snd fst]. eapply leaves_compatible; try eassumption.
      intros E. apply N1. apply in_map_iff. eexists. split; [|exact Hin]. unfold path_of. cbn [fst snd]. congruence. }
    assert (Hlen : headed hs (table_line write b header row)).
    { intros l E. destruct Hhs as [-> |Q0]; [discriminate|]. rewrite Q0 in E. injection E as <-. unfold table_line. rewrite !map_length. lia. }
    rewrite <- Hidn in Hends, Hdist, Hplain.
    destruct (line_shown O Hxml sheet hs j _ C W HR Hlen Hpath Hplain Hends Hdist) as (cells & d & w & acc & rej & LLa & LLr & Ec & Eu & D & Fa & Fr & Hs & Hok & Hr & _).
    assert (rej = []). { eapply agree_incompatible; [exact Hag|exact D|]. intros h p x Hin. apply (Hr h p x Hin). }
    subst rej. apply settled_none in D as [-> ->]. rewrite HW in Eu.
    exists cells, d.
    destruct Hid as (vid & Hvid). destruct (Hrow idn vid Hvid) as (qi & yi & -> & Eqi & Hai & Hli & _).
    destruct (Hall idn qi yi _ (Hcov _ _ Hvid) Eqi Hai Hli Hvid) as (vi & HinC).
    assert (HneC : C <> []) by (intros E; rewrite E in HinC; destruct HinC).
    split. { destruct (forallb _ (table_line write b header row)) eqn:Eb; [|reflexivity]. apply (reads_blank_line O _ C W HR) in Eb. contradiction. }
    split; [exact Ec|]. split; [exact Eu|].
    rewrite Hidn in *.
    assert (Hdesc : desc (alike := alike) idn (JO o) Q (map snd LLa)).
    { intros p c Hin. apply in_map_iff in Hin as ([h [p' c']] & E & Hin). cbn [snd] in E. injection E as -> ->.
      destruct (Forall2_in_r _ _ _ Fa _ Hin) as (cc & Hcc & (E1 & E2 & E3)). destruct (HC cc Hcc) as (h2 & q & y & v & -> & _ & _ & Ha & Hl & Hf & Hsm & X). unfold path_of in E2. cbn [fst snd] in *. subst.
      exists q, y. auto 8. }
    assert (HLC : forall h p v, In (h, (p, v)) C -> exists c, In (p, c) (map snd LLa) /\ c_val c = v).
    { intros h p v Hin. destruct (Forall2_in_l _ _ _ Fa _ Hin) as ([h2 [p2 c2]] & Hin2 & (E1 & E2 & E3)). unfold path_of in E2. cbn [fst snd] in *. subst p2 v. exists c2. split; [|reflexivity].
      apply in_map_iff. exists (h2, (p, c2)). auto. }
    assert (Hwi : with_ids idn (map snd LLa)).
    { intros a r c Hin. destruct (Hdesc _ _ Hin) as (q & s & E & Ha & _ & _ & Hf & _). symmetry in E. unfold hp in E. apply map_eq_app in E as (q1 & q2 & -> & Ea & E).
      destruct q2 as [|[k|i] q2]; cbn [map] in E; try discriminate.
      assert (HQ : exists b0, Q = q1 ++ XIdx i :: b0).
      { assert (G : forall q1 Q, follows Q (q1 ++ XIdx i :: q2) -> exists b0, Q = q1 ++ XIdx i :: b0).
        { clear. induction q1 as [|[k|n] q1 IH]; intros Q F; cbn [app follows] in F.
          - destruct Q as [|[?|j] Q]; try tauto. destruct F as [-> _]. eexists. reflexivity.
          - destruct (IH _ F) as (b0 & Eb). unfold into in Eb. destruct Q as [|[k'|j] Q]; try (destruct q1; discriminate). destruct (str_eqb_spec k k') as [-> |Hne]; [|destruct q1; discriminate].
            exists b0. cbn [app]. f_equal. exact Eb.
          - destruct Q as [|[?|j] Q]; try tauto. destruct F as [-> F]. destruct (IH _ F) as (b0 & ->). exists b0. reflexivity. }
        exact (G q1 Q Hf). }
      destruct HQ as (b0 & HQ). destruct (Hids q1 i b0 HQ) as (v & Hv). destruct (Hrow _ v Hv) as (q3 & s3 & -> & E3 & A3 & L3 & F3).
      assert (Hat : exists s4, at_x (JO o) (q1 ++ [XIdx i; XKey idn]) = Some (JS s4) /\ leaf (JS s4)).
      { rewrite at_x_app in Ha |- *. destruct (at_x (JO o) q1) as [y|] eqn:Ey; [|discriminate]. pose proof (tidy_at idn _ _ _ Ht Ey) as Hy. cbn [at_x] in Ha |- *.
        destruct y as [|l|?]; try discriminate. destruct (nth_error l i) as [[|?|o4]|] eqn:Ez; try discriminate. destruct (item_get idn l i o4 Hy Ez) as (s4 & Ho4). pose proof (item_plain idn l i s4 o4 Hy Ho4) as [Hp4 _]. destruct Ho4 as [_ Ho4]. rewrite Ho4. exists s4. split; [reflexivity|]. apply plain_basic. exact Hp4. }
      destruct Hat as (s4 & Hat & Hl4).
      assert (Ehp : hp q3 = hp (q1 ++ [XIdx i; XKey idn])).
      { apply (heading_fun (o_conv O) (htext q3)); [|rewrite <- E3]; eapply leaf_heading; eassumption. }
      destruct (Hall (htext q3) q3 s3 (JS (cell_of s3))) as (x3 & Hx3); [rewrite <- E3; eapply Hcov; exact Hv|reflexivity|exact A3|exact L3|rewrite <- E3; exact Hv|].
      destruct (HLC (SStr (htext q3)) (hp q3) x3 Hx3) as (c' & Hc' & _).
      exists c'. rewrite Ehp in Hc'. unfold hp in Hc'. rewrite map_app in Hc'. rewrite <- Ea. exact Hc'. }
    assert (Hne : map snd LLa <> []). { destruct (HLC _ _ _ HinC) as (c & Hc & _). intros E. rewrite E in Hc. destruct Hc. }
    destruct (fragment_all idn (TDict d) (map snd LLa) (JO o) Q Hs Ht Hdesc Hwi Hne) as (Hv & Hsg & Hh).
    assert (Hleaf : forall q y v, follows Q q -> at_x (JO o) q = Some y -> leaf y -> sget (htext q) row = Some v -> has idn (JO o) (TDict d) q).
    { intros q y v Hf Ha Hl Hg.
      destruct (Hall (htext q) q y v) as (x3 & Hx3); [eapply Hcov; exact Hg|reflexivity|exact Ha|exact Hl|exact Hg|].
      destruct (HLC (SStr (htext q)) (hp q) x3 Hx3) as (c & Hc & _).
      apply Hh. split; [exact Hf|]. exists [], c. rewrite app_nil_r. exact Hc. }
    split.
    - split; [exact Hv|]. split; [exact Hsg|]. split; [intros q Hq; apply Hh in Hq; tauto|]. split; [exact Hleaf|].
      destruct Hido as (s0 & Hs0 & Hp0). exists s0. split; [exact Hs0|].
      assert (Hat0 : at_x (JO o) [XKey idn] = Some (JS s0)) by (cbn [at_x]; rewrite Hs0; reflexivity).
      destruct (Hall idn [XKey idn] (JS s0) _ (Hcov _ _ Hvid) eq_refl Hat0 (plain_basic _ Hp0) Hvid) as (x0 & Hx0).
      destruct (HLC (SStr idn) [HKey idn] x0 Hx0) as (c0 & Hin0 & _).
      destruct Hok as (He & Hvv & _).
      assert (K : item_key false idn d = Ok (Some s0) []).
      { destruct (item_key_shown idn _ d Hs He Hvv) as [(c & s & Hin1 & Ec1 & K)|[Hno _]]; [|exfalso; exact (Hno _ _ Hin0)].
        assert (Hs1 : s = s0); [|rewrite <- Hs1; exact K].
        destruct (Hdesc _ _ Hin1) as (q & s1 & Eq1 & A1 & _ & _ & _ & X1). apply hp_key in Eq1 as (q' & -> & Eq'). destruct q'; [|discriminate]. cbn [at_x] in A1. rewrite Hs0 in A1. injection A1 as <-.
        specialize (X1 [] s0 eq_refl eq_refl). congruence. }
      split; [|exact K]. unfold item_key in K. unfold main_id. rewrite Hxml, Hidn. destruct (sget idn d) as [[c1|e|dt nk]|]; try discriminate; exact K.
    - unfold line_root. destruct rid as [|c0 rr] eqn:Er; [reflexivity|]. destruct Hroot as (s & H1 & H2); [discriminate|]. rewrite H1.
      rewrite (kget_table b (c0 :: rr) header row); [rewrite H2; reflexivity|]. eapply Hcov; exact H2.
  Qed.
End Doc.
