(** The rows of a run with titles beside the rows of the run without. *)
From Coq Require Import Permutation Lia.
From Verif.Base Require Import PyStr PyNum PyVal PyDict Outcome.
From Verif.Model Require Import Convert Input Flatten Titles Schema.
From Verif.Spec Require Import Flat Sites Paths Headings SchemaFields SchemaTitled Titled RoundTrip TitledTrip.
From Verif.Proofs Require Import FlattenPaths SchemaTypes SchemaOnce TitledSchema RtMerge RtRow RtLine RtDoc RtState RtOrder RtRun RtMain RtTrip TitleChain TitlePlaces.

(** the run without titles *)
Definition plain_run (O : popts) : popts :=
  {| po_str := po_str O; po_titles := false; po_schema := None; po_root_id := po_root_id O; po_id_name := po_id_name O; po_xml := po_xml O; po_filter := po_filter O;
     po_preserve := po_preserve O; po_rollup := po_rollup O; po_trunc := po_trunc O; po_wkt := po_wkt O; po_shape := po_shape O; po_set_order := po_set_order O |}.

Section Rows.
  Variables (SO : sopts) (S : sv) (O : popts) (docs : list jobj).
  Notation idn := (po_id_name O).
  Notation rid := (po_root_id O).
  Hypothesis HT : titled_by SO S O.
  Hypothesis HR : readable_titles SO S.
  Hypothesis Hroll : po_rollup O = [].
  Hypothesis Hpres : po_preserve O = [].
  Hypothesis HA : all_titled SO S docs.
  Hypothesis HD : documents O docs.
  Hypothesis Owr : own_words SO S rid.
  Hypothesis Owi : own_words SO S idn.

  (** the row at [Q] has the value of the place [L] *)
  Definition lp (o : jobj) (Q L : jpath) (val : jv) : Prop :=
    (exists ks k y, L = Q ++ down (ks ++ [k]) /\ Paths.at_path (JO o) L = Some y /\ leaf_cell O y = Some val) \/
    (exists Q1 Q2, Q = Q1 ++ Q2 /\ Q2 <> [] /\ Paths.at_path (JO o) L = Some val /\ (L = Q1 ++ [(idn, None)] \/ (rid <> [] /\ Q1 = [] /\ L = [(rid, None)]))).

  Lemma down_snoc ks k : down (ks ++ [k]) = down ks ++ [(k, None)].
  Proof. unfold down. rewrite map_app. reflexivity. Qed.
  Lemma at_key v Q k x : Paths.at_path v (Q ++ [(k, None)]) = Some x <-> exists d, Paths.at_path v Q = Some (JO d) /\ sget k d = Some x.
  Proof.
    rewrite at_path_app. split.
    - destruct (Paths.at_path v Q) as [[| |d]|]; try discriminate. cbn [Paths.at_path]. intros H. exists d. split; [reflexivity|]. destruct (sget k d); [exact H|discriminate].
    - intros (d & -> & E). cbn [Paths.at_path]. rewrite E. reflexivity.
  Qed.
  Lemma lp_leaf o Q L val : In o docs -> lp o Q L val -> exists Q' k y, L = Q' ++ [(k, None)] /\ Paths.at_path (JO o) L = Some y /\ RoundTrip.leaf y /\ leaf_cell O y = Some val.
  Proof.
    intros Ho. pose proof (doc_ok O docs HD o Ho) as (Ht & _ & Hr & _). intros [(ks & k & y & -> & Ha & Hl)|(Q1 & Q2 & _ & _ & Ha & Hc)].
    - exists (Q ++ down ks), k, y. rewrite <- app_assoc, <- down_snoc. split; [reflexivity|]. split; [exact Ha|]. split; [|exact Hl]. apply path_x_down in Ha. exact (proj1 (cell_leaf O y val (tidy_at idn _ _ _ Ht Ha) Hl)).
    - destruct Hc as [->|(Hrid & -> & ->)].
      + apply at_key in Ha as (d & Hd & Hi). apply path_x in Hd. pose proof (tidy_at idn _ _ _ Ht Hd) as Td. destruct (tidy_JO idn d Td) as (_ & _ & _ & Hv). destruct (Hv val Hi) as (sc & E & Hpv). injection E as ->.
        exists Q1, idn, (JS sc). split; [reflexivity|]. split; [apply at_key; exists d; split; [exact (x_path _ _ _ Hd)|exact Hi]|]. split; [exact (plain_basic _ Hpv)|reflexivity].
      + change [(rid, None)] with ([] ++ [(rid, @None nat)]) in Ha. apply at_key in Ha as (d & Hd & Hi). cbn [Paths.at_path] in Hd. injection Hd as <-. destruct (Hr Hrid) as (sc & E & Hpv). rewrite Hi in E. injection E as ->.
        exists [], rid, (JS sc). split; [reflexivity|]. split; [cbn [Paths.at_path]; rewrite Hi; reflexivity|]. split; [exact (plain_basic _ Hpv)|reflexivity].
  Qed.
  Lemma leaf_chain o Q k y : In o docs -> Paths.at_path (JO o) (Q ++ [(k, None)]) = Some y -> RoundTrip.leaf y -> exists ts, chain SO S (heading_path (Q ++ [(k, None)])) ts.
  Proof.
    intros Ho Ha Hl. destruct (HA o Q k y Ho Ha Hl) as (v & ty & t & Al & Lf & Tv). eapply along_chain; [exact Al|apply (has_titles SO S HR)| |exact Lf|exact Tv]. intros i. apply heading_path_zero.
  Qed.
  Lemma lp_chain o Q L val : In o docs -> lp o Q L val -> exists ts, chain SO S (heading_path L) ts.
  Proof. intros Ho H. destruct (lp_leaf o Q L val Ho H) as (Q' & k & y & -> & Ha & Hl & _). eapply leaf_chain; eauto. Qed.

  Lemma leaf_told o Q e h val : In o docs -> Paths.at_path (JO o) Q = Some (JO e) ->
    (leaf_value O (sheet_of_place O Q) Q e h val <->
     exists L ts, (exists ks k y, L = Q ++ down (ks ++ [k]) /\ Paths.at_path (JO o) L = Some y /\ leaf_cell O y = Some val) /\ chain SO S (heading_path L) ts /\ h = joint ts).
  Proof.
    intros Ho He.
    assert (Hh : forall ks k ts, chain SO S (heading_path (Q ++ down (ks ++ [k]))) ts -> heading O (sheet_of_place O Q) (pre Q ++ pre (down ks) ++ k) = joint ts).
    { intros ks k ts C. rewrite down_snoc, app_assoc in C. pose proof (place_heading SO S O HT HR _ _ _ C) as E. unfold sheet_of_place in E. rewrite sheet_after_app, sheet_after_down in E. rewrite <- E. f_equal. rewrite pre_app, <- app_assoc. reflexivity. }
    split.
    - intros (ks & k & y & Hy & Hl & _ & ->). assert (H : Paths.at_path (JO o) (Q ++ down (ks ++ [k])) = Some y) by (rewrite at_path_app, He; exact Hy).
      destruct (lp_chain o Q (Q ++ down (ks ++ [k])) val Ho) as (ts & C); [left; eauto 8|]. exists (Q ++ down (ks ++ [k])), ts. split; [eauto 8|]. split; [exact C|]. apply Hh. exact C.
    - intros (L & ts & (ks & k & y & -> & Hy & Hl) & C & ->). exists ks, k, y. split; [rewrite at_path_app, He in Hy; exact Hy|]. split; [exact Hl|]. split; [apply keeps_all; exact Hpres|]. symmetry. apply Hh. exact C.
  Qed.
  Theorem main_told o h val : In o docs -> (record_value O o h val <-> exists L ts, lp o [] L val /\ chain SO S (heading_path L) ts /\ h = joint ts).
  Proof.
    intros Ho. unfold record_value. split.
    - intros [H|(H & _)]; [|congruence]. apply (leaf_told o [] o h val Ho eq_refl) in H as (L & ts & H & C & E). exists L, ts. split; [left; exact H|auto].
    - intros (L & ts & [H|(Q1 & Q2 & E & Hne & _)] & C & ->); [|destruct Q1; [destruct Q2; [congruence|discriminate]|discriminate]]. left. apply (leaf_told o [] o _ val Ho eq_refl). exists L, ts. auto.
  Qed.
  Theorem item_told o x h val : In o docs -> Paths.at_path (JO o) (it_path x) = Some (JO (it_obj x)) ->
    (item_value O (JO o) x h val <-> exists L ts, lp o (it_path x) L val /\ chain SO S (heading_path L) ts /\ h = joint ts).
  Proof.
    intros Ho Hx. pose proof (doc_ok O docs HD o Ho) as (_ & _ & _ & Hro). unfold item_value. rewrite <- sheet_item. pose proof (leaf_told o (it_path x) (it_obj x) h val Ho Hx) as LT. rewrite sheet_item in LT |- *.
    assert (Hid : forall Q1 n ts, own_words SO S n -> chain SO S (heading_path (Q1 ++ [(n, None)])) ts -> heading O (Some (array_sheet O (it_at x) (it_key x))) (heading O (sheet_of_place O Q1) (pre Q1 ++ n)) = joint ts).
    { intros Q1 n ts Ow C. rewrite (place_heading SO S O HT HR _ _ _ C). rewrite heading_path_app in C. eapply (id_again SO S O HT HR _ (heading_path Q1) n); [exact Ow|exact C]. }
    split.
    - intros [H|(Q1 & Q2 & d & EQ & Hne & Hd & H)].
      + apply LT in H as (L & ts & H & C & E). exists L, ts. split; [left; exact H|auto].
      + destruct H as [(Hi & ->)|(Hrid & Hi & ->)].
        * assert (Hl : lp o (it_path x) (Q1 ++ [(idn, None)]) val) by (right; exists Q1, Q2; split; [exact EQ|]; split; [exact Hne|]; split; [apply at_key; eauto|auto]).
          destruct (lp_chain _ _ _ _ Ho Hl) as (ts & C). exists (Q1 ++ [(idn, None)]), ts. split; [exact Hl|]. split; [exact C|]. apply Hid; assumption.
        * assert (E1 : Q1 = []) by (destruct Q1 as [|st Q1]; [reflexivity|]; pose proof (Hro (st :: Q1) d ltac:(discriminate) Hd Hrid); congruence). subst Q1.
          assert (Hl : lp o (it_path x) [(rid, None)] val) by (right; exists [], Q2; split; [exact EQ|]; split; [exact Hne|]; split; [apply (at_key _ []); eauto|auto]).
          destruct (lp_chain _ _ _ _ Ho Hl) as (ts & C). exists [(rid, None)], ts. split; [exact Hl|]. split; [exact C|]. apply (Hid []); assumption.
    - intros (L & ts & [H|(Q1 & Q2 & EQ & Hne & Ha & [->|(Hrid & -> & ->)])] & C & ->).
      + left. apply LT. exists L, ts. auto.
      + right. apply at_key in Ha as (d & Hd & Hi). exists Q1, Q2, d. split; [exact EQ|]. split; [exact Hne|]. split; [exact Hd|]. left. split; [exact Hi|]. symmetry. apply Hid; assumption.
      + right. apply (at_key _ []) in Ha as (d & Hd & Hi). exists [], Q2, d. split; [exact EQ|]. split; [exact Hne|]. split; [exact Hd|]. right. split; [exact Hrid|]. split; [exact Hi|]. symmetry. exact (Hid [] rid ts Owr C).
  Qed.

  (** ** without titles *)
  Definition ctext (L : jpath) : str := zero_text (heading_path L).
  Lemma ctext_key Q k : ctext (Q ++ [(k, None)]) = pre Q ++ k.
  Proof. unfold ctext. rewrite heading_path_app. exact (zero_pre Q k). Qed.
  Theorem plain_told o Q row c val : In o docs -> row_shown (plain_run O) o Q row -> (sget c row = Some val <-> exists L, lp o Q L val /\ c = ctext L).
  Proof.
    intros Ho Hs. pose proof (doc_ok O docs HD o Ho) as (_ & _ & _ & Hro).
    assert (Hsh : exists e, Paths.at_path (JO o) Q = Some (JO e) /\ shows_leaves (leaf_cell O) (keeps O) Q e row /\ shows_only O (leaf_cell O) (keeps O) (JO o) Q e row /\ (Q <> [] -> shows_ids O (JO o) Q row /\ shows_root O (JO o) row)).
    { destruct Hs as [(-> & A & B)|(x & -> & Hx & A & B & C)]; [exists o; split; [reflexivity|]; split; [exact A|]; split; [exact B|congruence]|].
      exists (it_obj x). split; [exact Hx|]. split; [exact A|]. split; [exact C|]. intros _. exact (B Hro). }
    destruct Hsh as (e & He & Hlv & Hon & Hids). clear Hs. split.
    - intros H. destruct (Hon c val H) as [(ks & k & y & Hy & Hl & _ & ->)|(Q1 & Q2 & d & EQ & Hne & Hd & H')].
      + exists (Q ++ down (ks ++ [k])). split; [left; exists ks, k, y; split; [reflexivity|]; split; [rewrite at_path_app, He; exact Hy|exact Hl]|]. rewrite down_snoc, (app_assoc Q (down ks)), ctext_key, pre_app, <- app_assoc. reflexivity.
      + destruct H' as [(-> & Hi)|(Hrid & -> & Hi)].
        * exists (Q1 ++ [(idn, None)]). split; [|symmetry; apply ctext_key]. right. exists Q1, Q2. split; [exact EQ|]. split; [exact Hne|]. split; [apply at_key; eauto|auto].
        * assert (E1 : Q1 = []) by (destruct Q1 as [|st Q1]; [reflexivity|]; pose proof (Hro (st :: Q1) d ltac:(discriminate) Hd Hrid); congruence). subst Q1.
          exists [(rid, None)]. split; [|symmetry; apply (ctext_key [])]. right. exists [], Q2. split; [exact EQ|]. split; [exact Hne|]. split; [apply (at_key _ []); eauto|auto].
    - intros (L & [(ks & k & y & -> & Hy & Hl)|(Q1 & Q2 & EQ & Hne & Ha & Hc)] & ->).
      + rewrite down_snoc, (app_assoc Q (down ks)), ctext_key, pre_app, <- app_assoc. rewrite at_path_app, He in Hy. apply (Hlv ks k y val Hy Hl). apply keeps_all. exact Hpres.
      + destruct Hids as [Hi Hr]; [rewrite EQ; destruct Q1; [destruct Q2; [congruence|discriminate]|discriminate]|]. destruct Hc as [->|(Hrid & -> & ->)].
        * apply at_key in Ha as (d & Hd & Hi'). rewrite ctext_key. exact (Hi Q1 Q2 d val EQ Hne Hd Hi').
        * apply (at_key _ []) in Ha as (d & Hd & Hi'). cbn [Paths.at_path] in Hd. injection Hd as <-. replace (ctext [(rid, None)]) with rid by (symmetry; exact (ctext_key [] rid)). exact (Hr o val eq_refl Hrid Hi').
  Qed.
  Lemma plain_keeps Q : keeps (plain_run O) Q = true.
  Proof. apply keeps_all. exact Hpres. Qed.
End Rows.
