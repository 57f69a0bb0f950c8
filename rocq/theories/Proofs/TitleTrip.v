(** The sheets of a run with titles, unflattened with the same schema, give the
    documents. *)
From Coq Require Import Permutation Lia ZArith.
From Verif.Base Require Import PyStr PyNum PyVal PyDict Outcome.
From Verif.Model Require Import Warn Lib Convert Input Readers Flatten Titles TitleLines Schema.
From Verif.Spec Require Import Flat Sites Paths Headings SchemaFields SchemaLines SchemaTitled Titled RoundTrip TitledTrip Filled Positions.
From Verif.Proofs Require RowRead RowFin.
From Verif.Proofs Require Import Erase EraseRun PositionFacts JvInd FlattenTrace FlattenRows FlattenRun FlattenPlain FlattenPaths FlattenItems FlattenTitled TitledItems TitledUsed RtMerge RtRow RtLine RtDoc RtState RtOrder RtRun RtMain RtTrip TripLines TitleChain TitlePlaces TitleRows TitleBack TitleSheets.

Lemma only_headings l : flat_map unheaded l = [] -> Forall about_headings l.
Proof. induction l as [|x l IH]; intros H; [constructor|]. cbn [flat_map] in H. apply app_eq_nil in H as [A B]. constructor; [destruct x; try discriminate A; exact I|apply IH; exact B]. Qed.

Section TTrip.
  Variables (SO : sopts) (S : sv) (O : popts) (drop : bool) (pi : list str) (docs : list jobj) (s : pst) (w : list fwarning) (P : opts) (T : Titles.table) (write : scalar -> scalar) (b : scalar).
  Notation idn := (po_id_name O).
  Notation rid := (po_root_id O).
  Notation O0 := (plain_run O).
  Hypothesis HT : titled_by SO S O.
  Hypothesis HJ : json_run O.
  Hypothesis Hord : forall l, Permutation l (po_set_order O l).
  Hypothesis Hroll : po_rollup O = [].
  Hypothesis Hfilt : po_filter O = None.
  Hypothesis Hpres : po_preserve O = [].
  Hypothesis Owr : own_words SO S rid.
  Hypothesis Owi : own_words SO S idn.
  Hypothesis HR : readable_titles SO S.
  Hypothesis HA : all_titled SO S docs.
  Hypothesis HD : documents O docs.
  Hypothesis HS : reads_schema SO S P T.
  Hypothesis HV : survive O P write docs.
  Hypothesis Hb : blank b = true.
  Hypothesis HF : flatten O drop pi (map JO docs) = Ok s w.
  Notation row_ok := (row_ok SO S O docs P).
  Notation conv := (conv SO T).

  Definition main_es (es : list ent) : Prop := Forall2 row_ok (tb_rows (main_table s)) es /\ map place_of es = map (fun o => (JO o, [])) docs.
  Definition sub_es (t : Flatten.table) (es : list ent) : Prop :=
    Forall2 row_ok (tb_rows t) es /\ map place_of es = map (fun vx => (fst vx, jx (it_path (snd vx)))) (items_on O (tb_name t) (map JO docs)).
  Lemma main_es_ex : exists es, main_es es.
  Proof. exact (main_rows SO S O drop pi docs s w P T write HT HJ Hord Hroll Hfilt Hpres HR HA HD HS HV HF). Qed.
  Lemma sub_es_ex t : In t (sub_tables s) -> exists es, sub_es t es.
  Proof. exact (sub_rows SO S O drop pi docs s w P T write HT HJ Hroll Hfilt Hpres Owr Owi HR HA HD HS HV HF t). Qed.

  Definition virt (y : sheet_in) (p : sheet_in * list ent) : Prop :=
    RtRun.sheet_of P write (cell_of O0) docs b (fst p) (snd p) /\ Filled.fits (fst p) /\ Filled.fits (conv y) /\ Forall2 (same_but_positions P) (filled_rows P (fst p)) (filled_rows P (conv y)).
  Lemma virtual t rows es y : In t (tables s) -> Permutation (tb_rows t) rows -> Forall2 row_ok rows es -> reads_headings t y -> si_lines y = map (table_line write b (tb_header t)) rows -> exists x, virt y (x, es).
  Proof. exact (sheet_virtual SO S O drop pi docs s w P T write b HT HJ Hord Hroll Hfilt Hpres Owr Owi HR HA HD HS HV Hb HF t rows es y). Qed.
  Lemma virtual_shuffled t es0 y : In t (tables s) -> Forall2 row_ok (tb_rows t) es0 -> table_shuffled write b t y -> exists x es, Permutation es0 es /\ virt y (x, es).
  Proof.
    intros Ht F [Hh Hl]. apply Permutation_sym in Hl. apply Permutation_map_inv in Hl as (rows & El & Hp). destruct (Forall2_perm _ _ _ Hp _ F) as (es & Hpe & Fe). destruct (virtual t rows es y Ht Hp Fe Hh El) as (x & Hx). exists x, es. auto.
  Qed.
  Lemma virtual_shown t es y : In t (tables s) -> Forall2 row_ok (tb_rows t) es -> table_shown write b t y -> exists x, virt y (x, es).
  Proof. intros Ht F [Hh Hl]. exact (virtual t _ es y Ht (Permutation_refl _) F Hh Hl). Qed.

  (** ** from the sheets without titles to those with titles *)
  Lemma finish (ord : Prop) (arranged : list jv -> list jv -> Prop) sheets ps : Forall2 virt sheets ps ->
    (forall l l', Permutation l l' -> (ord -> l = l') -> arranged l l') ->
    (ord -> forall es1 e es2, concat (map snd ps) = es1 ++ e :: es2 -> ready_for (cell_of O0) es1 e) ->
    (ord -> adds P write [] (concat (map snd ps)) docs) ->
    (forall o q y, In o docs -> at_x (JO o) q = Some y -> RoundTrip.leaf y -> exists e, In e (concat (map snd ps)) /\ e_obj e = o /\ RtRun.tells (cell_of O0) e q) ->
    exists out w', unflatten_titled (so_lower SO) P (Some T) sheets = Ok out w' /\ flat_map unheaded w' = [] /\ same_records arranged docs out.
  Proof.
    intros F Harr Hrd Had Hcov.
    assert (Fx : Forall2 (RtRun.sheet_of P write (cell_of O0) docs b) (map fst ps) (map snd ps)) by (clear - F; induction F as [|y [x es] ys ps (A & _) F IH]; cbn [map]; constructor; assumption).
    destruct (run_same same_leaf same_leaf_fair P write (cell_of O0) docs ord (proj1 HV) (cell_of_value O0) (docs_ok2 O P write docs HV HD) (key_unique O P write docs HV HD) arranged b _ _ Hb Fx (docs_nodup O docs HD) Harr Hrd Had Hcov) as (out & E & Hsame).
    assert (Ex : o_xml P = false) by (pose proof HV as (Q & _); apply Q).
    assert (Hs : seen_as unheaded (unflatten P (map fst ps)) = seen_as unheaded (unflatten P (map conv sheets))).
    { apply (positions_only_separate P Ex).
      - clear - F. induction F as [|y [x es] ys ps (_ & A & _) F IH]; cbn [map]; constructor; assumption.
      - clear - F. induction F as [|y [x es] ys ps (_ & _ & A & _) F IH]; cbn [map]; constructor; assumption.
      - clear - F. induction F as [|y [x es] ys ps (_ & _ & _ & A) F IH]; cbn [map flat_map]; [constructor|]. apply Forall2_app; assumption. }
    rewrite E in Hs. cbn [seen_as flat_map] in Hs. destruct (unflatten P (map conv sheets)) as [out' w'|e w'] eqn:E'; cbn [seen_as] in Hs; [|discriminate]. injection Hs as <- Hw. exists out, w'. split; [|split; [symmetry; exact Hw|exact (comes_same _ _ _ Hsame)]].
    unfold unflatten_titled, convert_sheets. rewrite bind_ret_l. exact E'.
  Qed.

  (** ** the rows of items *)
  Lemma entry_tells' r e Q ks v : row_ok r e -> e_at e = jx Q -> at_x (JO (e_obj e)) (jx (Q ++ down ks)) = Some v -> RoundTrip.leaf v -> RtRun.tells (cell_of O0) e (jx (Q ++ down ks)).
  Proof.
    intros (Ho & Q' & EQ' & Hsh & _) EQ Ha Hlf. assert (E : Q' = Q) by (apply jx_inj; congruence). subst Q'.
    destruct (shown_row O0 Hpres (e_obj e) Q (e_row e) (doc_ok O docs HD _ Ho) Hsh) as (_ & _ & _ & Hl). destruct (Hl ks v Ha Hlf) as [A B]. split; [rewrite EQ'; exact B|]. exists v. auto.
  Qed.
  Lemma place_entry es o q (l : list (jv * xpath)) : map place_of es = l -> In (JO o, q) l -> exists e, In e es /\ e_obj e = o /\ e_at e = q.
  Proof. intros <- H. apply in_map_iff in H as (e & E & He). unfold place_of in E. injection E as E1 E2. exists e. auto. Qed.
  Lemma keep_all x : keeps O (it_path x) = true.
  Proof. apply keeps_all. exact Hpres. Qed.
  Lemma on_sheet o x : In o docs -> In x (items_in (JO o)) -> In (JO o, x) (items_on O (array_sheet O (it_at x) (it_key x)) (map JO docs)).
  Proof.
    intros Ho Hx. apply filter_In. split; [|apply str_eqb_refl]. apply filter_In. split; [|exact (keep_all x)]. apply in_flat_map. exists (JO o). split; [apply in_map; exact Ho|]. apply in_map. exact Hx.
  Qed.
  Lemma item_table' o x : In o docs -> In x (items_in (JO o)) -> exists t, In t (sub_tables s) /\ tb_name t = array_sheet O (it_at x) (it_key x).
  Proof.
    intros Ho Hx. pose proof (on_sheet o x Ho Hx) as Hin.
    destruct (chosen_names O drop pi HJ _ s w HF (nfree SO S O s HT) (docs_clean O docs HD) (array_sheet O (it_at x) (it_key x))) as [_ A]. rewrite (chosen_all O docs Hfilt) in A.
    destruct (in_map_iff tb_name (sub_tables s) (array_sheet O (it_at x) (it_key x))) as [B _]. destruct B as (t & E & Ht); [apply A; intros Q; rewrite Q in Hin; destruct Hin|]. eauto.
  Qed.
  Lemma row_of_ent rows es e : Forall2 row_ok rows es -> In e es -> exists r, row_ok r e.
  Proof. intros F He. destruct (RowFin.Forall2_in_r _ _ _ F e He) as (r & _ & Hr). eauto. Qed.
  Lemma covered' Ts es1 ess all : (forall t, In t (sub_tables s) -> In t Ts) -> main_es es1 -> (forall e, In e es1 -> In e all) ->
    Forall2 (fun t es => exists es0, sub_es t es0 /\ Permutation es0 es) Ts ess -> (forall e, In e (concat ess) -> In e all) ->
    forall o q v, In o docs -> at_x (JO o) q = Some v -> RoundTrip.leaf v -> exists e, In e all /\ e_obj e = o /\ RtRun.tells (cell_of O0) e q.
  Proof.
    intros HTs [Hm1 Hm2] Ha1 F Ha2 o q v Ho Hq Hlf. destruct (leaf_somewhere O o q v (proj1 (doc_ok O docs HD o Ho)) Hq Hlf) as (Q & ks & -> & HQ).
    assert (G : exists r e, row_ok r e /\ In e all /\ e_obj e = o /\ e_at e = jx Q).
    { destruct HQ as [-> |(x & -> & Hx & _)].
      - destruct (place_entry es1 o [] _ Hm2) as (e & He & Eo & Ea); [apply in_map_iff; exists o; auto|]. destruct (row_of_ent _ _ e Hm1 He) as (r & Hr). exists r, e. auto.
      - destruct (item_table' o x Ho Hx) as (t & Ht & En). destruct (RowRead.Forall2_in_l _ _ _ F t (HTs t Ht)) as (es & Hes & es0 & [A B] & HPm).
        rewrite En in B. destruct (place_entry es0 o (jx (it_path x)) _ B) as (e & He & Eo & Ea); [apply in_map_iff; exists (JO o, x); split; [reflexivity|exact (on_sheet o x Ho Hx)]|].
        destruct (row_of_ent _ _ e A He) as (r & Hr). exists r, e. split; [exact Hr|]. split; [|auto]. apply Ha2. apply in_concat. exists es. split; [exact Hes|]. eapply Permutation_in; eassumption. }
    destruct G as (r & e & A & Hall & Eo & Ea). exists e. split; [exact Hall|]. split; [exact Eo|]. rewrite <- Eo in Hq. exact (entry_tells' r e Q ks v A Ea Hq Hlf).
  Qed.

  Theorem titled_any Ts sheets : Permutation (tables s) Ts -> Forall2 (table_shuffled write b) Ts sheets ->
    exists out w', unflatten_titled (so_lower SO) P (Some T) sheets = Ok out w' /\ flat_map unheaded w' = [] /\ same_records (@Permutation jv) docs out.
  Proof.
    intros HTs F. apply Permutation_sym in HTs. destruct (Forall2_perm _ _ _ HTs _ F) as (sheets1 & Hp & F1). unfold tables in F1. inversion F1 as [|? y1 ? ys1 Hy1 Fy1]; subst.
    destruct main_es_ex as (es1 & Hm). destruct (virtual_shuffled (main_table s) es1 y1 (or_introl eq_refl) (proj1 Hm) Hy1) as (x1 & es1' & Hp1 & Hx1).
    assert (Hsubs : forall l ys, (forall t, In t l -> In t (sub_tables s)) -> Forall2 (table_shuffled write b) l ys ->
        exists ps, Forall2 virt ys ps /\ Forall2 (fun t es => exists es0, sub_es t es0 /\ Permutation es0 es) l (map snd ps)).
    { intros l ys Hin Fl. induction Fl as [|t y l ys H Fl IH]; [exists []; split; constructor|].
      destruct IH as (ps & A & B); [intros t' Ht'; apply Hin; right; exact Ht'|]. pose proof (Hin t (or_introl eq_refl)) as Ht. destruct (sub_es_ex t Ht) as (es0 & Hes). destruct (virtual_shuffled t es0 y (or_intror Ht) (proj1 Hes) H) as (x & es & Hpe & Hx).
      exists ((x, es) :: ps). split; [constructor; assumption|]. cbn [map snd]. constructor; [eauto|exact B]. }
    destruct (Hsubs _ _ (fun t Ht => Ht) Fy1) as (ps & Fps & Fss). assert (Fall : Forall2 virt (y1 :: ys1) ((x1, es1') :: ps)) by (constructor; assumption).
    destruct (Forall2_perm _ _ _ (Permutation_sym Hp) _ Fall) as (pss & Hpe & Fr).
    apply (finish False _ sheets pss Fr); [auto|intros []|intros []|].
    assert (Hin : forall e, In e (concat (map snd ((x1, es1') :: ps))) -> In e (concat (map snd pss))).
    { intros e He. apply in_concat in He as (l & Hl & He). apply in_concat. exists l. split; [|exact He]. eapply Permutation_in; [apply Permutation_map; exact Hpe|exact Hl]. }
    apply (covered' (sub_tables s) es1 (map snd ps)); auto.
    - intros e He. apply Hin. cbn [map snd concat]. apply in_or_app. left. eapply Permutation_in; eassumption.
    - intros e He. apply Hin. cbn [map snd concat]. apply in_or_app. right. exact He.
  Qed.

  (** ** in order *)
  Lemma ready' subs' es1 ess : Permutation (sub_tables s) subs' -> outer_sheets_first O docs (map tb_name subs') -> main_es es1 -> Forall2 sub_es subs' ess ->
    forall l1 e l2, es1 ++ concat ess = l1 ++ e :: l2 -> ready_for (cell_of O0) l1 e.
  Proof.
    intros Hp Hof [_ Hm] F l1 e l2 E a j b0 Ea i Hij.
    apply split_app in E as [(m & E1 & _)|(m & -> & E)].
    { assert (Hin : In (place_of e) (map place_of es1)) by (apply in_map; rewrite E1; apply in_elt). rewrite Hm in Hin. apply in_map_iff in Hin as (o & Eo & _). unfold place_of in Eo. injection Eo as _ Eo. rewrite <- Eo in Ea. destruct a; discriminate. }
    destruct (concat_split ess m e l2 E) as (la & es & lb & u0 & v & -> & Ees & ->).
    apply Forall2_app_inv_r in F as (ta & tb & Fa & Fb & Esub). inversion Fb as [|t ? tb' ? [Ht Hs] Fb']; subst tb. subst.
    rewrite map_app in Hs. cbn [map] in Hs. symmetry in Hs. apply map_eq_app in Hs as (L1 & L2' & EL & HL1 & HL2). apply map_eq_cons in HL2 as ([v0 x] & L2 & -> & Ex & HL2). unfold place_of in Ex. cbn [fst snd] in Ex. injection Ex as Ev Eat. subst v0. set (o := e_obj e) in *.
    assert (Hx : In (JO o, x) (items_on O (tb_name t) (map JO docs))) by (rewrite EL; apply in_elt).
    destruct (on_sheet_in O docs _ _ _ Hx) as (o' & Eo & Ho & Hxin & En). injection Eo as <-. clear Hx. rename Hxin into Hx.
    pose proof (items_at (JO o) (tidy_clean O _ (proj1 (doc_ok O docs HD o Ho))) x Hx) as Hatx.
    rewrite <- Eat in Ea. destruct (jx_idx _ _ _ _ Ea) as (Q1 & k & Q2 & EQ & -> & ->).
    destruct (earlier_item O docs HD o Q1 k j Q2 i (it_obj x) Ho) as (y & sv & Py & Ay & Ky & Hy & Hyin & Hid & Hpv); [rewrite <- EQ; exact Hatx|exact Hij|].
    assert (Hleaf : at_x (JO o) (jx (it_path y ++ down [idn])) = Some (JS sv)).
    { rewrite jx_app, at_x_app, (path_x _ _ _ Hy). cbn [down map jx flat_map jx1 fst snd app at_x]. rewrite Hid. reflexivity. }
    assert (Epath : jx (it_path y ++ down [idn]) = (jx Q1 ++ [XKey k]) ++ XIdx i :: [XKey idn]).
    { rewrite Py, !jx_app, <- !app_assoc. reflexivity. }
    assert (Hfin : forall rows es' e', Forall2 row_ok rows es' -> In e' es' -> In e' (es1 ++ concat la ++ u0) -> e_obj e' = o -> e_at e' = jx (it_path y) ->
        exists e' r, In e' (es1 ++ concat la ++ u0) /\ e_obj e' = o /\ RtRun.tells (cell_of O0) e' ((jx Q1 ++ [XKey k]) ++ XIdx i :: r)).
    { intros rows es' e' Ht' Hin Hin' Eo' Eat'. exists e', [XKey idn]. split; [exact Hin'|]. split; [exact Eo'|]. rewrite <- Epath. rewrite <- Eo' in Hleaf. destruct (row_of_ent _ _ e' Ht' Hin) as (r' & Hr').
      exact (entry_tells' r' e' (it_path y) [idn] (JS sv) Hr' Eat' Hleaf (plain_basic _ Hpv)). }
    destruct (str_eqb_spec (tb_name t) (array_sheet O (it_at y) (it_key y))) as [Esh|Esh].
    - assert (Hbf : In (JO o, y) L1).
      { pose proof (all_before docs o x y Q1 k i j Q2 (docs_nodup O docs HD) (fun d Hd => tidy_clean O _ (proj1 (doc_ok O docs HD d Hd))) Ho EQ Py Hij Hy) as B0.
        apply (before_filter (fun vx => keeps O (it_path (snd vx)))) in B0; [|exact (keep_all y)]. apply (before_filter (fun vx => str_eqb (tb_name t) (array_sheet O (it_at (snd vx)) (it_key (snd vx))))) in B0; [|apply str_eqb_eq; exact Esh]. exact (B0 _ _ EL). }
      apply (in_map (fun vx => (fst vx, jx (it_path (snd vx))))) in Hbf. rewrite HL1 in Hbf. apply in_map_iff in Hbf as (e' & Ee & He'). unfold place_of in Ee. cbn [fst snd] in Ee. injection Ee as Ee1 Ee2.
      apply (Hfin _ (u0 ++ e :: v) e' Ht); [apply in_or_app; left; exact He'|apply in_or_app; right; apply in_or_app; right; exact He'|exact Ee1|exact Ee2].
    - destruct (item_table' o y Ho Hyin) as (ty & Hty & Ety). apply (Permutation_in _ Hp) in Hty.
      apply in_app_or in Hty as [Hty|[->|Hty]].
      + destruct (RowRead.Forall2_in_l _ _ _ Fa ty Hty) as (es' & Hes' & A & B). rewrite Ety in B. destruct (place_entry es' o (jx (it_path y)) _ B) as (e' & He' & Eo' & Eat'); [apply in_map_iff; exists (JO o, y); split; [reflexivity|exact (on_sheet o y Ho Hyin)]|].
        apply (Hfin _ es' e' A He'); [|exact Eo'|exact Eat']. apply in_or_app. right. apply in_or_app. left. apply in_concat. exists es'. auto.
      + congruence.
      + exfalso. apply in_split in Hty as (b1 & b2 & ->).
        assert (HX : exists X, In X (items_in (JO o)) /\ it_path X = Q1 ++ [(k, Some j)] /\ array_sheet O (it_at X) (it_key X) = array_sheet O (it_at y) (it_key y)).
        { rewrite EQ in Hatx. change (Q1 ++ (k, Some j) :: Q2) with (Q1 ++ [(k, Some j)] ++ Q2) in Hatx. rewrite app_assoc, at_path_app in Hatx. destruct (Paths.at_path (JO o) (Q1 ++ [(k, Some j)])) as [z|] eqn:Ez; [|discriminate].
          assert (Hz : exists dz, z = JO dz).
          { destruct Q2 as [|[k2 o2] Q2]; cbn [Paths.at_path] in Hatx; [injection Hatx as ->; eauto|]. destruct z; [discriminate|discriminate|eauto]. }
          destruct Hz as (dz & ->). exists {| it_at := Q1; it_key := k; it_pos := j; it_obj := dz |}. split; [apply items_all; [exact (tidy_clean O _ (proj1 (doc_ok O docs HD o Ho)))|exact Ez]|].
          split; [reflexivity|]. cbn [it_at it_key]. rewrite Ay, Ky. reflexivity. }
        destruct HX as (X & HXin & PX & SX). apply (Hof o X x Q2 Ho HXin Hx) with (a := map tb_name ta) (b := map tb_name b1) (c := map tb_name b2).
        * rewrite PX, EQ, <- app_assoc. reflexivity.
        * rewrite !map_app. cbn [map]. rewrite map_app. cbn [map]. rewrite <- En, SX, Ety. reflexivity.
  Qed.

  Theorem titled_ordered subs' sheets : Permutation (sub_tables s) subs' -> Forall2 (table_shown write b) (main_table s :: subs') sheets ->
    outer_sheets_first O docs (map tb_name subs') -> roots_together O docs ->
    exists out w', unflatten_titled (so_lower SO) P (Some T) sheets = Ok out w' /\ flat_map unheaded w' = [] /\ same_records eq docs out.
  Proof.
    intros Hp F Hof Hrt. inversion F as [|? y1 ? ys1 Hy1 Fy1]; subst.
    destruct main_es_ex as (es1 & Hm). destruct (virtual_shown (main_table s) es1 y1 (or_introl eq_refl) (proj1 Hm) Hy1) as (x1 & Hx1).
    assert (Hsubs : forall l ys, (forall t, In t l -> In t (sub_tables s)) -> Forall2 (table_shown write b) l ys -> exists ps, Forall2 virt ys ps /\ Forall2 sub_es l (map snd ps)).
    { intros l ys Hin Fl. induction Fl as [|t y l ys H Fl IH]; [exists []; split; constructor|].
      destruct IH as (ps & A & B); [intros t' Ht'; apply Hin; right; exact Ht'|]. pose proof (Hin t (or_introl eq_refl)) as Ht. destruct (sub_es_ex t Ht) as (es0 & Hes). destruct (virtual_shown t es0 y (or_intror Ht) (proj1 Hes) H) as (x & Hx).
      exists ((x, es0) :: ps). split; [constructor; assumption|]. cbn [map snd]. constructor; [exact Hes|exact B]. }
    destruct (Hsubs subs' ys1) as (ps & Fps & Fss); [intros t Ht; eapply Permutation_in; [apply Permutation_sym; exact Hp|exact Ht]|exact Fy1|].
    apply (finish True _ (y1 :: ys1) ((x1, es1) :: ps)); [constructor; assumption|intros l l' _ H; exact (H I)| | |].
    - intros _ l1 e l2 E. cbn [map snd concat] in E. exact (ready' subs' es1 (map snd ps) Hp Hof Hm Fss l1 e l2 E).
    - intros _. cbn [map snd concat]. apply adds_app. exists docs.
      assert (Eo : map e_obj es1 = docs). { pose proof (proj2 Hm) as Q. apply (f_equal (map (fun p => match fst p with JO o => o | _ => [] end))) in Q. rewrite !map_map in Q. unfold place_of in Q. cbn [fst] in Q. etransitivity; [exact Q|apply map_id]. }
      split; [apply (adds_main O drop pi P write docs HV HD s w HF); [exact Hrt|rewrite Eo; reflexivity]|].
      apply (adds_known P write docs). intros e He. apply in_concat in He as (es & Hes & He). destruct (RowFin.Forall2_in_r _ _ _ Fss es Hes) as (t & _ & (Hr & _)). destruct (row_of_ent _ _ e Hr He) as (r & Ho & _). exact Ho.
    - apply (covered' subs' es1 (map snd ps)); auto.
      + intros t Ht. eapply Permutation_in; eassumption.
      + intros e He. cbn [map snd concat]. apply in_or_app. left. exact He.
      + clear - Fss. revert Fss. generalize (map snd ps). intros ess F. induction F as [|t es l ess A F IH]; constructor; [exists es; auto|exact IH].
      + intros e He. cbn [map snd concat]. apply in_or_app. right. exact He.
  Qed.
End TTrip.
