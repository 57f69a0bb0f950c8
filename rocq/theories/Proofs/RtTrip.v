(** The round trip: in any order, and in the order of the tables. *)
From Coq Require Import Permutation Lia.
From Verif.Base Require Import PyStr PyNum PyVal PyDict Outcome.
From Verif.Model Require Import Warn Lib Convert Input Flatten.
From Verif.Spec Require Import Flat Sites Paths Headings RoundTrip Alike.
From Verif.Proofs Require Import TreeInd JvInd FlattenTrace FlattenRun FlattenPlain FlattenPaths FlattenItems FlattenMain FlattenTotal RowFin RowRead RtMerge RtRow RtLine RtDoc RtState RtOrder RtRun RtMain.
Local Open Scope res_scope.

Section Trip.
  Context {alike : jv -> cellval -> Prop}.
  Variables (O : popts) (drop : bool) (pi : list str) (P : opts) (write : scalar -> scalar) (docs : list jobj) (b : scalar).
  Notation idn := (po_id_name O).
  Notation rid := (po_root_id O).
  Hypothesis HW : whole O.
  Hypothesis HV : come alike O P write docs.
  Hypothesis Hfair : fair alike.
  Hypothesis Hb : blank b = true.
  Hypothesis HD : documents O docs.

  Theorem trip_flattens : exists s w, flatten O drop pi (map JO docs) = Ok s w.
  Proof.
    apply flatten_oks; [apply HW|apply HW| |].
    all: try apply HW.
    apply Forall_map. apply Forall_forall. intros o Ho. apply (tidy_regular O). exact (proj1 (doc_ok O docs HD o Ho)).
  Qed.

  Variables (s : pst) (w : list fwarning).
  Hypothesis HR : flatten O drop pi (map JO docs) = Ok s w.

  Theorem comes_any T sheets : Permutation (tables s) T -> Forall2 (table_shuffled write b) T sheets ->
    exists out, unflatten P sheets = Ok out [] /\ records_come alike (@Permutation jv) docs out.
  Proof.
    intros HT F. apply Permutation_sym in HT. destruct (Forall2_perm _ _ _ HT _ F) as (sheets1 & Hp & F1). unfold tables in F1. inversion F1 as [|? x1 ? xs1 Hx1 Fx1]; subst.
    destruct (table_ents O drop pi P write docs HW HV HD s w HR) as [(es1 & A1 & A2) _].
    destruct (shuffled_ents O drop pi P write docs b HW s w HR (main_table s) x1 es1 (or_introl eq_refl) A1 Hx1) as (es1' & Hpm & Hx).
    destruct (shuffled_subs O drop pi P write docs b HW HV HD s w HR (sub_tables s) xs1 (fun t Ht => Ht) Fx1) as (ess & Fs & Ft).
    assert (Fall : Forall2 (sheet_of P write (cell_of O) docs b) (x1 :: xs1) (es1' :: ess)) by (constructor; assumption).
    destruct (Forall2_perm _ _ _ (Permutation_sym Hp) _ Fall) as (esss & Hpe & Fr).
    apply (run_same alike Hfair P write (cell_of O) docs False (proj1 HV) (cell_of_value O) (docs_ok2 O P write docs HV HD) (key_unique O P write docs HV HD) _ b sheets esss Hb Fr (docs_nodup O docs HD)).
    - auto.
    - intros [].
    - intros [].
    - assert (Hin : forall e, In e (concat (es1' :: ess)) -> In e (concat esss)).
      { intros e He. apply in_concat in He as (l & Hl & He). apply in_concat. exists l. split; [eapply Permutation_in; eassumption|exact He]. }
      apply (covered_all O drop pi P docs HW HD s w HR (sub_tables s) es1 ess); auto.
      + intros e He. apply Hin. cbn [concat]. apply in_or_app. left. eapply Permutation_in; eassumption.
      + intros e He. apply Hin. cbn [concat]. apply in_or_app. right. exact He.
  Qed.

  (** the main table gives the records in order *)
  Lemma value_dec (x y : scalar) : plain_value x -> plain_value y -> x = y \/ x <> y.
  Proof.
    intros [(t & -> & _)|(z & ->)] [(t' & -> & _)|(z' & ->)]; try (right; discriminate).
    - destruct (str_eqb_spec t t') as [->|H]; [left; reflexivity|right; congruence].
    - destruct (Z.eq_dec z z') as [->|H]; [left; reflexivity|right; congruence].
  Qed.
  Lemma root_dec x y : In x docs -> In y docs -> root_key O x = root_key O y \/ root_key O x <> root_key O y.
  Proof.
    intros Hx Hy. destruct (doc_ok O docs HD x Hx) as (Tx & _ & Hrx & _). destruct (doc_ok O docs HD y Hy) as (Ty & _ & Hry & _). unfold root_key. destruct rid as [|c r] eqn:Er; [left; reflexivity|].
    destruct Hrx as (sx & Ex & Px); [discriminate|]. destruct Hry as (sy & Ey & Py); [discriminate|]. rewrite Ex, Ey.
    destruct (value_dec sx sy Px Py) as [->|H]; [left; reflexivity|right; congruence].
  Qed.
  Lemma same_root_in D y : incl D docs -> In y docs -> (forall x, In x D -> root_key O x <> root_key O y) \/ exists x, In x D /\ root_key O x = root_key O y.
  Proof.
    intros Hi Hy. induction D as [|z D IH]; [left; intros ? []|]. destruct (root_dec z y (Hi z (or_introl eq_refl)) Hy) as [E|E]; [right; exists z; split; [left; reflexivity|exact E]|].
    destruct IH as [H|(x & Hx & E')]; [intros x Hx; apply Hi; right; exact Hx| |right; exists x; split; [right; exact Hx|exact E']]. left. intros x [<-|Hx]; auto.
  Qed.
  Lemma adds_main es : forall D, roots_together O docs -> docs = D ++ map e_obj es -> adds P write D es docs.
  Proof.
    induction es as [|e es IH]; intros D Hrt E; cbn [map] in E.
    - rewrite app_nil_r in E. rewrite E. constructor.
    - pose proof (docs_nodup O docs HD) as Hn. assert (Hi : incl D docs) by (rewrite E; apply incl_appl; apply incl_refl). assert (He : In (e_obj e) docs) by (rewrite E; apply in_elt).
      apply adds_new.
      + rewrite E in Hn. apply NoDup_remove_2 in Hn. intros H. apply Hn. apply in_or_app. left. exact H.
      + destruct (same_root_in D (e_obj e) Hi He) as [H|(x & Hx & Ex)].
        * left. intros x Hx Q. apply (H x Hx). apply (root_key_rkey O P write docs HV HD); [exact (Hi x Hx)|exact He|exact Q].
        * right. destruct (exists_last (l := D)) as (D0 & z & ->); [intros ->; destruct Hx|]. exists D0, z. split; [reflexivity|].
          assert (Hz : In z docs) by (apply Hi; apply in_elt). apply (root_key_rkey O P write docs HV HD); [exact Hz|exact He|].
          apply in_app_or in Hx as [Hx|[<-|[]]]; [|exact Ex]. apply in_split in Hx as (a & b' & ->). assert (F : Forall (fun x0 => root_key O x0 = root_key O x) (b' ++ [z])).
          { apply (Hrt a x (b' ++ [z]) (e_obj e) (map e_obj es)); [rewrite E; rewrite <- !app_assoc; reflexivity|exact Ex]. }
          apply Forall_app in F as [_ F]. inversion F; subst. congruence.
      + apply IH; [exact Hrt|]. rewrite <- app_assoc. exact E.
  Qed.
  Lemma adds_known es : (forall e, In e es -> In (e_obj e) docs) -> adds P write docs es docs.
  Proof. induction es as [|e es IH]; intros H; [constructor|]. apply adds_old; [apply H; left; reflexivity|]. apply IH. intros e' He'. apply H. right. exact He'. Qed.

  Lemma concat_split {A} (ll : list (list A)) : forall m e l2, concat ll = m ++ e :: l2 -> exists la l lb u v, ll = la ++ l :: lb /\ l = u ++ e :: v /\ m = concat la ++ u.
  Proof.
    induction ll as [|l ll IH]; intros m e l2 E; cbn [concat] in E; [destruct m; discriminate|]. apply split_app in E as [(v & E1 & E2)|(m' & -> & E)].
    - exists [], l, ll, m, v. auto.
    - destruct (IH m' e l2 E) as (la & l0 & lb & u & v & -> & -> & ->). exists (l :: la), (u ++ e :: v), lb, u, v. split; [reflexivity|]. split; [reflexivity|]. cbn [concat]. apply app_assoc.
  Qed.
  (** the item [i] of an array with an item [j] *)
  Lemma earlier_item o Q1 k j Q2 i ox : In o docs -> at_path (JO o) (Q1 ++ (k, Some j) :: Q2) = Some (JO ox) -> (i < j)%nat ->
    exists y sv, it_path y = Q1 ++ [(k, Some i)] /\ it_at y = Q1 /\ it_key y = k /\ at_path (JO o) (it_path y) = Some (JO (it_obj y)) /\ In y (items_in (JO o)) /\ sget idn (it_obj y) = Some (JS sv) /\ plain_value sv.
  Proof.
    intros Ho Ha Hij. pose proof (proj1 (doc_ok O docs HD o Ho)) as Ht. apply path_x in Ha. rewrite jx_app, at_x_app in Ha. destruct (at_x (JO o) (jx Q1)) as [g|] eqn:Eg; [|discriminate].
    pose proof (tidy_at idn _ _ _ Ht Eg) as Hg. change (jx ((k, Some j) :: Q2)) with (XKey k :: XIdx j :: jx Q2) in Ha. cbn [at_x] in Ha. destruct g as [| |g]; try discriminate. destruct (sget k g) as [[|l|]|] eqn:Ek; try discriminate.
    destruct (nth_error l j) as [[| |z]|] eqn:Ej; try discriminate. assert (Hl : (j < length l)%nat) by (apply nth_error_Some; congruence).
    destruct (nth_error l i) as [y|] eqn:Ei; [|apply nth_error_None in Ei; lia].
    destruct (tidy_JO idn g Hg) as (_ & _ & Hv & _). pose proof (sget_In _ _ _ Ek) as Hin. destruct (Hv _ _ Hin) as [_ Hl']. destruct (tidy_items idn l z Hl' (nth_error_In _ _ Ej)) as (_ & Hy & _). destruct (Hy y (nth_error_In _ _ Ei)) as [_ (sv & Hsv & Hpv)].
    destruct y as [| |oi]; try discriminate. exists {| it_at := Q1; it_key := k; it_pos := i; it_obj := oi |}, sv. unfold it_path. cbn [it_at it_key it_pos it_obj].
    assert (Hat : at_path (JO o) (Q1 ++ [(k, Some i)]) = Some (JO oi)) by (rewrite at_path_app, (x_path _ _ _ Eg); cbn [at_path]; rewrite Ek, Ei; reflexivity).
    repeat (split; [first [reflexivity|exact Hat]|]). split; [|split; [exact Hsv|exact Hpv]]. apply items_all; [exact (tidy_clean O _ Ht)|exact Hat].
  Qed.

  Lemma ready subs' es1 ess : Permutation (sub_tables s) subs' -> outer_first O docs (map tb_name subs') -> main_ents docs es1 ->
    Forall2 (fun t es => tab_ents O P docs t es /\ sub_ents O docs (tb_name t) es) subs' ess ->
    forall l1 e l2, es1 ++ concat ess = l1 ++ e :: l2 -> ready_for (cell_of O) l1 e.
  Proof.
    intros Hp Hof [_ Hm] F l1 e l2 E a j b0 Ea i Hij.
    apply split_app in E as [(m & E1 & _)|(m & -> & E)].
    { rewrite (Hm e) in Ea by (rewrite E1; apply in_elt). destruct a; discriminate. }
    destruct (concat_split ess m e l2 E) as (la & es & lb & u0 & v & -> & Ees & ->).
    apply Forall2_app_inv_r in F as (ta & tb & Fa & Fb & Esub). inversion Fb as [|t ? tb' ? [Ht Hs] Fb']; subst tb. subst.
    unfold sub_ents in Hs. rewrite map_app in Hs. cbn [map] in Hs. symmetry in Hs. apply map_eq_app in Hs as (L1 & L2' & EL & HL1 & HL2). apply map_eq_cons in HL2 as ([v0 x] & L2 & -> & Ex & HL2). cbn [fst snd] in Ex. injection Ex as Ev Eat. subst v0. set (o := e_obj e) in *.
    assert (Hx : In (JO o, x) (sheet_items O (tb_name t) (map JO docs))) by (rewrite EL; apply in_elt).
    apply filter_In in Hx as [Hx En]. apply str_eqb_eq in En. apply filter_In in Hx as [Hx _]. apply in_flat_map in Hx as (v' & Hv & Q). apply in_map_iff in Q as (x' & E' & Hx). injection E' as -> ->. apply in_map_iff in Hv as (o' & Eo & Ho). injection Eo as ->.
    pose proof (items_at (JO o) (tidy_clean O _ (proj1 (doc_ok O docs HD o Ho))) x Hx) as Hatx.
    rewrite <- Eat in Ea. destruct (jx_idx _ _ _ _ Ea) as (Q1 & k & Q2 & EQ & -> & ->).
    destruct (earlier_item o Q1 k j Q2 i (it_obj x) Ho) as (y & sv & Py & Ay & Ky & Hy & Hyin & Hid & Hpv); [rewrite <- EQ; exact Hatx|exact Hij|].
    assert (Hleaf : at_x (JO o) (jx (it_path y ++ down [idn])) = Some (JS sv)).
    { rewrite jx_app, at_x_app, (path_x _ _ _ Hy). cbn [down map jx flat_map jx1 fst snd app at_x]. rewrite Hid. reflexivity. }
    assert (Epath : jx (it_path y ++ down [idn]) = (jx Q1 ++ [XKey k]) ++ XIdx i :: [XKey idn]).
    { rewrite Py, !jx_app, <- !app_assoc. reflexivity. }
    assert (Hfin : forall t' es' e', tab_ents O P docs t' es' -> In e' es' -> In e' (es1 ++ concat la ++ u0) -> e_obj e' = o -> e_at e' = jx (it_path y) ->
        exists e' r, In e' (es1 ++ concat la ++ u0) /\ e_obj e' = o /\ tells (cell_of O) e' ((jx Q1 ++ [XKey k]) ++ XIdx i :: r)).
    { intros t' es' e' Ht' Hin Hin' Eo Eat'. exists e', [XKey idn]. split; [exact Hin'|]. split; [exact Eo|]. rewrite <- Epath. rewrite <- Eo in Hleaf. exact (entry_tells O P docs HW HD t' es' e' (it_path y) [idn] (JS sv) Ht' Hin Eat' Hleaf (plain_basic _ Hpv)). }
    destruct (str_eqb_spec (tb_name t) (item_sheet O (JO o, y))) as [Esh|Esh].
    - assert (Hbf : In (JO o, y) L1).
      { pose proof (all_before docs o x y Q1 k i j Q2 (docs_nodup O docs HD) (fun d Hd => tidy_clean O _ (proj1 (doc_ok O docs HD d Hd))) Ho EQ Py Hij Hy) as B0.
        apply (before_filter (kept_item O)) in B0; [|apply keep_any; exact HW]. apply (before_filter (fun vx => str_eqb (tb_name t) (item_sheet O vx))) in B0; [|apply str_eqb_eq; exact Esh]. exact (B0 _ _ EL). }
      apply (in_map (fun vx => (fst vx, jx (it_path (snd vx))))) in Hbf. rewrite HL1 in Hbf. apply in_map_iff in Hbf as (e' & Ee & He'). cbn [fst snd] in Ee. injection Ee as Ee1 Ee2.
      apply (Hfin t (u0 ++ e :: v) e' Ht); [apply in_or_app; left; exact He'|apply in_or_app; right; apply in_or_app; right; exact He'|exact Ee1|exact Ee2].
    - destruct (item_table O drop pi docs HW HD s w HR o y Ho Hyin) as (ty & Hty & Ety). apply (Permutation_in _ Hp) in Hty.
      apply in_app_or in Hty as [Hty|[->|Hty]].
      + destruct (Forall2_in_l _ _ _ Fa ty Hty) as (es' & Hes' & A & B). rewrite Ety in B. destruct (sub_entry O docs _ es' o y B (in_sheet O docs HW o y Ho Hyin)) as (e' & He' & Eo & Eat').
        apply (Hfin ty es' e' A He'); [|exact Eo|exact Eat']. apply in_or_app. right. apply in_or_app. left. apply in_concat. exists es'. auto.
      + congruence.
      + exfalso. apply in_split in Hty as (b1 & b2 & ->).
        assert (HX : exists X, In X (items_in (JO o)) /\ it_path X = Q1 ++ [(k, Some j)] /\ item_sheet O (JO o, X) = item_sheet O (JO o, y)).
        { rewrite EQ in Hatx. change (Q1 ++ (k, Some j) :: Q2) with (Q1 ++ [(k, Some j)] ++ Q2) in Hatx. rewrite app_assoc, at_path_app in Hatx. destruct (at_path (JO o) (Q1 ++ [(k, Some j)])) as [z|] eqn:Ez; [|discriminate].
          assert (Hz : exists dz, z = JO dz).
          { destruct Q2 as [|[k2 o2] Q2]; cbn [at_path] in Hatx; [injection Hatx as ->; eauto|]. destruct z; [discriminate|discriminate|eauto]. }
          destruct Hz as (dz & ->). exists {| it_at := Q1; it_key := k; it_pos := j; it_obj := dz |}. split; [apply items_all; [exact (tidy_clean O _ (proj1 (doc_ok O docs HD o Ho)))|exact Ez]|].
          split; [reflexivity|]. unfold item_sheet. cbn [snd it_at it_key]. rewrite Ay, Ky. reflexivity. }
        destruct HX as (X & HXin & PX & SX). apply (Hof o X x Q2 Ho HXin Hx) with (a := map tb_name ta) (b := map tb_name b1) (c := map tb_name b2).
        * rewrite PX, EQ, <- app_assoc. reflexivity.
        * rewrite !map_app. cbn [map]. rewrite map_app. cbn [map]. rewrite <- En, SX, Ety. reflexivity.
  Qed.

  Theorem comes_ordered subs' sheets : Permutation (sub_tables s) subs' -> Forall2 (table_shown write b) (main_table s :: subs') sheets ->
    outer_first O docs (map tb_name subs') -> roots_together O docs ->
    exists out, unflatten P sheets = Ok out [] /\ records_come alike eq docs out.
  Proof.
    intros Hp F Hof Hrt. inversion F as [|? x1 ? xs1 Hx1 Fx1]; subst.
    destruct (table_ents O drop pi P write docs HW HV HD s w HR) as [(es1 & A1 & A2) _].
    pose proof (ordered_ents O drop pi P write docs b HW s w HR (main_table s) x1 es1 (or_introl eq_refl) A1 Hx1) as Hx.
    destruct (ordered_subs O drop pi P write docs b HW HV HD s w HR subs' xs1) as (ess & Fs & Ft); [intros t Ht; eapply Permutation_in; [apply Permutation_sym; exact Hp|exact Ht]|exact Fx1|].
    assert (Fall : Forall2 (sheet_of P write (cell_of O) docs b) (x1 :: xs1) (es1 :: ess)) by (constructor; assumption).
    apply (run_same alike Hfair P write (cell_of O) docs True (proj1 HV) (cell_of_value O) (docs_ok2 O P write docs HV HD) (key_unique O P write docs HV HD) _ b (x1 :: xs1) (es1 :: ess) Hb Fall (docs_nodup O docs HD)).
    - intros l l' _ H. exact (H I).
    - intros _ l1 e l2 E. cbn [concat] in E. exact (ready subs' es1 ess Hp Hof A2 Ft l1 e l2 E).
    - intros _. cbn [concat]. apply adds_app. exists docs. split; [apply adds_main; [exact Hrt|rewrite (proj1 A2); reflexivity]|].
      apply adds_known. intros e He. apply in_concat in He as (es & Hes & He). destruct (Forall2_in_r _ _ _ Ft es Hes) as (t & _ & (_ & Hg & _) & _). rewrite Forall_forall in Hg. exact (proj1 (Hg e He)).
    - apply (covered_all O drop pi P docs HW HD s w HR subs' es1 ess); auto.
      + intros t Ht. eapply Permutation_in; eassumption.
      + intros e He. cbn [concat]. apply in_or_app. left. exact He.
      + clear - Ft. induction Ft as [|t es T ess [A B] F IH]; constructor; [exists es; auto|exact IH].
      + intros e He. cbn [concat]. apply in_or_app. right. exact He.
  Qed.
End Trip.

(** *** Values that are the same *)
Lemma comes_same (arranged : list jv -> list jv -> Prop) n : forall x, comes same_leaf arranged x n -> same arranged x n.
Proof.
  assert (D : forall d, Pvd (fun n => forall x, comes same_leaf arranged x n -> same arranged x n) d -> forall x, comes same_leaf arranged x (VDict d) -> same arranged x (VDict d)).
  { intros d IH x H. inversion H as [|o e Hn Hk Hc|]; subst. apply same_object; [exact Hn|exact Hk|]. intros k x n0 Hx Hg. pose proof (sget_In _ _ _ Hg) as Hin. unfold Pvd in IH. rewrite Forall_forall in IH. exact (IH _ Hin x (Hc k x n0 Hx Hg)). }
  induction n as [c|d IH|l IH] using vnode_ind'; intros x H.
  - inversion H as [y v Hy| |]; subst. apply same_value_leaf. exact Hy.
  - exact (D d IH x H).
  - inversion H as [| |l0 l1 m Ha F]; subst. apply (same_array arranged l0 l1); [exact Ha|]. clear -F IH D. induction F as [|x d l1 m Hx F IHF]; [constructor|]. inversion IH as [|? ? H1 H2]; subst. constructor; [exact (D d H1 x Hx)|exact (IHF H2)].
Qed.
Theorem trip_any O drop pi P write docs b : whole O -> survive O P write docs -> blank b = true -> documents O docs -> forall s w, flatten O drop pi (map JO docs) = Ok s w ->
  forall T sheets, Permutation (tables s) T -> Forall2 (table_shuffled write b) T sheets ->
    exists out, unflatten P sheets = Ok out [] /\ same_records (@Permutation jv) docs out.
Proof.
  intros HW HV Hb HD s w HR T sheets HT F. destruct (comes_any O drop pi P write docs b HW HV same_leaf_fair Hb HD s w HR T sheets HT F) as (out & A & B). exists out. split; [exact A|]. exact (comes_same _ _ _ B).
Qed.
Theorem trip_ordered O drop pi P write docs b : whole O -> survive O P write docs -> blank b = true -> documents O docs -> forall s w, flatten O drop pi (map JO docs) = Ok s w ->
  forall subs' sheets, Permutation (sub_tables s) subs' -> Forall2 (table_shown write b) (main_table s :: subs') sheets ->
    outer_first O docs (map tb_name subs') -> roots_together O docs ->
    exists out, unflatten P sheets = Ok out [] /\ same_records eq docs out.
Proof.
  intros HW HV Hb HD s w HR T sheets HT F H1 H2. destruct (comes_ordered O drop pi P write docs b HW HV same_leaf_fair Hb HD s w HR T sheets HT F H1 H2) as (out & A & B). exists out. split; [exact A|]. exact (comes_same _ _ _ B).
Qed.
