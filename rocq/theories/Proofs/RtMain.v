(** The round trip: flattening, then unflattening. *)
From Coq Require Import Permutation Lia.
From Verif.Base Require Import PyStr PyNum PyVal PyDict Outcome.
From Verif.Model Require Import Warn Lib Convert Input Flatten.
From Verif.Spec Require Import Flat Sites Paths Headings RoundTrip Alike.
From Verif.Proofs Require Import JvInd FlattenTrace FlattenRun FlattenPlain FlattenPaths FlattenItems FlattenMain FlattenTotal RowFin RowRead RtMerge RtRow RtLine RtDoc RtState RtOrder RtRun.
Local Open Scope res_scope.

Lemma Forall2_perm {A B} (R : A -> B -> Prop) l l' : Permutation l l' -> forall m, Forall2 R l m -> exists m', Permutation m m' /\ Forall2 R l' m'.
Proof.
  induction 1 as [|a l l' HP IH|a c l|l l' l'' _ IH1 _ IH2]; intros m F.
  - inversion F; subst. exists []. auto.
  - inversion F as [|? y ? m0 Hy F0]; subst. destruct (IH _ F0) as (m' & A1 & A2). exists (y :: m'). auto.
  - inversion F as [|? y ? m0 Hy F0]; subst. inversion F0 as [|? z ? m1 Hz F1]; subst. exists (z :: y :: m1). split; [apply perm_swap|auto].
  - destruct (IH1 _ F) as (m' & A1 & A2). destruct (IH2 _ A2) as (m'' & B1 & B2). exists m''. split; [eapply Permutation_trans; eassumption|exact B2].
Qed.

Section Main.
  Context {alike : jv -> cellval -> Prop}.
  Variables (O : popts) (drop : bool) (pi : list str) (P : opts) (write : scalar -> scalar) (docs : list jobj) (b : scalar).
  Notation idn := (po_id_name O).
  Notation rid := (po_root_id O).
  Hypothesis HW : whole O.
  Hypothesis HV : come alike O P write docs.
  Lemma Hidn : o_id_name P = idn.
  Proof. apply HV. Qed.
  Lemma Hrid : o_root_id P = rid.
  Proof. apply HV. Qed.
  Hypothesis Hb : blank b = true.
  Hypothesis HD : documents O docs.

  Lemma doc_ok o : In o docs -> record_ok O o.
  Proof. intros H. destruct HD as (_ & _ & F & _). rewrite Forall_forall in F. exact (F o H). Qed.
  Lemma docs_clean : Forall clean (map JO docs).
  Proof. apply Forall_map. apply Forall_forall. intros o Ho. apply (tidy_clean O). apply (doc_ok o Ho). Qed.
  Lemma docs_nodup : NoDup docs.
  Proof. destruct HD as (_ & _ & _ & H). apply NoDup_map_inv in H. exact H. Qed.
  Lemma records_docs : records (chosen O (map JO docs)) = docs.
  Proof.
    destruct HW as (_ & _ & HF & _). unfold chosen. rewrite HF. unfold records. clear. induction docs as [|d ds IH]; [reflexivity|]. cbn [map flat_map app]. f_equal. exact IH.
  Qed.
  Lemma chosen_docs : chosen O (map JO docs) = map JO docs.
  Proof. destruct HW as (_ & _ & HF & _). unfold chosen. rewrite HF. reflexivity. Qed.
  Lemma root_key_rkey x y : In x docs -> In y docs -> root_key O x = root_key O y <-> rkey P write x = rkey P write y.
  Proof.
    intros Hx Hy. destruct (doc_ok x Hx) as (_ & _ & Hrx & _). destruct (doc_ok y Hy) as (_ & _ & Hry & _).
    destruct HV as (_ & _ & _ & _ & Hw). pose proof (fun s t => Hw x y s t Hx Hy) as Hw'. unfold root_key, rkey in *. rewrite Hrid. destruct rid as [|c r] eqn:Er; [tauto|].
    destruct Hrx as (s & Hs & _); [discriminate|]. destruct Hry as (s' & Hs' & _); [discriminate|]. destruct (Hw' s s' Hs Hs') as [_ Hinj]. rewrite Hs, Hs'. cbn [sval]. split; [congruence|].
    intros E. apply Hinj in E. congruence.
  Qed.
  Lemma docs_ok2 o : In o docs -> tidy (o_id_name P) (JO o) /\ has_value (sget (o_id_name P) o) /\ (o_root_id P <> [] -> has_value (sget (o_root_id P) o) /\ plain_value (rkey P write o)) /\
    survives (alike := alike) P write (cell_of O) o.
  Proof.
    intros Ho. unfold rkey. rewrite Hidn, Hrid. destruct (doc_ok o Ho) as (A & B & C & _). split; [exact A|]. split; [exact B|]. split.
    - intros Hr. split; [exact (C Hr)|]. destruct (C Hr) as (s & Hs & _). destruct HV as (_ & _ & _ & _ & Hw). specialize (Hw o o s s Ho Ho). unfold root_key in Hw. destruct rid as [|c r]; [congruence|].
      destruct (Hw Hs Hs) as [Hp _]. rewrite Hs. exact Hp.
    - intros q y Ha Hl. destruct HV as (_ & _ & _ & Hv & _). destruct (leaf_place O o q y A Ha Hl) as (Q & k & -> & Hq). rewrite hp_jx. apply (Hv o Q k y); [exact Ho|exact Hq|exact Hl|apply leaf_has_cell; exact Hl].
  Qed.
  Lemma key_unique x y : In x docs -> In y docs -> key P write x = key P write y -> x = y.
  Proof.
    intros Hx Hy E. assert (Er : root_key O x = root_key O y) by (apply root_key_rkey; [exact Hx|exact Hy|exact (f_equal fst E)]).
    assert (Ei : sget idn x = sget idn y).
    { pose proof (f_equal snd E) as E2. cbn [key snd] in E2. unfold ikey in E2. rewrite Hidn in E2. destruct (doc_ok x Hx) as (_ & (s & Hs & _) & _). destruct (doc_ok y Hy) as (_ & (s' & Hs' & _) & _). rewrite Hs, Hs' in *. cbn [sval] in E2. congruence. }
    destruct HD as (_ & _ & _ & Hn). revert Hn. assert (Ek : record_key O x = record_key O y) by (unfold record_key; congruence). revert Ek. generalize (record_key O). clear - Hx Hy. intros f Ek Hn.
    induction docs as [|d ds IH]; [destruct Hx|]. cbn [map] in Hn. inversion Hn as [|? ? Hn1 Hn2]; subst. destruct Hx as [->|Hx], Hy as [->|Hy]; [reflexivity| | |apply IH; assumption].
    - exfalso. apply Hn1. rewrite Ek. apply in_map. exact Hy.
    - exfalso. apply Hn1. rewrite <- Ek. apply in_map. exact Hx.
  Qed.

  Variables (s : pst) (w : list fwarning).
  Hypothesis HR : flatten O drop pi (map JO docs) = Ok s w.
  Lemma keep_any Q : keeps O Q = true.
  Proof. apply keeps_all. apply HW. Qed.
  Lemma free : name_free O s.
  Proof.
    destruct HW as (HS & _ & HF & _). intros Hsc Hin. apply in_map_iff in Hin as (t & Et & Ht).
    destruct (flatten_tables O HS drop pi _ s w HF HR t Ht) as [Sc|(x & Hx & Ex)]; [unfold schema_sheet in Sc; rewrite Hsc in Sc; exact Sc|].
    assert (Q : In x (on_sheet (Some (tb_name t)) (sites O (map JO docs)))) by (apply filter_In; split; [exact Hx|rewrite Ex; apply oname_eqb_refl]).
    rewrite (sub_sites _ _ _ docs_clean) in Q. apply in_map_iff in Q as ([v y] & _ & Q). apply filter_In in Q as [Q En]. apply filter_In in Q as [Q _]. apply in_flat_map in Q as (v' & Hv & Q). apply in_map_iff in Q as (y' & E & Hy). injection E as -> ->.
    apply in_map_iff in Hv as (o & <- & Ho). rewrite Et in En. apply str_eqb_eq in En.
    pose proof (items_at (JO o) (tidy_clean O _ (proj1 (doc_ok o Ho))) y Hy) as Hat.
    assert (Hk : it_key y <> []).
    { unfold it_path in Hat. rewrite at_path_app in Hat. destruct (at_path (JO o) (it_at y)) as [g|] eqn:Eg; [|discriminate]. cbn [at_path] in Hat.
      destruct g as [| |g]; try discriminate. apply path_x in Eg. pose proof (tidy_at idn _ _ _ (proj1 (doc_ok o Ho)) Eg) as Hg. destruct (sget (it_key y) g) as [z|] eqn:Ek; [|discriminate]. destruct (tidy_JO idn g Hg) as (_ & _ & Ha & _). apply sget_In in Ek. destruct (Ha _ _ Ek) as [((Hne & _) & _) _]. exact Hne. }
    unfold item_sheet, sub_sheet_name in En. cbn [snd] in En. destruct HS as (_ & HT & _). rewrite HT in En. unfold make_sub_sheet_name, replace_c in En. symmetry in En. apply map_eq_nil in En. apply app_eq_nil in En as [_ En]. contradiction.
  Qed.

  (** entries of a table *)
  Definition main_ents (es : list ent) : Prop := map e_obj es = docs /\ (forall e, In e es -> e_at e = []).
  Definition sub_ents (n : str) (es : list ent) : Prop := map (fun e => (JO (e_obj e), e_at e)) es = map (fun vx => (fst vx, jx (it_path (snd vx)))) (sheet_items O n (map JO docs)).
  Definition tab_ents (t : table) (es : list ent) : Prop :=
    map e_row es = tb_rows t /\ Forall (good P (cell_of O) docs (tb_header t)) es /\ (forall e, In e es -> exists Q, e_at e = jx Q /\ row_shown O (e_obj e) Q (e_row e)).

  Lemma ent_good t o Q row : In t (tables s) -> In row (tb_rows t) -> In o docs -> row_shown O o Q row -> good P (cell_of O) docs (tb_header t) {| e_obj := o; e_at := jx Q; e_row := row |}.
  Proof.
    intros Ht Hrow Ho Hs. destruct (shown_row O (proj2 (proj2 (proj2 HW))) o Q row (doc_ok o Ho) Hs) as (A & B & C & _). split; [exact Ho|]. cbn [e_obj e_at e_row]. split; [exact A|]. rewrite Hidn, Hrid. split; [exact B|]. split; [exact C|].
    intros h v Hg. apply sget_In in Hg. eapply (flatten_covered O drop pi); [apply simple_ready; apply HW|exact HR|exact free|exact Ht|exact Hrow|exact Hg].
  Qed.
  Lemma keys_ok2 : key_ok idn /\ key_ok rid.
  Proof. destruct HD as ((_ & A & _) & B & _). split; [exact A|]. destruct rid as [|c r] eqn:E; [intros []|]. destruct B as (_ & B & _); [discriminate|]. exact B. Qed.
  Lemma table_ents : (exists es, tab_ents (main_table s) es /\ main_ents es) /\ forall t, In t (sub_tables s) -> exists es, tab_ents t es /\ sub_ents (tb_name t) es.
  Proof.
    destruct HW as (HS & HRl & HF & HPr). split; [|intros t Ht].
    - pose proof (shown_main O drop pi HS _ s w HR free docs_clean HRl) as F. rewrite records_docs in F.
      exists (map (fun or => {| e_obj := fst or; e_at := []; e_row := snd or |}) (combine docs (tb_rows (main_table s)))).
      assert (G : forall o r, In (o, r) (combine docs (tb_rows (main_table s))) -> In o docs /\ In r (tb_rows (main_table s)) /\ record_shown O o r).
      { intros o r Hin. split; [eapply in_combine_l; exact Hin|]. split; [eapply in_combine_r; exact Hin|]. clear - F Hin. induction F as [|a c l m H F IH]; [destruct Hin|]. destruct Hin as [Q|Hin]; [injection Q as <- <-; exact H|auto]. }
      assert (L : map fst (combine docs (tb_rows (main_table s))) = docs /\ map snd (combine docs (tb_rows (main_table s))) = tb_rows (main_table s)).
      { clear - F. induction F as [|a c l m H F [I1 I2]]; [auto|]. cbn [combine map fst snd]. rewrite I1, I2. auto. }
      split; [split; [rewrite map_map; cbn [e_row]; exact (proj2 L)|]; split|].
      + apply Forall_map. apply Forall_forall. intros [o r] Hin. destruct (G o r Hin) as (Ho & Hr & Hs). apply (ent_good (main_table s) o []); [left; reflexivity|exact Hr|exact Ho|]. left. auto.
      + intros e Hin. apply in_map_iff in Hin as ([o r] & <- & Hin). destruct (G o r Hin) as (Ho & Hr & Hs). exists []. split; [reflexivity|]. left. auto.
      + split; [rewrite map_map; cbn [e_obj]; exact (proj1 L)|]. intros e Hin. apply in_map_iff in Hin as ([o r] & <- & Hin). reflexivity.
    - pose proof (shown_subs O drop pi HS _ s w HR free docs_clean (proj1 keys_ok2) (proj2 keys_ok2) t Ht) as F. rewrite chosen_docs in F.
      exists (map (fun vr => {| e_obj := match fst (fst vr) with JO o => o | _ => [] end; e_at := jx (it_path (snd (fst vr))); e_row := snd vr |}) (combine (sheet_items O (tb_name t) (map JO docs)) (tb_rows t))).
      assert (G : forall v x r, In ((v, x), r) (combine (sheet_items O (tb_name t) (map JO docs)) (tb_rows t)) -> In r (tb_rows t) /\ exists o, v = JO o /\ In o docs /\ row_shown O o (it_path x) r).
      { intros v x r Hin. split; [eapply in_combine_r; exact Hin|]. pose proof (in_combine_l _ _ _ _ Hin) as Hi. apply filter_In in Hi as [Hi _]. apply filter_In in Hi as [Hi _]. apply in_flat_map in Hi as (v' & Hv & Q). apply in_map_iff in Q as (y' & E & Hy). injection E as -> ->.
        apply in_map_iff in Hv as (o & <- & Ho). exists o. split; [reflexivity|]. split; [exact Ho|]. right. exists x. split; [reflexivity|]. split; [exact (items_at (JO o) (tidy_clean O _ (proj1 (doc_ok o Ho))) x Hy)|].
        clear - F Hin. induction F as [|a c l m H F IH]; [destruct Hin|]. destruct Hin as [Q|Hin]; [injection Q as <- <-; exact H|auto]. }
      assert (L : map fst (combine (sheet_items O (tb_name t) (map JO docs)) (tb_rows t)) = sheet_items O (tb_name t) (map JO docs) /\ map snd (combine (sheet_items O (tb_name t) (map JO docs)) (tb_rows t)) = tb_rows t).
      { clear - F. induction F as [|a c l m H F [I1 I2]]; [auto|]. cbn [combine map fst snd]. rewrite I1, I2. auto. }
      split; [split; [rewrite map_map; cbn [e_row]; exact (proj2 L)|]; split|].
      + apply Forall_map. apply Forall_forall. intros [[v x] r] Hin. destruct (G v x r Hin) as (Hr & o & -> & Ho & Hs). cbn [fst snd]. apply ent_good; [right; exact Ht|exact Hr|exact Ho|exact Hs].
      + intros e Hin. apply in_map_iff in Hin as ([[v x] r] & <- & Hin). destruct (G v x r Hin) as (Hr & o & -> & Ho & Hs). cbn [fst snd e_obj e_at e_row]. eauto.
      + unfold sub_ents. rewrite map_map. cbn [e_obj e_at]. rewrite <- (proj1 L) at 2. rewrite map_map. apply map_ext_in. intros [[v x] r] Hin. destruct (G v x r Hin) as (_ & o & -> & _). reflexivity.
  Qed.

  (** the entry of a record or an item *)
  Lemma main_entry es o : main_ents es -> In o docs -> exists e, In e es /\ e_obj e = o /\ e_at e = [].
  Proof. intros [E Ha] Ho. rewrite <- E in Ho. apply in_map_iff in Ho as (e & <- & He). exists e. auto. Qed.
  Lemma sub_entry n es o x : sub_ents n es -> In (JO o, x) (sheet_items O n (map JO docs)) -> exists e, In e es /\ e_obj e = o /\ e_at e = jx (it_path x).
  Proof.
    intros E Hin. apply (in_map (fun vx => (fst vx, jx (it_path (snd vx))))) in Hin. unfold sub_ents in E. rewrite <- E in Hin. apply in_map_iff in Hin as (e & Q & He). cbn [fst snd] in Q. injection Q as Q1 Q2. exists e. auto.
  Qed.
  Lemma in_sheet o x : In o docs -> In x (items_in (JO o)) -> In (JO o, x) (sheet_items O (item_sheet O (JO o, x)) (map JO docs)).
  Proof.
    intros Ho Hx. apply filter_In. split; [|apply str_eqb_refl]. apply filter_In. split; [|apply keep_any]. apply in_flat_map. exists (JO o). split; [apply in_map; exact Ho|]. apply in_map. exact Hx.
  Qed.
  Lemma item_table o x : In o docs -> In x (items_in (JO o)) -> exists t, In t (sub_tables s) /\ tb_name t = item_sheet O (JO o, x).
  Proof.
    intros Ho Hx. pose proof (in_sheet o x Ho Hx) as Hin. destruct HW as (HS & _). destruct (names_subs O drop pi HS _ s w HR free docs_clean (item_sheet O (JO o, x))) as [_ A]. rewrite chosen_docs in A.
    destruct (in_map_iff tb_name (sub_tables s) (item_sheet O (JO o, x))) as [B _]. destruct B as (t & E & Ht); [apply A; intros Q; rewrite Q in Hin; destruct Hin|]. eauto.
  Qed.
  Lemma entry_tells t es e Q ks v : tab_ents t es -> In e es -> e_at e = jx Q -> at_x (JO (e_obj e)) (jx (Q ++ down ks)) = Some v -> leaf v -> tells (cell_of O) e (jx (Q ++ down ks)).
  Proof.
    intros (_ & Hg & Hs) He EQ Ha Hlf. destruct (Hs e He) as (Q' & EQ' & Hsh). rewrite Forall_forall in Hg. destruct (Hg e He) as (Ho & _).
    assert (Ej : jx (Q' ++ down ks) = jx (Q ++ down ks)) by (rewrite !jx_app; congruence).
    destruct (shown_row O (proj2 (proj2 (proj2 HW))) (e_obj e) Q' (e_row e) (doc_ok _ Ho) Hsh) as (_ & _ & _ & Hl). rewrite <- Ej in Ha. destruct (Hl ks v Ha Hlf) as [A B]. split; [rewrite <- Ej, EQ'; exact B|]. exists v. rewrite <- Ej. auto.
  Qed.

  Lemma shuffled_ents t x es : In t (tables s) -> tab_ents t es -> table_shuffled write b t x -> exists es', Permutation es es' /\ sheet_of P write (cell_of O) docs b x es'.
  Proof.
    intros Ht (Er & Hg & _) [Hh Hl]. rewrite <- Er, map_map in Hl. apply Permutation_sym in Hl. apply Permutation_map_inv in Hl as (es' & El & HPm). exists es'. split; [exact HPm|].
    exists (tb_header t). split; [apply (flatten_distinct O drop pi (simple_ready O (proj1 HW)) _ s w HR t Ht)|]. split; [|split; [exact Hh|exact El]].
    rewrite Forall_forall in *. intros e Hin. apply Hg. eapply Permutation_in; [apply Permutation_sym; exact HPm|exact Hin].
  Qed.
  Lemma ordered_ents t x es : In t (tables s) -> tab_ents t es -> table_shown write b t x -> sheet_of P write (cell_of O) docs b x es.
  Proof.
    intros Ht (Er & Hg & _) [Hh Hl]. rewrite <- Er, map_map in Hl.
    exists (tb_header t). split; [apply (flatten_distinct O drop pi (simple_ready O (proj1 HW)) _ s w HR t Ht)|]. split; [exact Hg|]. split; [exact Hh|exact Hl].
  Qed.
  Lemma shuffled_subs T sheets : (forall t, In t T -> In t (sub_tables s)) -> Forall2 (table_shuffled write b) T sheets ->
    exists ess, Forall2 (sheet_of P write (cell_of O) docs b) sheets ess /\ Forall2 (fun t es => exists es0, tab_ents t es0 /\ sub_ents (tb_name t) es0 /\ Permutation es0 es) T ess.
  Proof.
    intros HT F. induction F as [|t x T sheets H F IH]; [exists []; split; constructor|]. destruct (IH (fun t' Ht' => HT t' (or_intror Ht'))) as (ess & F1 & F2).
    pose proof (HT t (or_introl eq_refl)) as Ht. destruct (proj2 table_ents t Ht) as (es & He & Hs). destruct (shuffled_ents t x es (or_intror Ht) He H) as (es' & HPm & Hx).
    exists (es' :: ess). split; constructor; eauto.
  Qed.
  Lemma ordered_subs T sheets : (forall t, In t T -> In t (sub_tables s)) -> Forall2 (table_shown write b) T sheets ->
    exists ess, Forall2 (sheet_of P write (cell_of O) docs b) sheets ess /\ Forall2 (fun t es => tab_ents t es /\ sub_ents (tb_name t) es) T ess.
  Proof.
    intros HT F. induction F as [|t x T sheets H F IH]; [exists []; split; constructor|]. destruct (IH (fun t' Ht' => HT t' (or_intror Ht'))) as (ess & F1 & F2).
    pose proof (HT t (or_introl eq_refl)) as Ht. destruct (proj2 table_ents t Ht) as (es & He & Hs). 
    exists (es :: ess). split; constructor; eauto. eapply ordered_ents; [right; exact Ht|exact He|exact H].
  Qed.
  Lemma covered_all T es1 ess all : (forall t, In t (sub_tables s) -> In t T) -> tab_ents (main_table s) es1 -> main_ents es1 -> (forall e, In e es1 -> In e all) ->
    Forall2 (fun t es => exists es0, tab_ents t es0 /\ sub_ents (tb_name t) es0 /\ Permutation es0 es) T ess -> (forall e, In e (concat ess) -> In e all) ->
    forall o q v, In o docs -> at_x (JO o) q = Some v -> leaf v -> exists e, In e all /\ e_obj e = o /\ tells (cell_of O) e q.
  Proof.
    intros HT Ht1 Hm1 Ha1 F Ha2 o q v Ho Hq Hlf. destruct (leaf_somewhere O o q v (proj1 (doc_ok o Ho)) Hq Hlf) as (Q & ks & -> & HQ).
    assert (G : exists t es e, tab_ents t es /\ In e es /\ In e all /\ e_obj e = o /\ e_at e = jx Q).
    { destruct HQ as [-> |(x & -> & Hx & _)].
      - destruct (main_entry es1 o Hm1 Ho) as (e & He & Eo & Ea). exists (main_table s), es1, e. auto 6.
      - destruct (item_table o x Ho Hx) as (t & Ht & En). destruct (Forall2_in_l _ _ _ F t (HT t Ht)) as (es & Hes & es0 & A & B & HPm).
        rewrite En in B. destruct (sub_entry _ es0 o x B (in_sheet o x Ho Hx)) as (e & He & Eo & Ea). exists t, es0, e. split; [exact A|]. split; [exact He|]. split; [|auto].
        apply Ha2. apply in_concat. exists es. split; [exact Hes|]. eapply Permutation_in; eassumption. }
    destruct G as (t & es & e & A & He & Hall & Eo & Ea). exists e. split; [exact Hall|]. split; [exact Eo|]. rewrite <- Eo in Hq. exact (entry_tells t es e Q ks v A He Ea Hq Hlf).
  Qed.
End Main.
