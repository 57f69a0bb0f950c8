From Coq Require Import Permutation.
From Verif.Base Require Import PyStr PyNum PyVal PyDict Outcome.
From Verif.Model Require Import Flatten.
From Verif.Spec Require Import Flat Sites Paths Rollup.
From Verif.Proofs Require Import JvInd FlattenTrace FlattenRows FlattenRun FlattenPlain FlattenPaths FlattenItems PreserveFacts.

Lemma nub_In l x : In x (nub_str l) <-> In x l.
Proof.
  induction l as [|y l IH]; [reflexivity|]. simpl. rewrite filter_In, IH. destruct (str_eqb_spec y x) as [E|E]; simpl; [tauto|]. intuition congruence.
Qed.
Lemma nub_NoDup l : NoDup (nub_str l).
Proof.
  induction l as [|y l IH]; [constructor|]. simpl. constructor; [|apply NoDup_filter; exact IH]. rewrite filter_In. intros [_ H]. destruct (str_eqb_spec y y); [discriminate|congruence].
Qed.

Section Roll.
  Variable O : popts.
  Hypothesis HP : forall l, Permutation l (po_set_order O l).

  Definition rolled_cells (k : str) (x : jv) : list (str * jv) :=
    if kept O [] k then match x with JA l => match leaf_cell O x with Some _ => [] | None => rolled O k l end | _ => [] end else [].
  Lemma cells_top d : cells_of O [] d = flat_map (fun kx => own_cells O [] (fst kx) (snd kx) ++ rolled_cells (fst kx) (snd kx)) d.
  Proof.
    induction d as [|[k x] d IH]; [reflexivity|]. cbn [cells_of flat_map fst snd]. rewrite IH. f_equal. unfold own_cells, rolled_cells.
    destruct (kept O [] k); [|reflexivity]. destruct x as [s|l|e]; [reflexivity| |rewrite app_nil_r; reflexivity]. destruct (leaf_cell O (JA l)); reflexivity.
  Qed.
  Lemma cells_same p v : p <> [] -> cells (without_rollup O) p v = cells O p v.
  Proof.
    revert p. induction v as [s|l IH|d IH] using jv_ind'; intros p Hp; try reflexivity. rewrite !cells_JO.
    induction IH as [|[k x] d Hx _ IHd]; [reflexivity|]. cbn [cells_of]. rewrite IHd. f_equal. change (kept (without_rollup O) p k) with (kept O p k).
    destruct (kept O p k); [|reflexivity]. destruct x as [s|l|e]; [reflexivity| |].
    - change (leaf_cell (without_rollup O) (JA l)) with (leaf_cell O (JA l)). destruct (leaf_cell O (JA l)); [reflexivity|]. destruct p; [congruence|reflexivity].
    - apply Hx. destruct p; [congruence|discriminate].
  Qed.
  Lemma cells_base d : cells_of (without_rollup O) [] d = flat_map (fun kx => own_cells O [] (fst kx) (snd kx)) d.
  Proof.
    induction d as [|[k x] d IH]; [reflexivity|]. rewrite (cells_of_cons (without_rollup O) [] k x d (or_intror eq_refl)). cbn [flat_map fst snd]. rewrite IH. f_equal.
    unfold own_cells. change (kept (without_rollup O) [] k) with (kept O [] k). destruct (kept O [] k); [|reflexivity].
    destruct x as [s|l|e]; try reflexivity. apply cells_same. destruct k; discriminate.
  Qed.

  Lemma roll_kept_spec k f : roll_kept O k f = true <-> po_preserve O = [] \/ In (k ++ u "/" ++ f) (po_preserve O).
  Proof.
    unfold roll_kept. destruct (po_preserve O) as [|a F] eqn:E; [split; [left; reflexivity|reflexivity]|].
    rewrite str_mem_In. split; [right; assumption|]. intros [H|H]; [discriminate|exact H].
  Qed.
  Lemma keys_In l f : In f (flat_map (fun v => match v with JO d => map fst d | _ => [] end) l) <-> exists e, In (JO e) l /\ In f (map fst e).
  Proof.
    rewrite in_flat_map. split; [intros (v & Hv & H); destruct v as [| |e]; try destruct H; exists e; auto|intros (e & He & H); exists (JO e); auto].
  Qed.
  Lemma rolled_In k l c v : clean (JA l) -> In (c, v) (rolled O k l) <-> In k (po_rollup O) /\ exists f, c = k ++ u "/0/" ++ f /\ roll_kept O k f = true /\
    ((exists e, l = [JO e] /\ sget f e = Some v) \/ ((2 <= length l)%nat /\ (exists e, In (JO e) l /\ In f (map fst e)) /\ v = JS (SStr rollup_text))).
  Proof.
    intros Hc. unfold rolled. rewrite <- (str_mem_In k). destruct (str_mem k (po_rollup O)); [|split; [intros []|intros [Q _]; discriminate]].
    destruct l as [|y [|z l]].
    - split; [intros []|]. intros [_ (f & _ & _ & [(e & E & _)|(E & _)])]; [discriminate|simpl in E; lia].
    - destruct y as [s|a|e].
      + split; [intros []|]. intros [_ (f & _ & _ & [(e & E & _)|(E & _)])]; [discriminate|simpl in E; lia].
      + split; [intros []|]. intros [_ (f & _ & _ & [(e & E & _)|(E & _)])]; [discriminate|simpl in E; lia].
      + assert (Hn : NoDup (map fst e)) by (apply clean_JA in Hc; apply Forall_cons_iff in Hc as [Hc _]; apply clean_JO in Hc; exact (proj1 Hc)).
        rewrite in_map_iff. split.
        * intros ([f x] & E & H). injection E as <- <-. apply filter_In in H as [H K]. split; [reflexivity|]. exists f. split; [reflexivity|]. split; [exact K|]. left. exists e. split; [reflexivity|].
          apply In_sget; assumption.
        * intros [_ (f & -> & K & [(e' & E & G)|(E & _)])]; [|simpl in E; lia]. injection E as <-. exists (f, v). split; [reflexivity|]. apply filter_In. split; [apply sget_In; exact G|exact K].
    - match goal with |- In _ ?X <-> _ => assert (E0 : X = map (fun f => (k ++ u "/0/" ++ f, JS (SStr rollup_text)))
               (filter (roll_kept O k) (po_set_order O (nub_str (flat_map (fun v => match v with JO d => map fst d | _ => [] end) (y :: z :: l)))))) by (destruct y; reflexivity) end.
      rewrite E0, in_map_iff. split.
      + intros (f & E & H). injection E as <- <-. apply filter_In in H as [H K]. split; [reflexivity|]. exists f. split; [reflexivity|]. split; [exact K|]. right. split; [simpl; lia|].
        split; [|reflexivity]. apply (Permutation_in _ (Permutation_sym (HP _))) in H. apply (proj1 (nub_In _ _)) in H. apply keys_In in H. exact H.
      + intros [_ (f & -> & K & [(e' & E & G)|(E & F & ->)])]; [discriminate|]. exists f. split; [reflexivity|]. apply filter_In. split; [|exact K].
        apply (Permutation_in _ (HP _)). apply (proj2 (nub_In _ _)). apply (proj2 (keys_In (y :: z :: l) f)). exact F.
  Qed.
  Lemma rolled_NoDup k l : clean (JA l) -> NoDup (map fst (rolled O k l)).
  Proof.
    intros Hc. unfold rolled. destruct (str_mem k (po_rollup O)); [|constructor].
    assert (G : forall fs, NoDup fs -> NoDup (map (fun f : str => k ++ u "/0/" ++ f) fs)).
    { intros fs H. apply FinFun.Injective_map_NoDup; [|exact H]. intros a b E. apply app_inv_head in E. apply app_inv_head in E. exact E. }
    destruct l as [|y [|z l]]; [constructor| |].
    - destruct y as [s|a|e]; try constructor. assert (Hn : NoDup (map fst e)) by (apply clean_JA in Hc; apply Forall_cons_iff in Hc as [Hc _]; apply clean_JO in Hc; exact (proj1 Hc)).
      rewrite map_map. cbn [fst]. specialize (G (map fst (filter (fun fv : str * jv => roll_kept O k (fst fv)) e))). rewrite map_map in G. apply G.
      clear - Hn. induction e as [|[f x] e IH]; [constructor|]. inversion Hn as [|? ? H1 H2]; subst. cbn [filter fst]. destruct (roll_kept O k f); [|apply IH; exact H2].
      simpl. constructor; [|apply IH; exact H2]. intros H. apply H1. apply in_map_iff in H as (z & <- & H). apply filter_In in H as [H _]. apply in_map. exact H.
    - match goal with |- NoDup (map fst ?X) => assert (E0 : X = map (fun f => (k ++ u "/0/" ++ f, JS (SStr rollup_text)))
               (filter (roll_kept O k) (po_set_order O (nub_str (flat_map (fun v => match v with JO d => map fst d | _ => [] end) (y :: z :: l)))))) by (destruct y; reflexivity) end.
      rewrite E0, map_map. cbn [fst]. apply G. apply NoDup_filter. eapply Permutation_NoDup; [apply HP|apply nub_NoDup].
  Qed.

  Variable d : jobj.
  Hypothesis Hc : clean (JO d).

  Lemma piece_cols k x : In (k, x) d -> NoDup (map fst (own_cells O [] k x ++ rolled_cells k x)) /\
    (forall c, In c (map fst (own_cells O [] k x ++ rolled_cells k x)) -> exists r, tail_ok r /\ c = k ++ r).
  Proof.
    intros Hin. apply clean_JO in Hc as [Hn Hc']. rewrite Forall_forall in Hc'. destruct (Hc' _ Hin) as [Hk Hx]. cbn [fst snd] in Hk, Hx.
    unfold own_cells, rolled_cells. destruct (kept O [] k); [|split; [constructor|intros c []]]. destruct x as [s|l|e].
    - split; [simpl; constructor; [intros []|constructor]|]. intros c [<-|[]]. exists []. split; [exact I|]. simpl. rewrite app_nil_r. reflexivity.
    - destruct (leaf_cell O (JA l)).
      + split; [simpl; constructor; [intros []|constructor]|]. intros c [<-|[]]. exists []. split; [exact I|]. simpl. rewrite app_nil_r. reflexivity.
      + cbn [app]. split; [apply rolled_NoDup; exact Hx|]. intros c H. apply in_map_iff in H as ([c' v] & <- & H). apply (rolled_In k l c' v Hx) in H as [_ (f & -> & _)].
        exists (u "/0/" ++ f). split; [reflexivity|reflexivity].
    - rewrite app_nil_r. split; [apply cells_nodup; [apply unrolled_down|exact Hx]|]. intros c H. apply in_map_iff in H as ([c' v] & <- & H).
      apply (cells_prefix O _ _ _ _ (unrolled_down O [] k)) in H as (r & ->). exists (u "/" ++ r). split; [reflexivity|]. simpl. rewrite <- app_assoc. reflexivity.
  Qed.
  Lemma top_NoDup : NoDup (map fst (cells O [] (JO d))).
  Proof.
    rewrite cells_JO, cells_top. pose proof Hc as Hc0. apply clean_JO in Hc0 as [Hn HK]. pose proof piece_cols as PC.
    assert (G : forall d0, (forall kx, In kx d0 -> In kx d) -> NoDup (map fst d0) -> NoDup (map fst (flat_map (fun kx => own_cells O [] (fst kx) (snd kx) ++ rolled_cells (fst kx) (snd kx)) d0)) /\
      (forall c, In c (map fst (flat_map (fun kx => own_cells O [] (fst kx) (snd kx) ++ rolled_cells (fst kx) (snd kx)) d0)) -> exists k r, In k (map fst d0) /\ tail_ok r /\ c = k ++ r)).
    { induction d0 as [|[k x] d0 IH]; intros Hi Hnd; [split; [constructor|intros c []]|]. cbn [flat_map fst snd]. inversion Hnd as [|? ? Hk Hnd']; subst.
      destruct (IH (fun kx H => Hi kx (or_intror H)) Hnd') as [A B]. destruct (PC k x (Hi _ (or_introl eq_refl))) as [C D]. rewrite map_app. split.
      - apply NoDup_app_disj; [exact C|exact A|]. intros c H1 H2. destruct (D c H1) as (r & Tr & ->). destruct (B _ H2) as (k' & r' & Hk' & Tr' & E).
        assert (K1 : key_ok k) by (rewrite Forall_forall in HK; exact (proj1 (HK (k, x) (Hi _ (or_introl eq_refl))))).
        assert (K2 : key_ok k').
        { apply in_map_iff in Hk' as ([k2 x2] & <- & H3). rewrite Forall_forall in HK. exact (proj1 (HK (k2, x2) (Hi _ (or_intror H3)))). }
        destruct (first_seg _ _ _ _ K1 K2 Tr Tr' E) as [<- _]. contradiction.
      - intros c H. apply in_app_or in H as [H|H]; [destruct (D c H) as (r & Tr & E); exists k, r; simpl; auto|]. destruct (B c H) as (k' & r & Hk' & Q). exists k', r. simpl. tauto. }
    apply G; auto.
  Qed.
  Lemma top_get c v : sget c (fill (cells O [] (JO d)) []) = Some v <-> In (c, v) (cells O [] (JO d)).
  Proof.
    split; [|apply fill_in; exact top_NoDup]. intros H. apply fill_get in H as [H|H]; [exact H|discriminate H].
  Qed.
  Lemma top_In c v : In (c, v) (cells O [] (JO d)) <-> In (c, v) (cells (without_rollup O) [] (JO d)) \/ rolled_up O d c v.
  Proof.
    pose proof Hc as Hc0. apply clean_JO in Hc0 as [Hn HK]. rewrite !cells_JO, cells_top, cells_base, !in_flat_map. split.
    - intros ([k x] & Hin & H). cbn [fst snd] in H. apply in_app_or in H as [H|H]; [left; exists (k, x); auto|]. right. unfold rolled_cells in H.
      destruct (kept O [] k) eqn:Hk; [|destruct H]. destruct x as [|l|]; try destruct H. destruct (leaf_cell O (JA l)) eqn:El; [destruct H|].
      rewrite Forall_forall in HK. destruct (HK _ Hin) as [_ Hx]. apply (rolled_In k l c v Hx) in H as [Hr (f & Ef & Hf & H)].
      exists k, l, f. split; [apply In_sget; assumption|]. split; [exact Hr|]. split; [unfold keeps; cbn [keeps_from]; rewrite Hk; reflexivity|]. split; [apply roll_kept_spec; exact Hf|]. split; [exact Ef|exact H].
    - intros [([k x] & Hin & H)|(k & l & f & Hg & Hr & Hk & Hf & Ef & H)].
      + exists (k, x). split; [exact Hin|]. apply in_or_app. left. exact H.
      + apply sget_In in Hg. exists (k, JA l). split; [exact Hg|]. apply in_or_app. right. cbn [fst snd]. unfold rolled_cells. unfold keeps in Hk. cbn [keeps_from] in Hk. rewrite andb_true_r in Hk. rewrite Hk.
        assert (El : leaf_cell O (JA l) = None).
        { destruct H as [(e & -> & _)|(_ & (e & He & _) & _)]; [apply (items_not_leaf O [JO e] 0 e); reflexivity|]. apply In_nth_error in He as (i & Hi). apply (items_not_leaf O l i e Hi). }
        rewrite El. rewrite Forall_forall in HK. destruct (HK _ Hg) as [_ Hx]. apply (rolled_In k l c v Hx). split; [exact Hr|]. exists f. split; [exact Ef|]. split; [apply roll_kept_spec; exact Hf|exact H].
  Qed.
  Lemma roll_row : roll_shown O d (fill (cells O [] (JO d)) []).
  Proof.
    assert (U : unrolled (without_rollup O) []) by (right; reflexivity).
    assert (LK : forall q p, keeps_from (without_rollup O) p q = keeps_from O p q) by (induction q as [|[k o] q IH]; intros p; [reflexivity|]; cbn [keeps_from]; rewrite IH; reflexivity).
    split; [|split].
    - intros ks k x c Hx HL HKp. apply top_get. apply top_In. left. apply (cells_in (without_rollup O) [] (JO d) U d eq_refl Hc). exists ks, k. split; [exists x; rewrite LK; auto|reflexivity].
    - intros c v H. apply top_get. apply top_In. right. exact H.
    - intros c v H. apply top_get in H. apply top_In in H as [H|H]; [|left; exact H]. right.
      apply (cells_in (without_rollup O) [] (JO d) U d eq_refl Hc) in H as (ks & k & (y & Hy & HL & HKp) & ->). exists ks, k, y. rewrite LK in HKp. auto.
  Qed.
  Lemma base_in_row c v : sget c (fill (cells (without_rollup O) [] (JO d)) []) = Some v -> sget c (fill (cells O [] (JO d)) []) = Some v.
  Proof.
    intros H. apply fill_get in H as [H|H]; [|discriminate H]. apply top_get. apply top_In. left. exact H.
  Qed.
End Roll.

Section Run.
  Variables (O : popts) (drop : bool) (pi : list str).
  Hypothesis P : simple O.
  Hypothesis NF : po_filter O = None.
  Hypothesis HP : forall l, Permutation l (po_set_order O l).

  Lemma records_clean l : Forall clean l -> Forall (fun d => clean (JO d)) (records l).
  Proof. intros Hcl. induction Hcl as [|v l Hc Hl IH]; [constructor|]. unfold records. cbn [flat_map]. apply Forall_app. split; [|exact IH]. destruct v; constructor; [exact Hc|constructor]. Qed.
  Theorem roll_main l s w : flatten O drop pi l = Ok s w -> name_free O s -> Forall clean l ->
    Forall2 (roll_shown O) (records l) (tb_rows (main_table s)).
  Proof.
    intros H HF Hcl. rewrite (main_rows O drop pi P NF l s w H HF). change (objects l) with (records l).
    induction (records_clean l Hcl) as [|d ds Hd _ IH]; [constructor|]. cbn [map]. constructor; [exact (roll_row O HP d Hd)|exact IH].
  Qed.
  Lemma simple_without : simple (without_rollup O).
  Proof. destruct P as ([E|[E _]] & Q); (split; [|exact Q]); [left; exact E|right; split; [exact E|reflexivity]]. Qed.
  (** compared with the run without roll-up *)
  Theorem roll_compare l s w s0 w0 : flatten O drop pi l = Ok s w -> name_free O s -> flatten (without_rollup O) drop pi l = Ok s0 w0 -> name_free (without_rollup O) s0 -> Forall clean l ->
    Forall2 (fun row0 row => forall c v, sget c row0 = Some v -> sget c row = Some v) (tb_rows (main_table s0)) (tb_rows (main_table s)) /\
    (forall n, ~ schema_sheet O n -> In n (map tb_name (sub_tables s)) <-> In n (map tb_name (sub_tables s0))) /\
    (forall t t0, In t (sub_tables s) -> In t0 (sub_tables s0) -> tb_name t = tb_name t0 -> tb_rows t = tb_rows t0).
  Proof.
    intros H HF H0 HF0 Hcl. split; [|split].
    - rewrite (main_rows O drop pi P NF l s w H HF), (main_rows (without_rollup O) drop pi simple_without NF l s0 w0 H0 HF0). change (objects l) with (records l).
      induction (records_clean l Hcl) as [|d ds Hd _ IH]; [constructor|]. cbn [map]. constructor; [intros c v; exact (base_in_row O HP d Hd c v)|exact IH].
    - intros n Sc. destruct (sub_names O drop pi P NF l s w H HF Hcl n) as [A B], (sub_names (without_rollup O) drop pi simple_without NF l s0 w0 H0 HF0 Hcl n) as [A0 B0].
      change (sheet_items (without_rollup O) n l) with (sheet_items O n l) in *. change (schema_sheet (without_rollup O) n) with (schema_sheet O n) in *. tauto.
    - intros t t0 Ht Ht0 En. rewrite (flatten_sites O P drop pi l s w NF H HF (Some (tb_name t)) t (conj Ht eq_refl)).
      rewrite (flatten_sites (without_rollup O) simple_without drop pi l s0 w0 NF H0 HF0 (Some (tb_name t)) t0 (conj Ht0 (eq_sym En))).
      rewrite (sub_sites O l (tb_name t) Hcl), (sub_sites (without_rollup O) l (tb_name t) Hcl).
      assert (E : sheet_items O (tb_name t) l = sheet_items (without_rollup O) (tb_name t) l).
      { reflexivity. }
      rewrite <- E, !map_map. apply map_ext. intros vx. unfold row_of, site_of, item_site. cbn [si_prefix si_obj si_ids].
      rewrite cells_same by (rewrite pre_app, app_assoc; destruct (pre (it_at (snd vx))); [destruct (it_key (snd vx))|]; discriminate). reflexivity.
  Qed.
End Run.
