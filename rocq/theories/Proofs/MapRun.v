(** The source maps of a run. *)
From Coq Require Import Permutation Lia.
From Verif.Base Require Import PyStr PyNum PyVal PyDict Outcome.
From Verif.Model Require Import Warn Lib Convert Input SourceMap.
From Verif.Spec Require Import Source Ids Cells Rows Maps.
From Verif.Proofs Require Import TreeInd EmbedFacts RowWf MergeCells IdRun RunCells Conflict RunSource RowKeys MapFacts.
Local Open Scope res_scope.

(** ** The tree of a run *)
Lemma to_j_wfj n : twf n -> wfj (to_j n).
Proof.
  assert (D : forall d, Pd (fun n => twf n -> wfj (to_j n)) d -> tdwf d -> NoDup (map fst (dict_to_j d)) /\ forall k n, In (k, n) (dict_to_j d) -> wfj n).
  { intros d HF [Hnd Hw]. split.
    - unfold dict_to_j. rewrite map_map. exact Hnd.
    - intros k n0 Hin. unfold dict_to_j in Hin. apply in_map_iff in Hin as ([k' n'] & Q & Hin). injection Q as <- <-.
      unfold Pd in HF. rewrite Forall_forall in HF. apply (HF _ Hin). eapply Hw. exact Hin. }
  induction n as [c|d IH|data nk IHd IHn] using tnode_ind'; intros Hw.
  - constructor.
  - apply twf_dict in Hw. destruct (D d IH Hw). constructor; assumption.
  - pose proof (proj1 (twf_temp _ _) Hw) as Hw'. rewrite Forall_forall in IHd, IHn.
    assert (G : forall d, In d (map snd data ++ nk) -> NoDup (map fst (dict_to_j d)) /\ forall k n, In (k, n) (dict_to_j d) -> wfj n).
    { intros d Hd. apply D; [|apply Hw'; exact Hd]. apply in_app_or in Hd as [Hd|Hd]; [|apply IHn; exact Hd].
      apply in_map_iff in Hd as ([k d'] & <- & Hd). apply (IHd _ Hd). }
    change (to_j (TTemp data nk)) with (JList (map (fun kd => dict_to_j (snd kd)) data ++ map dict_to_j nk)).
    assert (Q : map (fun kd : scalar * tdict => dict_to_j (snd kd)) data ++ map dict_to_j nk = map dict_to_j (map snd data ++ nk)) by (rewrite map_app, map_map; reflexivity).
    rewrite Q. constructor.
    + intros d Hd. apply in_map_iff in Hd as (d' & <- & Hd). apply G. exact Hd.
    + intros d k n Hd. apply in_map_iff in Hd as (d' & <- & Hd). apply G. exact Hd.
Qed.

Definition pkeys (p : epath) : list str := flat_map (fun s => match s with PIdx _ => [] | PKey k => [k] end) p.
Definition skeys (p : spot) : list str := flat_map (fun s => match s with Item _ => [] | Key k => [k] end) p.
Lemma tree_cells_spot xml idn n : forall p c, In (p, c) (tree_cells n) -> exists sp, In (sp, c) (jcells xml idn n) /\ skeys sp = pkeys p.
Proof.
  assert (D : forall d, Pjd (fun n => forall p c, In (p, c) (tree_cells n) -> exists sp, In (sp, c) (jcells xml idn n) /\ skeys sp = pkeys p) d ->
     forall p c, In (p, c) (entries_cells tree_cells d) -> exists sp, In (sp, c) (flat_map (fun kn => below (Key (fst kn)) (jcells xml idn (snd kn))) d) /\ skeys sp = pkeys p).
  { intros d HF p c Hin. apply in_entries_cells in Hin as (k & n0 & q & -> & Hd & Hin). unfold Pjd in HF. rewrite Forall_forall in HF.
    destruct (HF _ Hd _ _ Hin) as (sp & Hsp & Q). exists (Key k :: sp). split; [|unfold skeys, pkeys in *; cbn [flat_map app]; rewrite Q; reflexivity].
    apply in_flat_map. exists (k, n0). split; [exact Hd|]. apply in_below. exists sp. auto. }
  induction n as [c0|d IH|l IH] using jnode_ind'; intros p c Hin.
  - destruct Hin as [Q|[]]. injection Q as <- <-. exists []. split; [left; reflexivity|reflexivity].
  - apply D; assumption.
  - cbn [tree_cells] in Hin. apply in_items_cells in Hin as (n & d & q & -> & Hn & Hin). rewrite Forall_forall in IH. unfold jdict in Hn. apply nth_error_In in Hn.
    destruct (D d (IH _ Hn) _ _ Hin) as (sp & Hsp & Q). exists (Item (option_map kid_of (jid xml idn d)) :: sp). split; [|cbn; exact Q].
    cbn [jcells]. apply in_flat_map. exists d. split; [exact Hn|]. apply in_below. exists sp. auto.
Qed.

Definition good_key (k : str) : Prop := ~ In slash k /\ isint k = false.
Lemma tcells_keys K xml idn n : tkey K n -> forall p c, In (p, c) (tcells xml idn n) -> forall k, In k (skeys p) -> K k.
Proof.
  assert (D : forall d, Pd (fun n => tkey K n -> forall p c, In (p, c) (tcells xml idn n) -> forall k, In k (skeys p) -> K k) d ->
    tkeyd K d -> forall p c, In (p, c) (tdcells xml idn d) -> forall k, In k (skeys p) -> K k).
  { intros d HF Hd p c Hin k Hk. apply in_tdcells in Hin as (k' & n0 & q & Hin & -> & Hq). 
    destruct (Hd _ _ Hin) as [K1 K2]. cbn in Hk. destruct Hk as [<-|Hk]; [exact K1|].
    unfold Pd in HF. rewrite Forall_forall in HF. eapply (HF _ Hin); eassumption. }
  induction n as [c|d IH|data nk IHd IHn] using tnode_ind'; intros Hn p c0 Hin k Hk.
  - destruct Hin as [Q|[]]. injection Q as <- <-. destruct Hk.
  - rewrite tcells_dict in Hin. eapply D; [exact IH|apply tkey_dict_iff; exact Hn|exact Hin|exact Hk].
  - rewrite tcells_temp in Hin. apply in_items in Hin as (d & q & Hd & -> & Hq). pose proof (proj1 (tkey_temp_iff _ _ _) Hn d Hd) as Hdk.
    rewrite Forall_forall in IHd, IHn. cbn in Hk. eapply D; [|exact Hdk|exact Hq|exact Hk].
    apply in_app_or in Hd as [Hd|Hd]; [|apply IHn; exact Hd]. apply in_map_iff in Hd as ([i d'] & <- & Hd). apply (IHd _ Hd).
Qed.
Lemma in_lstrip f s c : In c (lstrip f s) -> In c s.
Proof. induction s as [|x s IH]; simpl; [auto|]. destruct (f x); [auto|]. intros [|]; auto. Qed.
Lemma in_rstrip f s c : In c (rstrip f s) -> In c s.
Proof. unfold rstrip. intros H. apply in_rev in H. apply in_lstrip in H. apply in_rev. exact H. Qed.
Lemma path_items_good E h x : In x (path_items E h) -> isint x = false -> good_key x.
Proof.
  intros H Hi. split; [|exact Hi]. unfold path_items in H. apply in_map_iff in H as (y & <- & Hy). apply split_on_no_sep_inside in Hy.
  intros Hs. apply Hy. eapply in_rstrip. exact Hs.
Qed.
Lemma fragments_good O sheets d : In d (fragments O sheets) -> tkeyd good_key d.
Proof.
  unfold fragments, rows_of. intros H. apply in_map_iff in H as (x & <- & H). apply in_flat_map in H as (s & Hs & H).
  assert (Hl : forall hs lines j, In x (lines_rows O (si_name s) hs j lines) -> tkeyd good_key (r_obj x)).
  { intros hs lines. induction lines as [|l lines IH]; intros j; cbn [lines_rows]; [intros []|].
    intros Hin. apply in_app_or in Hin as [Hin|Hin]; [|eapply IH; exact Hin].
    unfold line_row in Hin. destruct (forallb _ _); [destruct Hin|].
    destruct (line_cells O (si_name s) hs j 0 l) as [cells w1|e w1] eqn:E1; [|destruct Hin]. simpl in Hin.
    destruct (unflatten_row _ _ _ _ cells) as [d w2|e w2] eqn:E; [|destruct Hin]. destruct Hin as [<-|[]]. simpl.
    eapply unflatten_row_tkeyd; [| |exact E].
    - intros _. split; [|reflexivity]. vm_compute. intuition discriminate.
    - intros h c y _ Hy Hi. eapply path_items_good; eassumption. }
  unfold sheet_rows in H. destruct (si_headings s) as [[|h hs]|]; [destruct H| |]; eapply Hl; exact H.
Qed.

Record good_tree (tree : list jdict) : Prop := {
  gt_wf : wfj (JList tree);
  gt_sub : forall p c, In (p, c) (tree_cells (JList tree)) -> subs_equal c;
  gt_key : forall p c, In (p, c) (tree_cells (JList tree)) -> forall k, In k (pkeys p) -> good_key k }.
Lemma run_good_tree O sheets tree w : do_unflatten O sheets = Ok tree w -> good_tree tree.
Proof.
  intros H. split.
  - destruct (do_unflatten_items _ _ _ _ H) as (st & H1 & ->). destruct (run_inv_run _ _ _ _ H1) as [_ [Hwf _ _ _]].
    assert (Q : JList (map dict_to_j (st_items st)) = to_j (TTemp [] (st_items st))) by reflexivity.
    rewrite Q. apply to_j_wfj. apply twf_temp. exact Hwf.
  - intros p c Hin v l Hv. destruct (tree_cells_spot (o_xml O) (o_id_name O) _ _ _ Hin) as (sp & Hsp & _).
    destruct (no_cell_invented _ _ _ _ H sp c Hsp) as [_ H1]. rewrite cv_eqb_sym. apply (H1 v l Hv).
  - intros p c Hin k Hk. destruct (tree_cells_spot (o_xml O) (o_id_name O) _ _ _ Hin) as (sp & Hsp & Q). rewrite <- Q in Hk.
    destruct (no_cell_invented _ _ _ _ H sp c Hsp) as [(c0 & H0 & _) _]. apply in_flat_map in H0 as (d & Hd & H0).
    apply in_below in H0 as (q & -> & H0). cbn in Hk. apply fragments_good in Hd.
    eapply (tcells_keys good_key (o_xml O) (o_id_name O) (TDict d)); [apply tkey_dict_iff; exact Hd|rewrite tcells_dict; exact H0|exact Hk].
Qed.

(** ** Places *)
Lemma node_at_app n p : forall q m, node_at n (p ++ q) = Some m -> exists n', node_at n p = Some n' /\ node_at n' q = Some m.
Proof.
  revert n. induction p as [|[i|k] p IH]; intros n q m; [intros H; exists n; auto| |]; rewrite <- app_comm_cons; cbn [node_at].
  - destruct n as [|d|l]; try discriminate. destruct (nth_error l (N.to_nat i)); [apply IH|discriminate].
  - destruct n as [|d|l]; try discriminate. destruct (sget k d); [apply IH|discriminate].
Qed.
(** the step taken depends on the kind of node only *)
Lemma N_str_inj i j : N_str i = N_str j -> i = j.
Proof. intros H. pose proof (digits_val_N_str i) as A. rewrite H, digits_val_N_str in A. congruence. Qed.
Lemma places_same n p : forall q m m', node_at n p = Some m -> node_at n q = Some m' -> map step_str p = map step_str q -> p = q.
Proof.
  revert n. induction p as [|a p IH]; intros n [|b q] m m' Hp Hq H; try discriminate; [reflexivity|].
  cbn [map] in H. injection H as H1 H2.
  destruct n as [c|d|l], a as [i|k], b as [j|k']; cbn [node_at] in *; try discriminate; cbn [step_str] in H1.
  - subst k'. destruct (sget k d); [|discriminate]. f_equal. eapply IH; eassumption.
  - apply N_str_inj in H1 as <-. destruct (nth_error l (N.to_nat i)); [|discriminate]. f_equal. eapply IH; eassumption.
Qed.
Lemma places_comparable n p : forall q m m', node_at n p = Some m -> node_at n q = Some m' -> path_cmp p q <> None.
Proof.
  revert n. induction p as [|a p IH]; intros n [|b q] m m' Hp Hq; try discriminate. cbn [path_cmp].
  destruct n as [c|d|l], a as [i|k], b as [j|k']; cbn [node_at] in *; try discriminate; cbn [pstep_cmp].
  - destruct (str_cmp k k') eqn:E; try discriminate.
    assert (k = k') as <-. { clear -E. revert k' E. induction k as [|x k IH]; intros [|y k']; simpl; try discriminate; [reflexivity|].
      destruct (x ?= y)%N eqn:Ex; try discriminate. apply N.compare_eq in Ex as ->. intros H. f_equal. apply IH. exact H. }
    destruct (sget k d); [|discriminate]. eapply IH; eassumption.
  - destruct (i ?= j)%N eqn:E; try discriminate. apply N.compare_eq in E as <-. destruct (nth_error l (N.to_nat i)); [|discriminate]. eapply IH; eassumption.
Qed.
Lemma pre_comparable pre p q : path_cmp p q <> None -> path_cmp (pre ++ p) (pre ++ q) <> None.
Proof.
  intros H. induction pre as [|a pre IH]; [exact H|]. cbn [app path_cmp].
  assert (E : pstep_cmp a a = Some Eq). { destruct a as [i|k]; simpl; [rewrite N.compare_refl; reflexivity|]. f_equal. induction k as [|x k IHk]; [reflexivity|]. simpl. rewrite N.compare_refl. exact IHk. }
  rewrite E. exact IH.
Qed.
Lemma insert_path_perm {V} (x : epath * V) l : Permutation (insert_path x l) (x :: l).
Proof.
  induction l as [|y l IH]; simpl; [apply Permutation_refl|]. destruct (path_cmp (fst x) (fst y)) as [[]|]; try apply Permutation_refl.
  eapply perm_trans; [apply perm_skip; exact IH|]. apply perm_swap.
Qed.
Lemma sort_paths_ok {V} (l : list (epath * V)) : (forall x y, In x l -> In y l -> path_cmp (fst x) (fst y) <> None) ->
  exists l', sort_paths l = Ok l' [] /\ Permutation l' l.
Proof.
  intros H. unfold sort_paths. replace (forallb _ l) with true.
  - eexists. split; [reflexivity|]. clear H. induction l as [|x l IH]; [apply Permutation_refl|]. simpl. eapply perm_trans; [apply insert_path_perm|]. apply perm_skip. exact IH.
  - symmetry. apply forallb_forall. intros x Hx. apply forallb_forall. intros y Hy. specialize (H x y Hx Hy). unfold comparable. destruct (path_cmp _ _); [reflexivity|contradiction].
Qed.

(** paths as text *)
Definition pre (F : fancy) : epath := if f_root_is_list F then [] else [PKey (f_root_list_path F)].
Definition slashless (p : epath) : Prop := forall k, In k (pkeys p) -> ~ In slash k.
Lemma steps_slashless p : slashless p -> forall x, In x (map step_str p) -> ~ In slash x.
Proof.
  intros H x Hx. apply in_map_iff in Hx as ([i|k] & <- & Hin); cbn [step_str].
  - intros Hs. apply N_str_ascii in Hs. unfold slash in Hs. lia.
  - apply H. unfold pkeys. apply in_flat_map. exists (PKey k). split; [exact Hin|left; reflexivity].
Qed.
Lemma path_str_inj F p q : p <> [] -> q <> [] -> slashless p -> slashless q -> path_str (pre F ++ p) = path_str (pre F ++ q) -> map step_str p = map step_str q.
Proof.
  intros Hp Hq Sp Sq H.
  assert (G : path_str p = path_str q -> map step_str p = map step_str q).
  { unfold path_str. intros G. rewrite <- (split_join slash (map step_str p)), <- (split_join slash (map step_str q)).
    - rewrite G. reflexivity.
    - destruct q; [congruence|discriminate].
    - apply steps_slashless. exact Sq.
    - destruct p; [congruence|discriminate].
    - apply steps_slashless. exact Sp. }
  unfold pre in H. destruct (f_root_is_list F); [apply G; exact H|]. apply G. unfold path_str in *. destruct p as [|a p]; [congruence|]. destruct q as [|b q]; [congruence|].
  cbn [app map] in H. rewrite !join_cons in H. apply app_inv_head in H. apply app_inv_head in H. exact H.
Qed.
Lemma path_str_place F p : path_str (pre F ++ p) = place_text F p.
Proof.
  unfold path_str, place_text, pre, root_part. change (u "/") with [slash]. f_equal. rewrite map_app. f_equal. destruct (f_root_is_list F); reflexivity.
Qed.
Lemma header_str_field F p : (forall k, In k (pkeys p) -> isint k = false) -> header_str (pre F ++ p) = field_text F p.
Proof.
  intros H. unfold header_str, field_text. change (u "/") with [slash]. f_equal. rewrite filter_app, map_app. f_equal.
  - unfold pre, root_heading, root_part. destruct (f_root_is_list F); [reflexivity|]. cbn [filter]. unfold isint. destruct (parse_int (f_root_list_path F)); reflexivity.
  - induction p as [|[i|k] p IH]; [reflexivity| |]; cbn [filter flat_map].
    + apply IH. exact H.
    + rewrite (H k (or_introl eq_refl)). cbn [negb map app step_str]. f_equal. apply IH. intros k' Hk. apply H. right. exact Hk.
Qed.

(** the value at a place *)
Lemma value_node n p : value_at (to_v n) p = option_map to_v (node_at n p).
Proof.
  revert n. induction p as [|[i|k] p IH]; intros n; [reflexivity| |]; destruct n as [c|d|l]; try reflexivity.
  - change (to_v (JList l)) with (VList (map dict_to_v l)). cbn [value_at node_at]. rewrite nth_error_map. unfold jdict. destruct (nth_error l (N.to_nat i)) as [d|]; [|reflexivity]. cbn [option_map].
    change (VDict (dict_to_v d)) with (to_v (JDict d)). apply IH.
  - change (to_v (JDict d)) with (VDict (dict_to_v d)). cbn [value_at node_at]. unfold dict_to_v. rewrite sget_map. destruct (sget k d) as [m|]; [apply IH|reflexivity].
Qed.
Lemma leaf_cell tree p v : leaf (map dict_to_v tree) p v <-> exists c, node_at (JList tree) p = Some (JCell c) /\ c_val c = v.
Proof.
  unfold leaf. change (VList (map dict_to_v tree)) with (to_v (JList tree)). rewrite value_node. split.
  - destruct (node_at (JList tree) p) as [[c|d|l]|]; try discriminate. intros [= <-]. exists c. auto.
  - intros (c & -> & <-). reflexivity.
Qed.
