(** The order of the entries of the source maps. *)
From Coq Require Import Permutation Sorted Lia.
From Verif.Base Require Import PyStr PyNum PyVal PyDict Outcome.
From Verif.Model Require Import Warn Lib Convert Input SourceMap.
From Verif.Spec Require Import Source Ids Cells Rows Maps.
From Verif.Proofs Require Import TreeInd EmbedFacts RunCells RunSource MapFacts MapRun MapSound.
Local Open Scope res_scope.

Lemma str_cmp_before a : forall b, match str_cmp a b with Eq => a = b | Lt => text_before a b | Gt => text_before b a end.
Proof.
  induction a as [|x a IH]; intros [|y b]; cbn [str_cmp]; try (reflexivity || constructor). destruct (N.compare_spec x y) as [->|H|H].
  - specialize (IH b). destruct (str_cmp a b); [subst; reflexivity|apply tb_same, IH|apply tb_same, IH].
  - apply tb_char, H.
  - apply tb_char, H.
Qed.
Lemma path_cmp_before p : forall q, match path_cmp p q with Some Eq => p = q | Some Lt => before p q | Some Gt => before q p | None => True end.
Proof.
  induction p as [|a p IH]; intros [|b q]; cbn [path_cmp]; try (reflexivity || constructor). destruct a as [i|k], b as [j|l]; cbn [pstep_cmp]; try exact I.
  - destruct (N.compare_spec i j) as [->|H|H]; [|apply bf_index, H|apply bf_index, H]. specialize (IH q). destruct (path_cmp p q) as [[]|]; [subst; reflexivity|apply bf_same, IH|apply bf_same, IH|exact I].
  - pose proof (str_cmp_before k l) as H. destruct (str_cmp k l); [subst l|apply bf_field, H|apply bf_field, H]. specialize (IH q). destruct (path_cmp p q) as [[]|]; [subst; reflexivity|apply bf_same, IH|apply bf_same, IH|exact I].
Qed.
Lemma text_before_trans a b c : text_before a b -> text_before b c -> text_before a c.
Proof.
  intros H. revert c. induction H as [x t|x y s t H|x s t _ IH]; intros c Hc; inversion Hc; subst; first [apply tb_end|apply tb_char; lia|apply tb_same; apply IH; assumption].
Qed.
Lemma text_before_irrefl a : ~ text_before a a.
Proof. induction a as [|x a IH]; intros H; inversion H; subst; [lia|apply IH; assumption]. Qed.
Lemma before_trans a b c : before a b -> before b c -> before a c.
Proof.
  intros H. revert c. induction H as [x q|i j p q H|k l p q H|x p q _ IH]; intros c Hc; inversion Hc; subst;
    first [apply bf_end|apply bf_index; lia|apply bf_field; assumption|apply bf_field; eapply text_before_trans; eassumption|apply bf_same; apply IH; assumption].
Qed.
Lemma before_irrefl p : ~ before p p.
Proof. induction p as [|x p IH]; intros H; inversion H; subst; [lia|eapply text_before_irrefl; eassumption|apply IH; assumption]. Qed.

Definition items_before {V} (x y : epath * V) : Prop := before (fst x) (fst y).
Lemma insert_sorted {V} (x : epath * V) l : StronglySorted items_before l -> (forall y, In y l -> path_cmp (fst x) (fst y) <> None /\ fst x <> fst y) -> StronglySorted items_before (insert_path x l).
Proof.
  induction l as [|y l IH]; intros HS Hc; cbn [insert_path]; [repeat constructor|]. inversion HS as [|? ? HS' Hy]; subst. destruct (Hc y (or_introl eq_refl)) as [Hn Hne]. pose proof (path_cmp_before (fst x) (fst y)) as Hp.
  destruct (path_cmp (fst x) (fst y)) as [[]|] eqn:E; [contradiction| | |contradiction].
  - constructor; [exact HS|]. constructor; [exact Hp|]. eapply Forall_impl; [|exact Hy]. intros z Hz. eapply before_trans; [exact Hp|exact Hz].
  - constructor; [apply IH; [exact HS'|intros z Hz; apply Hc; right; exact Hz]|]. eapply Permutation_Forall; [apply Permutation_sym, insert_path_perm|]. constructor; [exact Hp|exact Hy].
Qed.
Lemma sort_sorted {V} (l l' : list (epath * V)) w : sort_paths l = Ok l' w -> NoDup (map fst l) -> Permutation l' l /\ StronglySorted items_before l'.
Proof.
  unfold sort_paths. destruct (forallb _ l) eqn:E; [|discriminate]. intros [= <- _] Hnd.
  assert (G : forall m : list (epath * V), (forall x y, In x m -> In y m -> path_cmp (fst x) (fst y) <> None) -> NoDup (map fst m) -> Permutation (fold_right insert_path [] m) m /\ StronglySorted items_before (fold_right insert_path [] m)).
  { clear. induction m as [|x m IH]; intros Hc Hnd; cbn [fold_right]; [split; constructor|]. cbn [map] in Hnd. apply NoDup_cons_iff in Hnd as [Hx Hnd]. destruct IH as [Hp Hs]; [intros a b Ha Hb; apply Hc; right; assumption|exact Hnd|]. split.
    - eapply perm_trans; [apply insert_path_perm|]. apply perm_skip, Hp.
    - apply insert_sorted; [exact Hs|]. intros y Hy. eapply Permutation_in in Hy; [|exact Hp]. split; [apply Hc; [left; reflexivity|right; exact Hy]|]. intros Q. apply Hx. rewrite Q. apply in_map, Hy. }
  apply G; [|exact Hnd]. intros x y Hx Hy. rewrite forallb_forall in E. specialize (E x Hx). rewrite forallb_forall in E. specialize (E y Hy). unfold comparable in E. destruct (path_cmp _ _); [discriminate|discriminate E].
Qed.

(** keys in the order of first occurrence *)
Lemma sset_keys_seen {V} k (v : V) m : map fst (sset k v m) = if str_mem k (map fst m) then map fst m else map fst m ++ [k].
Proof.
  unfold sset. induction m as [|[x y] m IH]; [reflexivity|]. cbn [aset map fst str_mem existsb]. fold (str_mem k (map fst m)). destruct (str_eqb k x) eqn:E; cbn [orb map fst]; [reflexivity|]. rewrite IH. destruct (str_mem k (map fst m)); reflexivity.
Qed.
Definition note (acc : list str) (k : str) : list str := if str_mem k acc then acc else acc ++ [k].
Lemma filter_filter {A} (p q : A -> bool) l : filter p (filter q l) = filter (fun x => q x && p x) l.
Proof. induction l as [|x l IH]; [reflexivity|]. cbn [filter]. destruct (q x); cbn [filter andb]; rewrite IH; reflexivity. Qed.
Lemma fold_note l : forall acc, fold_left note l acc = acc ++ filter (fun y => negb (str_mem y acc)) (firsts l).
Proof.
  induction l as [|x l IH]; intros acc; cbn [fold_left firsts filter]; [rewrite app_nil_r; reflexivity|]. rewrite IH. unfold note. rewrite filter_filter. destruct (str_mem x acc) eqn:E; cbn [negb].
  - f_equal. apply filter_ext. intros y. destruct (str_eqb x y) eqn:Ey; [|reflexivity]. apply str_eqb_eq in Ey. subst y. rewrite E. reflexivity.
  - rewrite <- app_assoc. cbn [app]. f_equal. f_equal. apply filter_ext. intros y. unfold str_mem. rewrite existsb_app. cbn [existsb]. rewrite Bool.orb_false_r, Bool.negb_orb, (str_eqb_sym y x). apply Bool.andb_comm.
Qed.
Lemma bump_keys {X A} (eqb : A -> A -> bool) (key : X -> str) (vals : X -> list A) l : forall m,
  map fst (fold_left (fun m x => bump eqb (key x) (vals x) m) l m) = fold_left note (map key l) (map fst m).
Proof.
  induction l as [|x l IH]; intros m; [reflexivity|]. cbn [fold_left map]. rewrite IH. f_equal. unfold bump. cbv zeta. apply sset_keys_seen.
Qed.
Lemma bump_firsts {X A} (eqb : A -> A -> bool) (key : X -> str) (vals : X -> list A) l : map fst (fold_left (fun m x => bump eqb (key x) (vals x) m) l []) = firsts (map key l).
Proof. rewrite bump_keys, fold_note. cbn [map app]. clear. induction (firsts (map key l)) as [|x r IH]; [reflexivity|]. cbn in IH |- *. rewrite IH. reflexivity. Qed.
Lemma add_rows_keys rows : forall m m' w, add_rows rows m = Ok m' w -> map fst m' = map fst m ++ map fst rows.
Proof.
  induction rows as [|[k l] rows IH]; intros m m' w H; cbn [add_rows] in H; [injection H as <- _; rewrite app_nil_r; reflexivity|]. unfold shas, ahas in H. destruct (aget str_eqb k m) eqn:E; [discriminate H|]. apply IH in H. rewrite H. rewrite sset_new by exact E. rewrite map_app, <- app_assoc. reflexivity.
Qed.
Lemma firsts_nodup l : NoDup l -> firsts l = l.
Proof.
  intros H. induction H as [|x l Hx _ IH]; [reflexivity|]. cbn [firsts]. rewrite IH. f_equal. clear IH. induction l as [|y l IH]; [reflexivity|]. cbn [filter]. destruct (str_eqb x y) eqn:E.
  - apply str_eqb_eq in E. subst y. exfalso. apply Hx. left. reflexivity.
  - cbn [negb]. f_equal. apply IH. intros Hi. apply Hx. right. exact Hi.
Qed.

Theorem maps_in_order O F sheets r mc mh w : fancy_unflatten O F sheets = Ok (r, mc, mh) w ->
  mc = None /\ mh = None \/
  exists ps, StronglySorted before ps /\ (forall p, In p ps <-> exists v, leaf r p v) /\
    (forall m, mc = Some m -> map fst m = map (place_text F) ps ++ firsts (map (fun p => place_text F (removelast p)) ps)) /\
    (forall h, f_headings F = true -> mh = Some h -> map fst h = firsts (map (field_text F) ps)).
Proof.
  intros H. unfold fancy_unflatten in H. apply bind_ok in H as (tree & w1 & w2 & H1 & H & ->). cbv zeta in H. destruct (f_cells F || f_headings F).
  2:{ left. injection H as _ <- <- _. split; reflexivity. }
  right. pose proof (run_good_tree _ _ _ _ H1) as G. fold (pre F) in H. apply bind_ok in H as (me & w3 & w4 & H2 & H & ->).
  assert (He : extract_list_to_error_path (pre F) tree = Ok (locs_at (pre F) (tree_cells (JList tree))) []) by exact (extract_ok (JList tree) (gt_wf _ G) (gt_sub _ G) (pre F)).
  rewrite He in H2. injection H2 as <- <-. apply bind_ok in H as (items & w5 & w6 & H3 & H & ->).
  assert (Hnd : NoDup (map fst (locs_at (pre F) (tree_cells (JList tree))))) by (rewrite locs_at_fst; apply NoDup_map_app, tree_cells_NoDup, gt_wf, G).
  destruct (sort_sorted _ _ _ H3 Hnd) as [Hp Hs].
  assert (Er : r = map dict_to_v tree).
  { destruct (f_cells F); [apply bind_ok in H as (c & w7 & w8 & _ & H & _)|]; injection H as <- _ _ _; reflexivity. }
  assert (Hin : forall x, In x items <-> exists p c, node_at (JList tree) p = Some (JCell c) /\ x = (pre F ++ p, cell_locs c)).
  { intros x. split.
    - intros Hx. eapply Permutation_in in Hx; [|exact Hp]. unfold locs_at in Hx. apply in_map_iff in Hx as ([p c] & <- & Hx). exists p, c. split; [apply (in_tree_cells (JList tree) (gt_wf _ G)); exact Hx|reflexivity].
    - intros (p & c & Hc & ->). eapply Permutation_in; [apply Permutation_sym; exact Hp|]. unfold locs_at. apply in_map_iff. exists (p, c). split; [reflexivity|]. apply (in_tree_cells (JList tree) (gt_wf _ G)); exact Hc. }
  set (n := length (pre F)). exists (map (fun x => skipn n (fst x)) items).
  assert (Eskip : forall p, skipn n (pre F ++ p) = p).
  { intros p. unfold n. rewrite skipn_app, skipn_all, Nat.sub_diag. reflexivity. }
  assert (Hlf : forall p, In p (map (fun x => skipn n (fst x)) items) <-> exists v, leaf r p v).
  { intros p. rewrite in_map_iff, Er. split.
    - intros (x & <- & Hx). apply Hin in Hx as (q & c & Hc & ->). cbn [fst]. rewrite Eskip. exists (c_val c). apply leaf_cell. exists c. auto.
    - intros (v & Hl). apply leaf_cell in Hl as (c & Hc & _). exists (pre F ++ p, cell_locs c). cbn [fst]. split; [apply Eskip|]. apply Hin. eauto. }
  assert (Hpre : forall x, In x items -> pre F ++ skipn n (fst x) = fst x) by (intros x Hx; apply Hin in Hx as (q & c & _ & ->); cbn [fst]; rewrite Eskip; reflexivity).
  split; [|split; [exact Hlf|split]].
  - assert (Hb : forall p q, before (pre F ++ p) (pre F ++ q) -> before p q).
    { unfold pre. destruct (f_root_is_list F); [auto|]. cbn [app]. intros p q Hb. inversion Hb; subst; [exfalso; eapply text_before_irrefl; eassumption|assumption]. }
    clear - Hs Hpre Hb. induction Hs as [|x l Hs IH Hx]; cbn [map]; constructor; [apply IH; intros y Hy; apply Hpre; right; exact Hy|]. apply Forall_map. apply Forall_forall. intros y Hy. rewrite Forall_forall in Hx. specialize (Hx y Hy). unfold items_before in Hx.
    apply Hb. exact (eq_ind_r (fun z => before z (pre F ++ skipn n (fst y))) (eq_ind_r (fun z => before (fst x) z) Hx (Hpre y (or_intror Hy))) (Hpre x (or_introl eq_refl))).
  - intros m ->. destruct (f_cells F); [|discriminate H]. apply bind_ok in H as (c & w7 & w8 & H4 & H & _). injection H as _ <- _ _.
    rewrite (add_rows_keys _ _ _ _ H4).
    assert (Hk : NoDup (map (fun x : epath * list loc => path_str (fst x)) items)).
    { assert (HN : NoDup (map fst items)) by (eapply Permutation_NoDup; [apply Permutation_map, Permutation_sym, Hp|exact Hnd]). clear - HN Hin Eskip G.
      assert (Hall : forall x, In x items -> exists p c, node_at (JList tree) p = Some (JCell c) /\ x = (pre F ++ p, cell_locs c)) by (intros x Hx; apply Hin, Hx). clear Hin. induction items as [|x l IH]; [constructor|]. cbn [map] in HN |- *. apply NoDup_cons_iff in HN as [Hx HN]. constructor; [|apply IH; [exact HN|intros y Hy; apply Hall; right; exact Hy]].
      intros Hi. apply in_map_iff in Hi as (y & Q & Hy). destruct (Hall x (or_introl eq_refl)) as (p & c & Hc & ->). destruct (Hall y (or_intror Hy)) as (q & c' & Hc' & ->). cbn [fst] in *. rewrite !path_str_place in Q.
      apply (leaf_text_inj F tree q p (c_val c') (c_val c) G) in Q; [|apply leaf_cell; eauto|apply leaf_cell; eauto]. subst q. apply Hx. apply in_map_iff. exists (pre F ++ p, cell_locs c'). auto. }
    rewrite cell_entries_list by exact Hk. rewrite map_map. cbn [fst]. f_equal.
    + rewrite map_map. apply map_ext_in. intros x Hx. cbv beta. rewrite <- path_str_place. exact (f_equal path_str (eq_sym (Hpre x Hx))).
    + transitivity (firsts (map (fun x : epath * list loc => path_str (removelast (fst x))) items)); [exact (bump_firsts pair_eqb (fun x : epath * list loc => path_str (removelast (fst x))) (fun x => map (fun l => (l_sheet l, l_row l)) (snd x)) items)|].
      rewrite map_map. f_equal. apply map_ext_in. intros x Hx.
      apply Hin in Hx as (p & c' & Hc & ->). cbn [fst]. rewrite Eskip, <- path_str_place. f_equal. destruct (cell_parent tree p c' Hc) as (q & k & d & -> & _). rewrite app_assoc, !removelast_last. reflexivity.
  - intros h Hfh ->. assert (Eh : h = fold_left heading_step items []).
    { rewrite Hfh in H. destruct (f_cells F); [apply bind_ok in H as (c & w7 & w8 & _ & H & _)|]; injection H as _ _ <- _; reflexivity. }
    rewrite Eh. transitivity (firsts (map (fun x : epath * list loc => header_str (fst x)) items)); [exact (bump_firsts hpair_eqb (fun x : epath * list loc => header_str (fst x)) (fun x => map (fun l => (l_sheet l, l_heading l)) (snd x)) items)|].
    rewrite map_map. f_equal. apply map_ext_in. intros x Hx.
    apply Hin in Hx as (p & c & Hc & ->). cbn [fst]. rewrite Eskip. apply header_str_field. intros k Hk. apply (gt_key _ G p c); [apply (in_tree_cells (JList tree) (gt_wf _ G)); exact Hc|exact Hk].
Qed.
