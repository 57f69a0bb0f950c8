(** The source maps describe the output. *)
From Coq Require Import Permutation Lia.
From Verif.Base Require Import PyStr PyNum PyVal PyDict Outcome.
From Verif.Model Require Import Warn Lib Convert Input SourceMap.
From Verif.Spec Require Import Source Cells Rows Maps.
From Verif.Proofs Require Import TreeInd RowWf MergeCells IdRun RunCells RunSource RowKeys.
Local Open Scope res_scope.

(** ** Equality of paths *)
Lemma pstep_eqb_eq a b : pstep_eqb a b = true <-> a = b.
Proof.
  destruct a as [i|k], b as [j|l]; simpl; split; intros H; try discriminate.
  - apply N.eqb_eq in H. congruence.
  - injection H as ->. apply N.eqb_refl.
  - apply str_eqb_eq in H. congruence.
  - injection H as ->. apply str_eqb_refl.
Qed.
Lemma epath_eqb_eq p : forall q, epath_eqb p q = true <-> p = q.
Proof.
  induction p as [|a p IH]; intros [|b q]; simpl; split; intros H; try discriminate; try reflexivity.
  - apply andb_true_iff in H as [H1 H2]. apply pstep_eqb_eq in H1. apply IH in H2. congruence.
  - injection H as -> ->. apply andb_true_iff. split; [apply pstep_eqb_eq; reflexivity|apply IH; reflexivity].
Qed.
Lemma pget_None {V} p (m : list (epath * V)) : pget p m = None <-> ~ In p (map fst m).
Proof.
  unfold pget. induction m as [|[q v] m IH]; simpl; [tauto|]. destruct (epath_eqb p q) eqn:E.
  - apply epath_eqb_eq in E as ->. split; [discriminate|tauto].
  - rewrite IH. split; intros H; [intros [->|Hin]; [|tauto]|tauto]. rewrite (proj2 (epath_eqb_eq p p) eq_refl) in E. discriminate.
Qed.

(** ** The cells of a tree by place *)
Section TC.
  Variable rec : jnode -> list (epath * cell).
  Definition entries_cells (d : jdict) : list (epath * cell) := flat_map (fun kn => map (fun pc => (PKey (fst kn) :: fst pc, snd pc)) (rec (snd kn))) d.
  Fixpoint items_cells (i : N) (l : list jdict) : list (epath * cell) :=
    match l with [] => [] | d :: l' => map (fun pc => (PIdx i :: fst pc, snd pc)) (entries_cells d) ++ items_cells (i + 1)%N l' end.
End TC.
Fixpoint tree_cells (n : jnode) : list (epath * cell) :=
  match n with
  | JCell c => [([], c)]
  | JDict d => entries_cells tree_cells d
  | JList l => items_cells tree_cells 0 l
  end.
Inductive wfj : jnode -> Prop :=
| wfj_cell c : wfj (JCell c)
| wfj_dict d : NoDup (map fst d) -> (forall k n, In (k, n) d -> wfj n) -> wfj (JDict d)
| wfj_list l : (forall d, In d l -> NoDup (map fst d)) -> (forall d k n, In d l -> In (k, n) d -> wfj n) -> wfj (JList l).
Lemma wfj_item l d : wfj (JList l) -> In d l -> wfj (JDict d).
Proof. inversion 1 as [| |? H1 H2]; subst. intros Hin. constructor; [apply H1; exact Hin|intros; eapply H2; eassumption]. Qed.

Lemma in_items_cells rec l : forall i p c, In (p, c) (items_cells rec i l) <->
  exists n d q, p = PIdx (i + N.of_nat n) :: q /\ nth_error l n = Some d /\ In (q, c) (entries_cells rec d).
Proof.
  induction l as [|d l IH]; intros i p c; cbn [items_cells].
  - split; [intros []|intros (n & d & q & _ & H & _); destruct n; discriminate].
  - rewrite in_app_iff, in_map_iff, IH. split.
    + intros [([q c'] & Q & Hin)|(n & d' & q & -> & Hn & Hin)].
      * injection Q as <- <-. exists 0%nat, d, q. rewrite N.add_0_r. auto.
      * exists (S n), d', q. split; [f_equal; f_equal; lia|]. auto.
    + intros (n & d' & q & -> & Hn & Hin). destruct n as [|n]; simpl in Hn.
      * left. injection Hn as ->. exists (q, c). rewrite N.add_0_r. auto.
      * right. exists n, d', q. split; [f_equal; f_equal; lia|]. auto.
Qed.
Lemma in_entries_cells rec d p c : In (p, c) (entries_cells rec d) <-> exists k n q, p = PKey k :: q /\ In (k, n) d /\ In (q, c) (rec n).
Proof.
  unfold entries_cells. rewrite in_flat_map. split.
  - intros ([k n] & Hin & H). apply in_map_iff in H as ([q c'] & Q & H). injection Q as <- <-. exists k, n, q. auto.
  - intros (k & n & q & -> & Hin & H). exists (k, n). split; [exact Hin|]. apply in_map_iff. exists (q, c). auto.
Qed.
Lemma in_tree_cells n : wfj n -> forall p c, In (p, c) (tree_cells n) <-> node_at n p = Some (JCell c).
Proof.
  assert (D : forall d, Pjd (fun n => wfj n -> forall p c, In (p, c) (tree_cells n) <-> node_at n p = Some (JCell c)) d ->
     wfj (JDict d) -> forall p c, In (p, c) (entries_cells tree_cells d) <-> node_at (JDict d) p = Some (JCell c)).
  { intros d HF Hw p c. inversion Hw as [|? Hnd Hw'|]; subst. unfold Pjd in HF. rewrite Forall_forall in HF. rewrite in_entries_cells. split.
    - intros (k & m & q & -> & Hin & H). cbn [node_at]. rewrite (In_sget _ _ _ Hnd Hin). apply (HF _ Hin); [eapply Hw'; exact Hin|exact H].
    - destruct p as [|[i|k] p]; cbn [node_at]; try discriminate. destruct (sget k d) as [m|] eqn:Eg; [|discriminate]. intros H. apply sget_In in Eg.
      exists k, m, p. split; [reflexivity|]. split; [exact Eg|]. apply (HF _ Eg); [eapply Hw'; exact Eg|exact H]. }
  induction n as [c0|d IH|l IH] using jnode_ind'; intros Hw p c.
  - simpl. split.
    + intros [Q|[]]. injection Q as <- <-. reflexivity.
    + destruct p as [|[|] p]; simpl; try discriminate. intros [= ->]. auto.
  - apply D; assumption.
  - cbn [tree_cells]. rewrite in_items_cells. rewrite Forall_forall in IH. split.
    + intros (n & d & q & -> & Hn & Hin). cbn [node_at]. rewrite N.add_0_l, Nat2N.id. unfold jdict in Hn. rewrite Hn. apply nth_error_In in Hn. apply D; [apply IH; exact Hn|eapply wfj_item; eassumption|exact Hin].
    + destruct p as [|[i|k] p]; cbn [node_at]; try discriminate. unfold jdict in *. destruct (nth_error l (N.to_nat i)) as [d|] eqn:En; [|discriminate]. intros H.
      exists (N.to_nat i), d, p. split; [f_equal; f_equal; lia|]. split; [exact En|]. apply nth_error_In in En. apply D; [apply IH; exact En|eapply wfj_item; eassumption|exact H].
Qed.

Lemma NoDup_app' {A} (l m : list A) : NoDup l -> NoDup m -> (forall x, In x l -> ~ In x m) -> NoDup (l ++ m).
Proof.
  intros Hl Hm H. induction Hl as [|x l Hx Hl IH]; [exact Hm|]. simpl. constructor.
  - intros Hin. apply in_app_or in Hin as [Hin|Hin]; [contradiction|]. exact (H x (or_introl eq_refl) Hin).
  - apply IH. intros y Hy. apply H. right. exact Hy.
Qed.
Lemma NoDup_app_l {A} (l m : list A) : NoDup (l ++ m) -> NoDup l.
Proof. induction l as [|x l IH]; simpl; intros H; [constructor|]. apply NoDup_cons_iff in H as [H1 H2]. constructor; [intros Hin; apply H1; apply in_or_app; auto|auto]. Qed.
Lemma NoDup_app_r {A} (l m : list A) : NoDup (l ++ m) -> NoDup m.
Proof. induction l as [|x l IH]; simpl; intros H; [exact H|]. apply NoDup_cons_iff in H as [H1 H2]. auto. Qed.
Lemma NoDup_app_disj {A} (l m : list A) x : NoDup (l ++ m) -> In x l -> ~ In x m.
Proof. induction l as [|y l IH]; simpl; intros H; [intros []|]. apply NoDup_cons_iff in H as [H1 H2]. intros [->|Hin]; [intros Hm; apply H1; apply in_or_app; auto|auto]. Qed.
Lemma NoDup_map_cons s (l : list epath) : NoDup l -> NoDup (map (cons s) l).
Proof. intros H. induction H as [|x l Hx _ IH]; simpl; constructor; [|exact IH]. intros Hin. apply in_map_iff in Hin as (y & Q & Hy). injection Q as ->. contradiction. Qed.
Lemma map_fst_cons s (l : list (epath * cell)) : map fst (map (fun pc => (s :: fst pc, snd pc)) l) = map (cons s) (map fst l).
Proof. rewrite !map_map. reflexivity. Qed.
Lemma tree_cells_NoDup n : wfj n -> NoDup (map fst (tree_cells n)).
Proof.
  assert (D : forall d, Pjd (fun n => wfj n -> NoDup (map fst (tree_cells n))) d -> wfj (JDict d) -> NoDup (map fst (entries_cells tree_cells d))).
  { intros d HF Hw. inversion Hw as [|? Hnd Hw'|]; subst. clear Hw. induction d as [|[k n0] d IHd]; [constructor|]. inversion HF as [|? ? Hn HF']; subst. cbn [map fst] in Hnd. apply NoDup_cons_iff in Hnd as [Hk Hnd].
    unfold entries_cells. cbn [flat_map fst snd]. rewrite map_app, map_fst_cons. apply NoDup_app'.
    - apply NoDup_map_cons. apply Hn. eapply Hw'. left. reflexivity.
    - apply IHd; auto. intros k' n' Hin. eapply Hw'. right. exact Hin.
    - intros p Hp Hq. apply in_map_iff in Hp as (q & <- & _). apply in_map_iff in Hq as ([q' c] & Q & Hq). simpl in Q. subst q'.
      apply in_entries_cells in Hq as (k' & n' & q' & Q & Hin & _). injection Q as -> _. apply Hk. apply in_map_iff. exists (k', n'). auto. }
  induction n as [c0|d IH|l IH] using jnode_ind'; intros Hw.
  - simpl. constructor; [intros []|constructor].
  - apply D; assumption.
  - cbn [tree_cells]. generalize 0%N. assert (Hall : forall d, In d l -> NoDup (map fst (entries_cells tree_cells d))).
    { intros d Hd. rewrite Forall_forall in IH. apply D; [apply IH; exact Hd|eapply wfj_item; eassumption]. } clear IH Hw D.
    induction l as [|d l IHl]; intros i; [constructor|]. cbn [items_cells]. rewrite map_app, map_fst_cons. apply NoDup_app'.
    + apply NoDup_map_cons. apply Hall. left. reflexivity.
    + apply IHl. intros; apply Hall; right; assumption.
    + intros p Hp Hq. apply in_map_iff in Hp as (q & <- & _). apply in_map_iff in Hq as ([q' c] & Q & Hq). simpl in Q. subst q'.
      apply in_items_cells in Hq as (n & d' & q' & Q & _). injection Q as Q _. lia.
Qed.

(** ** Extraction *)
Lemma add_new_ok res : forall out, NoDup (map fst res) -> (forall p, In p (map fst res) -> ~ In p (map fst out)) -> add_new res out = Ok (out ++ res) [].
Proof.
  induction res as [|[p ls] res IH]; intros out Hnd Hdis; cbn [add_new].
  - rewrite app_nil_r. reflexivity.
  - cbn [map fst] in Hnd. apply NoDup_cons_iff in Hnd as [Hp Hnd].
    rewrite (proj2 (pget_None p out)) by (apply Hdis; left; reflexivity). rewrite IH; [rewrite <- app_assoc; reflexivity|exact Hnd|].
    intros q Hq Hin. rewrite map_app in Hin. apply in_app_or in Hin as [Hin|[<-|[]]]; [|contradiction]. apply (Hdis q); [right; exact Hq|exact Hin].
Qed.
Definition locs_at (path : epath) (l : list (epath * cell)) : emap := map (fun pc => (path ++ fst pc, cell_locs (snd pc))) l.
Definition subs_equal (c : cell) : Prop := forall v l, In (v, l) (c_sub c) -> cv_eqb v (c_val c) = true.
Lemma locs_at_fst path l : map fst (locs_at path l) = map (app path) (map fst l).
Proof. unfold locs_at. rewrite !map_map. reflexivity. Qed.
Lemma NoDup_map_app (path : epath) l : NoDup l -> NoDup (map (app path) l).
Proof. intros H. induction H as [|x l Hx _ IH]; simpl; constructor; [|exact IH]. intros Hin. apply in_map_iff in Hin as (y & Q & Hy). apply app_inv_head in Q. subst. contradiction. Qed.
Lemma locs_at_cons path s l : locs_at (path ++ [s]) l = locs_at path (map (fun pc => (s :: fst pc, snd pc)) l).
Proof. unfold locs_at. rewrite map_map. apply map_ext. intros [p c]. simpl. rewrite <- app_assoc. reflexivity. Qed.

Definition extracts (n : jnode) : Prop := wfj n -> (forall p c, In (p, c) (tree_cells n) -> subs_equal c) -> forall path, extract_node path n = Ok (locs_at path (tree_cells n)) [].
Lemma extract_entries_ok d : Pjd extracts d -> wfj (JDict d) -> (forall p c, In (p, c) (entries_cells tree_cells d) -> subs_equal c) ->
  forall path out, (forall p, In p (map fst (locs_at path (entries_cells tree_cells d))) -> ~ In p (map fst out)) ->
  extract_entries extract_node path d out = Ok (out ++ locs_at path (entries_cells tree_cells d)) [].
Proof.
  intros HF Hw Hs path. pose proof (tree_cells_NoDup _ Hw) as Hnd. cbn [tree_cells] in Hnd. inversion Hw as [|? Hk Hw'|]; subst. clear Hw.
  induction d as [|[k n] d IHd]; intros out Hdis; cbn [extract_entries].
  - simpl. rewrite app_nil_r. reflexivity.
  - inversion HF as [|? ? Hn HF']; subst. cbn [snd] in Hn.
    assert (Hsplit : entries_cells tree_cells ((k, n) :: d) = map (fun pc => (PKey k :: fst pc, snd pc)) (tree_cells n) ++ entries_cells tree_cells d) by reflexivity.
    rewrite Hsplit in *. rewrite map_app in Hnd. unfold locs_at in Hdis. rewrite !map_app in Hdis.
    rewrite Hn; [|eapply Hw'; left; reflexivity|].
    2:{ intros p c Hin. apply (Hs (PKey k :: p)). apply in_or_app. left. apply in_map_iff. exists (p, c). auto. }
    cbn [bind]. rewrite locs_at_cons. rewrite add_new_ok.
    + cbn [bind app]. rewrite IHd.
      * cbn [app]. unfold locs_at. rewrite map_app, <- app_assoc. reflexivity.
      * exact HF'.
      * intros p c Hin. apply (Hs p). apply in_or_app. right. exact Hin.
      * eapply NoDup_app_r. exact Hnd.
      * cbn [map fst] in Hk. apply NoDup_cons_iff in Hk as [_ Hk]. exact Hk.
      * intros k' n' Hin. eapply Hw'. right. exact Hin.
      * intros p Hp Hin. rewrite map_app in Hin. apply in_app_or in Hin as [Hin|Hin].
        -- revert Hin. apply Hdis. apply in_or_app. right. exact Hp.
        -- rewrite locs_at_fst in Hp, Hin. apply in_map_iff in Hp as (q & <- & Hq). apply in_map_iff in Hin as (q' & Q & Hq'). apply app_inv_head in Q. subst q'.
           exact (NoDup_app_disj _ _ _ Hnd Hq' Hq).
    + rewrite locs_at_fst. apply NoDup_map_app. eapply NoDup_app_l. exact Hnd.
    + intros p Hp. apply Hdis. apply in_or_app. left. exact Hp.
Qed.
Lemma extract_items_ok l : Forall (Pjd extracts) l -> wfj (JList l) -> forall path i out, 
  (forall p c, In (p, c) (items_cells tree_cells i l) -> subs_equal c) ->
  (forall p, In p (map fst (locs_at path (items_cells tree_cells i l))) -> ~ In p (map fst out)) ->
  extract_items extract_node path i l out = Ok (out ++ locs_at path (items_cells tree_cells i l)) [].
Proof.
  intros HF Hw path. assert (Hwd : forall d, In d l -> wfj (JDict d)) by (intros d Hd; eapply wfj_item; eassumption). clear Hw.
  induction l as [|d l IHl]; intros i out Hs Hdis; cbn [extract_items].
  - simpl. rewrite app_nil_r. reflexivity.
  - inversion HF as [|? ? Hd HF']; subst. cbn [items_cells] in *.
    assert (Hwd0 : wfj (JDict d)) by (apply Hwd; left; reflexivity).
    rewrite extract_entries_ok; [|exact Hd|exact Hwd0| |intros p _ []].
    2:{ intros p c Hin. apply (Hs (PIdx i :: p)). apply in_or_app. left. apply in_map_iff. exists (p, c). auto. }
    cbn [bind app]. rewrite locs_at_cons. unfold locs_at in Hdis. rewrite !map_app in Hdis. rewrite add_new_ok.
    + cbn [bind app]. rewrite IHl.
      * cbn [app]. unfold locs_at. rewrite map_app, <- app_assoc. reflexivity.
      * exact HF'.
      * intros; apply Hwd; right; assumption.
      * intros p c Hin. apply (Hs p). apply in_or_app. right. exact Hin.
      * intros p Hp Hin. rewrite map_app in Hin. apply in_app_or in Hin as [Hin|Hin].
        -- revert Hin. apply Hdis. apply in_or_app. right. exact Hp.
        -- rewrite locs_at_fst in Hp, Hin. apply in_map_iff in Hp as (q & <- & Hq). apply in_map_iff in Hin as (q' & Q & Hq'). apply app_inv_head in Q. subst q'.
           rewrite map_fst_cons in Hq'. apply in_map_iff in Hq' as (r & <- & _). apply in_map_iff in Hq as ([q c] & Q & Hq). simpl in Q. subst q.
           apply in_items_cells in Hq as (n & d' & q & Q & _). injection Q as Q _. lia.
    + rewrite locs_at_fst. apply NoDup_map_app. rewrite map_fst_cons. apply NoDup_map_cons. exact (tree_cells_NoDup _ Hwd0).
    + intros p Hp. apply Hdis. apply in_or_app. left. exact Hp.
Qed.
Theorem extract_ok n : extracts n.
Proof.
  induction n as [c|d IH|l IH] using jnode_ind'; intros Hw Hs path; cbn [extract_node].
  - assert (Hc : forallb (fun s => cv_eqb (fst s) (c_val c)) (c_sub c) = true).
    { apply forallb_forall. intros [v l] Hin. apply (Hs [] c (or_introl eq_refl) v l Hin). }
    rewrite Hc. unfold locs_at. simpl. rewrite app_nil_r. reflexivity.
  - rewrite extract_entries_ok; [reflexivity|exact IH|exact Hw|exact Hs|intros p _ []].
  - rewrite extract_items_ok; [reflexivity|exact IH|exact Hw|exact Hs|intros p _ []].
Qed.
