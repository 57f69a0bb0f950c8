(** A fully identified place holds at most one cell; conflicting rows are warned about. *)
From Coq Require Import QArith.
From Verif.Base Require Import PyStr PyNum PyVal PyDict Outcome.
From Verif.Model Require Import Warn Lib Convert Input.
From Verif.Spec Require Import Ids Cells Rows.
From Verif.Proofs Require Import TreeInd EmbedFacts RowWf Distinct IdInv MergeCells Grouping IdRun RunCells.

Lemma kid_of_inj a b : kid_of a = kid_of b -> kid_of a <> KNan -> py_eqb a b = true.
Proof.
  unfold kid_of, py_eqb. destruct (num_val a) as [[p|m|]|] eqn:Ea, (num_val b) as [[q|n|]|] eqn:Eb; try discriminate; simpl.
  - intros [= H] _. apply Qeq_bool_iff. rewrite <- (Qred_correct p), <- (Qred_correct q), H. reflexivity.
  - intros [= ->] _. apply Bool.eqb_reflx.
  - congruence.
  - intros [= ->] _. pose proof (py_eqb_refl b) as R. unfold not_nan, py_eqb in R. rewrite Eb in R. apply R. reflexivity.
Qed.

Lemma list_eqb_sym {A} (eqb : A -> A -> bool) (Hs : forall a b, eqb a b = eqb b a) a b : list_eqb eqb a b = list_eqb eqb b a.
Proof. revert b; induction a as [|x a IH]; intros [|y b]; simpl; try reflexivity. rewrite Hs, IH. reflexivity. Qed.
Lemma list_eqb_trans {A} (eqb : A -> A -> bool) (Ht : forall a b c, eqb a b = true -> eqb b c = true -> eqb a c = true) a b c :
  list_eqb eqb a b = true -> list_eqb eqb b c = true -> list_eqb eqb a c = true.
Proof.
  revert b c; induction a as [|x a IH]; intros [|y b] [|z c]; simpl; try discriminate; auto.
  rewrite !Bool.andb_true_iff. intros [H1 H2] [H3 H4]. split; eauto.
Qed.
Lemma cv_eqb_sym a b : cv_eqb a b = cv_eqb b a.
Proof.
  destruct a, b; simpl; try reflexivity; [apply py_eqb_sym|apply list_eqb_sym; apply py_eqb_sym| |apply str_eqb_sym].
  apply list_eqb_sym. intros; apply list_eqb_sym; apply py_eqb_sym.
Qed.
Lemma cv_eqb_trans a b c : cv_eqb a b = true -> cv_eqb b c = true -> cv_eqb a c = true.
Proof.
  destruct a, b; simpl; try discriminate; destruct c; simpl; try discriminate.
  - apply py_eqb_trans.
  - apply list_eqb_trans; exact py_eqb_trans.
  - apply list_eqb_trans. intros x y z. apply list_eqb_trans; exact py_eqb_trans.
  - intros H1 H2. apply str_eqb_eq in H1, H2. apply str_eqb_eq. congruence.
Qed.

Section Unique.
  Variables (xml : bool) (idn : str).
  Notation tcells := (Cells.tcells xml idn).
  Notation tdcells := (Cells.tdcells xml idn).
  Notation icells := (Cells.icells xml idn).

  Lemma keyed_unique t d1 d2 i : iokt xml idn t -> In d1 (temp_items t) -> In d2 (temp_items t) ->
    ilab xml idn d1 = Item (Some i) -> ilab xml idn d2 = Item (Some i) -> i <> KNan -> d1 = d2.
  Proof.
    intros [H1 H2 H3 H4] I1 I2 L1 L2 Hi. unfold ilab in *.
    destruct (id_of xml idn d1) as [x|] eqn:E1; [|discriminate]. destruct (id_of xml idn d2) as [y|] eqn:E2; [|discriminate].
    injection L1 as L1. injection L2 as L2. unfold temp_items in *.
    apply in_app_or in I1 as [I1|I1]; [|rewrite (H3 _ I1) in E1; discriminate].
    apply in_app_or in I2 as [I2|I2]; [|rewrite (H3 _ I2) in E2; discriminate].
    apply in_map_iff in I1 as ([k1 d1'] & E & I1). simpl in E. subst d1'. apply in_map_iff in I2 as ([k2 d2'] & E & I2). simpl in E. subst d2'.
    destruct (H2 _ _ I1) as (x' & Ex & Sx). rewrite E1 in Ex. injection Ex as <-.
    destruct (H2 _ _ I2) as (y' & Ey & Sy). rewrite E2 in Ey. injection Ey as <-.
    assert (Hxy : py_eqb k1 k2 = true).
    { assert (kid_of k1 = kid_of k2) by (rewrite (kid_of_sameK _ _ Sx), (kid_of_sameK _ _ Sy); congruence).
      apply kid_of_inj; [assumption|]. rewrite (kid_of_sameK _ _ Sx). congruence. }
    destruct (in_split _ _ I1) as (a & b & E). rewrite E in H1, I2. rewrite map_app in H1. simpl in H1.
    apply in_app_or in I2 as [I2|[I2|I2]]; [|congruence|]; exfalso.
    - assert (G : py_eqb k2 k1 = false).
      { eapply distinct_split; [exact H1|]. apply in_or_app. left. apply in_map_iff. exists (k2, d2). auto. }
      rewrite py_eqb_sym, Hxy in G. discriminate.
    - assert (G : py_eqb k2 k1 = false).
      { eapply distinct_split; [exact H1|]. apply in_or_app. right. apply in_map_iff. exists (k2, d2). auto. }
      rewrite py_eqb_sym, Hxy in G. discriminate.
  Qed.

  Definition uniq (n : tnode) : Prop := twf n -> iok xml idn n -> forall p c c',
    identified p -> In (p, c) (tcells n) -> In (p, c') (tcells n) -> c = c'.
  Lemma identified_cons s p : identified (s :: p) -> identified p.
  Proof. intros H x Hx. apply H. right. exact Hx. Qed.
  Lemma uniq_dict d : Pd uniq d -> tdwf d -> iokd xml idn d -> forall p c c', identified p -> In (p, c) (tdcells d) -> In (p, c') (tdcells d) -> c = c'.
  Proof.
    intros HF [Hnd Hw] Hi p c c' Hp H1 H2. apply in_tdcells in H1 as (k & n & q & I1 & -> & Q1). apply in_tdcells in H2 as (k2 & n2 & q2 & I2 & E & Q2).
    injection E as <- <-. assert (n = n2) as <-.
    { apply (In_sget _ _ _ Hnd) in I1. apply (In_sget _ _ _ Hnd) in I2. congruence. }
    unfold Pd in HF. rewrite Forall_forall in HF. apply (HF (k, n) I1) with (p := q); [eapply Hw; exact I1|eapply Hi; exact I1|eapply identified_cons; exact Hp|exact Q1|exact Q2].
  Qed.
  Lemma uniq_items t : (forall d, In d (temp_items t) -> Pd uniq d /\ tdwf d) -> iokt xml idn t ->
    forall p c c', identified p -> In (p, c) (flat_map icells (temp_items t)) -> In (p, c') (flat_map icells (temp_items t)) -> c = c'.
  Proof.
    intros HF Ht p c c' Hp H1 H2. apply in_items in H1 as (d1 & q & I1 & -> & Q1). apply in_items in H2 as (d2 & q2 & I2 & E & Q2). injection E as E <-.
    assert (Hl : exists i, ilab xml idn d1 = Item (Some i) /\ i <> KNan).
    { specialize (Hp _ (or_introl eq_refl)). unfold ilab in *. destruct (option_map kid_of (id_of xml idn d1)) as [i|]; [|destruct Hp].
      exists i. split; [reflexivity|]. intros ->. exact Hp. }
    destruct Hl as (i & Hl & Hi).
    assert (d1 = d2) as <- by (eapply keyed_unique; [exact Ht|exact I1|exact I2|exact Hl|unfold ilab in *; congruence|exact Hi]).
    destruct (HF _ I1) as [F W]. eapply uniq_dict; [exact F|exact W|apply (it_sub _ _ _ Ht); exact I1|eapply identified_cons; exact Hp|exact Q1|exact Q2].
  Qed.
  Lemma tcells_uniq n : uniq n.
  Proof.
    induction n as [c0|d IH|data nk IHd IHn] using tnode_ind'; intros Hw Hi p c c' Hp H1 H2.
    - destruct H1 as [H1|[]], H2 as [H2|[]]. congruence.
    - apply twf_dict in Hw. apply iok_dict_iff in Hi. exact (uniq_dict d IH Hw Hi p c c' Hp H1 H2).
    - rewrite tcells_temp in H1, H2. apply iok_temp_iff in Hi. rewrite twf_temp in Hw.
      eapply (uniq_items (data, nk)); [|exact Hi|exact Hp|exact H1|exact H2].
      intros d Hd. split; [|apply Hw; exact Hd]. unfold temp_items in Hd. simpl in Hd. apply in_app_or in Hd as [Hd|Hd].
      + apply in_map_iff in Hd as ([k d'] & E & Hd). simpl in E. subst d'. rewrite Forall_forall in IHd. exact (IHd _ Hd).
      + rewrite Forall_forall in IHn. exact (IHn _ Hd).
  Qed.
End Unique.

Section Run.
  Variable O : opts.
  Notation xml := (o_xml O).
  Notation idn := (o_id_name O).

  (** without a root id the state is one array *)
  Lemma one_group sheets st w : o_root_id O = [] -> do_sheets O sheets [] = Ok st w ->
    exists t, st_items st = temp_items t /\ iokt xml idn t.
  Proof.
    intros Hroot H. pose proof (run_stok _ _ _ _ H) as [Hd Hst]. pose proof (run_one_root _ _ _ _ Hroot H) as Hkeys.
    destruct st as [|[k1 t1] st].
    - exists ([], []). split; [reflexivity|apply iokt_nil].
    - destruct st as [|[k2 t2] st].
      + exists t1. unfold st_items. simpl. rewrite app_nil_r. split; [reflexivity|]. eapply Hst. left. reflexivity.
      + exfalso. inversion Hd as [|? ? H1 H2]; subst. rewrite Forall_forall in H1. specialize (H1 k2 (or_introl eq_refl)).
        rewrite (Hkeys k1 t1 (or_introl eq_refl)), (Hkeys k2 t2 (or_intror (or_introl eq_refl))) in H1. discriminate.
  Qed.

  Theorem place_unique sheets out w : o_root_id O = [] -> do_unflatten O sheets = Ok out w ->
    forall p c c', identified p -> In (p, c) (out_cells xml idn out) -> In (p, c') (out_cells xml idn out) -> c = c'.
  Proof.
    intros Hroot H p c c' Hp H1 H2. apply do_unflatten_items in H as (st & H & ->). rewrite out_cells_map in H1, H2.
    destruct (one_group _ _ _ Hroot H) as (t & Et & Ht). destruct (run_inv_run _ _ _ _ H) as [_ [Hwf _ _ _]]. rewrite Et in *.
    eapply uniq_items; [|exact Ht|exact Hp|exact H1|exact H2]. intros d Hd. split; [|apply Hwf; exact Hd].
    apply Forall_forall. intros kv _. apply tcells_uniq.
  Qed.

  Theorem conflict_reported sheets out w : o_root_id O = [] -> do_unflatten O sheets = Ok out w ->
    forall p c1 c2, identified p ->
      In (p, c1) (flat_map (icells xml idn) (fragments O sheets)) -> In (p, c2) (flat_map (icells xml idn) (fragments O sheets)) ->
      c_val c1 <> c_val c2 -> cv_eqb (c_val c1) (c_val c2) = false ->
      exists x, In x w /\ (named_by x p c1 \/ named_by x p c2).
  Proof.
    intros Hroot H p c1 c2 Hp H1 H2 Hne Heq.
    destruct (no_cell_lost _ _ _ _ H p c1 H1) as [(d1 & D1 & _ & V1)|(x & Hx & Hn)]; [|exists x; auto].
    destruct (no_cell_lost _ _ _ _ H p c2 H2) as [(d2 & D2 & _ & V2)|(x & Hx & Hn)]; [|exists x; auto].
    exfalso. pose proof (place_unique _ _ _ Hroot H p d1 d2 Hp D1 D2) as <-.
    destruct V1 as [V1|V1], V2 as [V2|V2].
    - congruence.
    - rewrite V1 in V2. congruence.
    - rewrite V2, cv_eqb_sym in V1. congruence.
    - rewrite cv_eqb_sym in V1. rewrite (cv_eqb_trans _ _ _ V1 V2) in Heq. discriminate.
  Qed.
End Run.
