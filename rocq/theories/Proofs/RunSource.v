(** Every value of the output is the conversion of the cell its location names. *)
From Verif.Base Require Import PyStr PyNum PyVal PyDict Outcome.
From Verif.Model Require Import Warn Lib Convert Input Json.
From Verif.Spec Require Import Ids Cells Rows Source Conversion.
From Verif.Proofs Require Import ColumnFacts TreeInd EmbedFacts RowWf IdInv MergeCells Grouping IdRun RunCells ConvertFacts.

(** ** Values *)
Lemma split_array_out s : out_value (split_array s).
Proof.
  unfold split_array. destruct (mem_c comma s); simpl.
  - intros r x Hr Hx. apply in_map_iff in Hr as (y & <- & _). apply in_map_iff in Hx as (z & <- & _). exact I.
  - intros x Hx. apply in_map_iff in Hx as (z & <- & _). exact I.
Qed.
Lemma splits_numbers_out s r : splits_numbers s r -> out_value r.
Proof.
  intros [l ds _ _|l ds _ _]; simpl.
  - intros x Hx. apply in_map_iff in Hx as (z & <- & _). exact I.
  - intros r' x Hr Hx. apply in_map_iff in Hr as (y & <- & _). apply in_map_iff in Hx as (z & <- & _). exact I.
Qed.
Lemma convert_out E ty v x w : convert_type E ty v = Ok x w -> cv_blank x = false -> out_value x.
Proof.
  assert (Hs : forall t, cv_blank (CV (SStr t)) = false -> out_value (CV (SStr t))).
  { intros t Ht. simpl. split; [exact I|]. intros [= ->]. discriminate. }
  assert (Hret : forall (a b : cellval) w', @Ok warning cellval a w' = Ok x w -> (cv_blank x = false -> out_value a) -> cv_blank x = false -> out_value x).
  { intros a b w' [= -> _]. auto. }
  unfold convert_type. destruct (cv_blank v) eqn:Bv; [intros [= <- _]; discriminate|].
  repeat match goal with
         | |- (if ?c then _ else _) = _ -> _ => destruct c
         | |- match ?v with CV _ => _ | _ => _ end = _ -> _ => destruct v
         | |- match ?v with SNone => _ | _ => _ end = _ -> _ => destruct v
         | |- match ?v with [] => _ | _ :: _ => _ end = _ -> _ => destruct v
         | |- match ?v with Some _ => _ | None => _ end = _ -> _ => destruct v eqn:?
         | |- match ?v with IVal _ => _ | ICaught => _ | IOverflow => _ end = _ -> _ => destruct v
         | |- match ?v with WktOk _ => _ | WktBad => _ | WktRaise => _ end = _ -> _ => destruct v
         | |- match ?v with FFin _ _ _ => _ | _ => _ end = _ -> _ => destruct v
         end; try discriminate; intros [= <- _] Hb; try discriminate Hb; try (apply Hs; exact Hb); try (split; [exact I|discriminate]); try exact I;
    try apply split_array_out; try (eapply splits_numbers_out; apply split_number_array_ok; eassumption).
Qed.
Lemma stored_out E T v x : stored E T v x -> out_value x.
Proof. intros (x0 & ty & w & _ & _ & H & Hb). eapply convert_out; eassumption. Qed.

(** ** Locations *)
Section Run.
  Variable O : opts.
  Notation xml := (o_xml O).
  Notation idn := (o_id_name O).

  Lemma line_cells_at sheet hs j line : forall k cells w, line_cells O sheet hs j k line = Ok cells w ->
    forall h c, In (h, c) cells -> exists i v, nth_error line i = Some (h, v) /\ c_val c = CV v /\
      l_sheet (c_loc c) = sheet /\ l_row (c_loc c) = (j + 2)%N /\
      l_col (c_loc c) = (if o_vertical O then N_str (k + N.of_nat i + 1)%N else column_letter (k + N.of_nat i + 1)%N) /\
      match hs with None => l_heading (c_loc c) = h | Some l => nth_error l (N.to_nat k + i) = Some (l_heading (c_loc c)) end.
  Proof.
    induction line as [|[h0 v0] line IH]; intros k cells w; cbn [line_cells].
    - intros [= <- _] ? ? [].
    - intros H. apply bind_ok in H as (x & w1 & w2 & H0 & H & _). apply bind_ok in H as (r & w3 & w4 & H1 & H2 & _).
      injection H2 as <- _. intros h c [E|Hin].
      + injection E as <- <-. exists 0%nat, v0. simpl. rewrite N.add_0_r, Nat.add_0_r. repeat (split; [reflexivity|]).
        destruct hs as [l|]; [|injection H0 as <- _; reflexivity]. destruct (nth_error l (N.to_nat k)); [|discriminate]. injection H0 as <- _. reflexivity.
      + destruct (IH _ _ _ H1 h c Hin) as (i & v & A1 & A2 & A3 & A4 & A5 & A6). exists (S i), v. split; [exact A1|].
        split; [exact A2|]. split; [exact A3|]. split; [exact A4|]. replace (k + N.of_nat (S i) + 1)%N with (k + 1 + N.of_nat i + 1)%N by lia.
        split; [exact A5|]. destruct hs as [l|]; [|exact A6]. rewrite <- A6. f_equal. lia.
  Qed.

  Definition sourced (sheets : list sheet_in) (c : cell) : Prop :=
    exists v, raw_at O sheets (c_loc c) v /\ stored (o_conv O) (o_types O) (CV v) (c_val c).

  Lemma rows_sourced sheets x : In x (rows_of O sheets) -> talld (sourced sheets) (r_obj x).
  Proof.
    unfold rows_of. intros H. apply in_flat_map in H as (s & Hs & H).
    assert (Hl : forall hs lines j, (forall i line, nth_error lines i = Some line -> nth_error (si_lines s) (N.to_nat j + i) = Some line) ->
              hs = si_headings s -> In x (lines_rows O (si_name s) hs j lines) -> talld (sourced sheets) (r_obj x)).
    { intros hs lines. induction lines as [|l lines IH]; intros j Hj Ehs; cbn [lines_rows]; [intros []|].
      intros Hin. apply in_app_or in Hin as [Hin|Hin].
      2:{ apply (IH (j + 1)%N); [|exact Ehs|exact Hin]. intros i line Hi. rewrite <- (Hj (S i) line Hi). f_equal. lia. }
      unfold line_row in Hin. destruct (forallb _ _); [destruct Hin|].
      destruct (line_cells O (si_name s) hs j 0 l) as [cells w1|e w1] eqn:E1; [|destruct Hin]. simpl in Hin.
      destruct (unflatten_row _ _ _ _ cells) as [d w2|e w2] eqn:E; [|destruct Hin]. destruct Hin as [<-|[]]. simpl.
      eapply unflatten_row_talld; [|exact E]. intros h c x Hc Hx.
      destruct (line_cells_at _ _ _ _ _ _ _ E1 h c Hc) as (i & v & A1 & A2 & A3 & A4 & A5 & A6).
      exists v. split.
      - exists s, (N.to_nat j), i, l, h. simpl. rewrite N.add_0_l in A5. rewrite N2Nat.id.
        split; [exact Hs|]. split; [rewrite <- (Hj 0%nat l eq_refl); f_equal; lia|]. split; [exact A1|]. split; [exact A3|]. split; [exact A4|].
        split; [rewrite A5; apply column_name_ok|]. subst hs. destruct (si_headings s); [rewrite <- A6; f_equal; lia|exact A6].
      - simpl. rewrite <- A2. exact Hx. }
    unfold sheet_rows in H. destruct (si_headings s) as [[|h hs]|] eqn:Eh; [destruct H| |];
      (eapply (Hl _ _ 0%N); [|reflexivity|exact H]; intros i line Hi; exact Hi).
  Qed.

  Theorem out_cells_sourced sheets out w : do_unflatten O sheets = Ok out w ->
    forall p c, In (p, c) (out_cells xml idn out) ->
      (exists v, raw_at O sheets (c_loc c) v /\ stored (o_conv O) (o_types O) (CV v) (c_val c)) /\
      (forall x l, In (x, l) (c_sub c) -> cv_eqb (c_val c) x = true /\
         exists v, raw_at O sheets l v /\ stored (o_conv O) (o_types O) (CV v) x).
  Proof.
    intros H p c Hc. destruct (no_cell_invented _ _ _ _ H p c Hc) as [(c0 & H0 & E1 & E2) H1].
    assert (G : forall q c1, In (q, c1) (flat_map (icells xml idn) (fragments O sheets)) -> sourced sheets c1).
    { intros q c1 Hin. apply in_flat_map in Hin as (d & Hd & Hin). unfold fragments in Hd. apply in_map_iff in Hd as (x & <- & Hx).
      unfold icells, below in Hin. apply in_map_iff in Hin as ([q' c2] & Eq & Hin). injection Eq as _ <-.
      exact (talld_cells xml idn _ _ (rows_sourced _ _ Hx) _ _ Hin). }
    split.
    - rewrite E1, E2. exact (G _ _ H0).
    - intros x l Hx. destruct (H1 x l Hx) as [H2 (c1 & Hin & <- & <-)]. split; [exact H2|]. exact (G _ _ Hin).
  Qed.

  (** leaves of the produced JSON are leaves of the cell tree *)
  Lemma inside_leaf_cell n v : inside (VLeaf v) (to_v n) -> exists p c, In (p, c) (jcells xml idn n) /\ c_val c = v.
  Proof.
    induction n as [c|d IH|l IH] using jnode_ind'; simpl; intros H.
    - inversion H. exists [], c. split; [left; reflexivity|congruence].
    - inversion H as [|k m d' Hin Hi|]; subst. apply in_map_iff in Hin as ([k' n'] & E & Hin). injection E as <- <-.
      unfold Pjd in IH. rewrite Forall_forall in IH. destruct (IH _ Hin Hi) as (p & c & Hc & E). exists (Key k' :: p), c. split; [|exact E].
      apply in_flat_map. exists (k', n'). split; [exact Hin|]. unfold below. apply in_map_iff. exists (p, c). auto.
    - inversion H as [| |k m d' l' Hd Hin Hi]; subst. apply in_map_iff in Hd as (d0 & <- & Hd).
      apply in_map_iff in Hin as ([k' n'] & E & Hin). injection E as <- <-.
      rewrite Forall_forall in IH. specialize (IH _ Hd). unfold Pjd in IH. rewrite Forall_forall in IH. destruct (IH _ Hin Hi) as (p & c & Hc & E).
      exists (Item (option_map kid_of (jid xml idn d0)) :: Key k' :: p), c. split; [|exact E].
      apply in_flat_map. exists d0. split; [exact Hd|]. unfold below. apply in_map_iff. exists (Key k' :: p, c). split; [reflexivity|].
      apply in_flat_map. exists (k', n'). split; [exact Hin|]. apply in_map_iff. exists (p, c). auto.
  Qed.

  Theorem leaves_out sheets r w : unflatten O sheets = Ok r w -> forall v, inside (VLeaf v) (VList r) -> out_value v.
  Proof.
    unfold unflatten. intros H v Hv. apply bind_ok in H as (out & w1 & w2 & H1 & H2 & _). injection H2 as <- _.
    change (VList (map dict_to_v out)) with (to_v (JList out)) in Hv.
    apply inside_leaf_cell in Hv as (p & c & Hc & <-).
    destruct (out_cells_sourced _ _ _ H1 p c Hc) as [(v & _ & Hs) _]. eapply stored_out. exact Hs.
  Qed.

  (** without a schema only texts and integers come out *)
  Lemma untyped_str E ty v x w : ty = [] \/ ty = u "date" -> convert_type E ty v = Ok x w -> cv_blank x = false ->
    exists s, x = CV s /\ match s with SStr _ | SInt _ => True | _ => False end.
  Proof.
    intros Hty. unfold convert_type. destruct (cv_blank v); [intros [= <- _]; discriminate|].
    destruct Hty as [-> | ->]; [change (@nil N) with (u "")|]; ty_tests.
    - change (u "") with (@nil N). cbv iota beta.
      destruct v as [[|b|z|d|f|t|n]|l|l|g]; try destruct f; try discriminate;
        try (destruct (py_eqb _ _)); intros [= <- _] _; eexists; split; try reflexivity; exact I.
    - destruct v as [[|b|z|d|f|t|n]|l|l|g]; intros [= <- _] _; eexists; split; try reflexivity; exact I.
  Qed.
  Theorem leaves_json sheets r w : unflatten O sheets = Ok r w -> forall v, inside (VLeaf v) (VList r) ->
    (forall path, o_types O path = []) \/ finite_cell v = true -> exists j, json_cell (o_conv O) v = Ok j [].
  Proof.
    intros H v Hv [Ht|Hf]; [|apply json_cell_ok; exact Hf].
    unfold unflatten in H. apply bind_ok in H as (out & w1 & w2 & H1 & H2 & _). injection H2 as <- _.
    change (VList (map dict_to_v out)) with (to_v (JList out)) in Hv.
    apply inside_leaf_cell in Hv as (p & c & Hc & <-).
    destruct (out_cells_sourced _ _ _ H1 p c Hc) as [(v & _ & x0 & ty & w' & _ & Hty & Hc' & Hb) _].
    assert (Hty' : ty = [] \/ ty = u "date") by (destruct Hty as [Q|[Q|[q Q]]]; rewrite ?Ht in Q; auto).
    destruct (untyped_str _ _ _ _ _ Hty' Hc' Hb) as (s & Es & Hs). rewrite Es.
    apply json_cell_ok. destruct s; try contradiction; reflexivity.
  Qed.
End Run.
