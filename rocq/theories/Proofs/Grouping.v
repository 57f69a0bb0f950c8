(** The list of output objects is the grouping of the rows by root id and id. *)
From Verif.Base Require Import PyStr PyNum PyVal PyDict Outcome.
From Verif.Model Require Import Warn Lib Convert Input.
From Verif.Spec Require Import Ids Rows.
From Verif.Proofs Require Import TreeInd EmbedFacts RowWf Distinct IdInv.

(** ** A dict keyed by first occurrences *)
Section Keyed.
  Context {V : Type}.
  Definition keyed (Q : scalar -> V -> Prop) (ks : list scalar) (st : list (scalar * V)) : Prop :=
    Forall2 (fun i e => fst e = i /\ Q i (snd e)) ks st.
  Lemma keyed_in Q ks st i v : keyed Q ks st -> In (i, v) st -> In i ks.
  Proof.
    intros H Hin. unfold keyed in H. induction H as [|k e ks st [E _] _ IH]; [destruct Hin|].
    destruct Hin as [->|Hin]; [left; simpl in E; congruence|right; auto].
  Qed.
  Lemma keyed_in' Q ks st i : keyed Q ks st -> In i ks -> exists v, In (i, v) st.
  Proof.
    intros H Hin. unfold keyed in H. induction H as [|k e ks st [E _] _ IH]; [destruct Hin|].
    destruct Hin as [->|Hin]; [exists (snd e); left; destruct e; simpl in *; congruence|].
    destruct (IH Hin) as [v Hv]. exists v. right. exact Hv.
  Qed.
  Lemma keyed_mono (Q Q' : scalar -> V -> Prop) ks st : (forall i v, In i ks -> Q i v -> Q' i v) -> keyed Q ks st -> keyed Q' ks st.
  Proof.
    intros M H. unfold keyed in *. induction H as [|k e ks st [E Hq] _ IH]; constructor.
    - split; [exact E|]. apply M; [left; reflexivity|exact Hq].
    - apply IH. intros i v Hi. apply M. right. exact Hi.
  Qed.
  Lemma keyed_none Q ks y st : keyed Q (nub ks) st -> kget y st = None -> forall i, In i (nub ks) -> py_eqb i y = false.
  Proof.
    intros H Hg i Hi. destruct (keyed_in' _ _ _ _ H Hi) as [v Hv]. rewrite py_eqb_sym. rewrite kget_None in Hg. eapply Hg. exact Hv.
  Qed.
  Lemma keyed_add_new (Q Q' : scalar -> V -> Prop) ks y v st :
    keyed Q (nub ks) st -> kget y st = None ->
    (forall i v, In i (nub ks) -> py_eqb i y = false -> Q i v -> Q' i v) -> Q' y v ->
    keyed Q' (nub (ks ++ [y])) (kset y v st).
  Proof.
    intros H Hg Hm Hv. pose proof (keyed_none _ _ _ _ H Hg) as Hn.
    rewrite nub_snoc, kset_new by exact Hg.
    assert (Hex : existsb (fun x => py_eqb x y) (nub ks) = false).
    { destruct (existsb _ _) eqn:E; [|reflexivity]. apply existsb_exists in E as (x & Hx & E). rewrite Hn in E by exact Hx. discriminate. }
    rewrite Hex. apply Forall2_app; [|constructor; [auto|constructor]].
    eapply keyed_mono; [|exact H]. intros i v' Hi. apply Hm; auto.
  Qed.
  Lemma keyed_add_old (Q Q' : scalar -> V -> Prop) ks y v old st :
    keyed Q (nub ks) st -> kget y st = Some old ->
    (forall i v, In i (nub ks) -> py_eqb i y = false -> Q i v -> Q' i v) ->
    (forall i, In i (nub ks) -> py_eqb i y = true -> Q i old -> Q' i v) ->
    keyed Q' (nub (ks ++ [y])) (kset y v st).
  Proof.
    intros H Hg Hm Hv. destruct (kset_old y v st old Hg) as (a & k & b & -> & -> & Hyk & _).
    apply Forall2_app_inv_r in H as (ka & kb & Ha & Hb & E). inversion Hb as [|k0 ? kb' ? [E0 Hq] Hb']; subst. simpl in *. subst.
    assert (Hk : In k (nub ks)) by (rewrite E; apply in_or_app; right; left; reflexivity).
    assert (Hex : existsb (fun x => py_eqb x y) (nub ks) = true).
    { apply existsb_exists. exists k. split; [exact Hk|]. rewrite py_eqb_sym. exact Hyk. }
    rewrite nub_snoc, Hex, app_nil_r.
    assert (Hd : forall i, In i (ka ++ kb') -> py_eqb i y = false).
    { intros i Hi. pose proof (nub_distinct ks) as D. rewrite E in D. pose proof (distinct_split _ _ _ D i Hi) as Hik.
      destruct (py_eqb i y) eqn:F; [|reflexivity]. rewrite (py_eqb_trans _ _ _ F Hyk) in Hik. discriminate. }
    rewrite E. apply Forall2_app; [|constructor].
    - eapply keyed_mono; [|exact Ha]. intros i v' Hi. apply Hm; [rewrite E; apply in_or_app; left; exact Hi|apply Hd; apply in_or_app; left; exact Hi].
    - split; [reflexivity|]. apply Hv; [exact Hk| |exact Hq]. rewrite py_eqb_sym. exact Hyk.
    - eapply keyed_mono; [|exact Hb']. intros i v' Hi. apply Hm; [rewrite E; apply in_or_app; right; right; exact Hi|apply Hd; apply in_or_app; right; exact Hi].
  Qed.
End Keyed.

(** ** Placing rows *)
Section Run.
  Variable O : opts.
  Lemma main_id_row d k w : main_id O d = Ok k w -> k = id_of (o_xml O) (o_id_name O) d.
  Proof.
    unfold main_id, id_of. destruct (sget (o_id_name O) d) as [[c|e|data nk]|].
    - destruct (c_val c) as [s| | |]; try discriminate. destruct (hashable (CV s)); [|discriminate]. intros [= <- _]. reflexivity.
    - destruct (o_xml O); [|discriminate]. destruct (sget text_key e) as [[c|?|? ?]|]; try discriminate.
      destruct (c_val c) as [s| | |]; try discriminate. destruct (hashable (CV s)); [|discriminate]. intros [= <- _]. reflexivity.
    - destruct (o_xml O); discriminate.
    - intros [= <- _]. reflexivity.
  Qed.

  Fixpoint place_all (rs : list row) (st : main_state) : R main_state :=
    match rs with
    | [] => ret st
    | x :: rs' => bind (place O (r_sheet x) (r_root x) (r_obj x) st) (place_all rs')
    end.
  Lemma place_all_app r1 : forall r2 st st' w, place_all (r1 ++ r2) st = Ok st' w ->
    exists s w1 w2, place_all r1 st = Ok s w1 /\ place_all r2 s = Ok st' w2 /\ w = w1 ++ w2.
  Proof.
    induction r1 as [|x r1 IH]; intros r2 st st' w; simpl.
    - intros H. exists st, [], w. auto.
    - intros H. apply bind_ok in H as (s & w1 & w2 & H1 & H2 & ->). destruct (IH _ _ _ _ H2) as (s' & w3 & w4 & H3 & H4 & ->).
      exists s', (w1 ++ w3), w4. rewrite H1. simpl. rewrite H3. rewrite app_assoc. auto.
  Qed.
  Lemma place_all_app_ok r1 : forall r2 st s st' w1 w2, place_all r1 st = Ok s w1 -> place_all r2 s = Ok st' w2 ->
    place_all (r1 ++ r2) st = Ok st' (w1 ++ w2).
  Proof.
    induction r1 as [|x r1 IH]; intros r2 st s st' w1 w2; simpl.
    - intros [= <- <-] H. exact H.
    - intros H1 H2. apply bind_ok in H1 as (s0 & w3 & w4 & H3 & H4 & ->). rewrite H3. simpl.
      rewrite (IH _ _ _ _ _ _ H4 H2). rewrite app_assoc. reflexivity.
  Qed.

  Lemma do_line_place sheet hs j line st st' w : do_line O sheet hs j line st = Ok st' w ->
    exists w', place_all (line_row O sheet hs j line) st = Ok st' w' /\ incl w' w.
  Proof.
    unfold do_line, line_row. destruct (forallb _ _); [intros [= <- <-]; exists []; split; [reflexivity|apply incl_refl]|].
    intros H. apply bind_ok in H as (cells & w1 & w2 & H1 & H2 & ->). apply bind_ok in H2 as (d & w3 & w4 & H3 & H4 & ->).
    rewrite H1. cbn [bind]. rewrite H3. simpl. rewrite H4. simpl. exists (w4 ++ []). split; [reflexivity|].
    rewrite app_nil_r. intros x Hx. rewrite !in_app_iff. auto.
  Qed.
  Lemma do_lines_place sheet hs lines : forall j st st' w, do_lines O sheet hs j lines st = Ok st' w ->
    exists w', place_all (lines_rows O sheet hs j lines) st = Ok st' w' /\ incl w' w.
  Proof.
    induction lines as [|l lines IH]; intros j st st' w; cbn [do_lines lines_rows].
    - intros [= <- <-]. exists []. split; [reflexivity|apply incl_refl].
    - intros H. apply bind_ok in H as (st1 & w1 & w2 & H1 & H2 & ->).
      destruct (do_line_place _ _ _ _ _ _ _ H1) as (v1 & P1 & I1). destruct (IH _ _ _ _ H2) as (v2 & P2 & I2).
      exists (v1 ++ v2). split; [eapply place_all_app_ok; eassumption|apply incl_app; [apply incl_appl|apply incl_appr]; assumption].
  Qed.
  Lemma do_sheet_place s st st' w : do_sheet O s st = Ok st' w ->
    exists w', place_all (sheet_rows O s) st = Ok st' w' /\ incl w' w.
  Proof.
    unfold do_sheet, sheet_rows. destruct (si_headings s) as [[|h hs]|].
    - intros [= <- <-]. exists []. split; [reflexivity|apply incl_refl].
    - intros H. apply bind_ok in H as (x & w1 & w2 & _ & H2 & ->). destruct (do_lines_place _ _ _ _ _ _ _ H2) as (v & P & I).
      exists v. split; [exact P|apply incl_appr; exact I].
    - apply do_lines_place.
  Qed.
  Lemma do_sheets_place l : forall st st' w, do_sheets O l st = Ok st' w ->
    exists w', place_all (rows_of O l) st = Ok st' w' /\ incl w' w.
  Proof.
    unfold rows_of. induction l as [|s l IH]; intros st st' w; cbn [do_sheets flat_map].
    - intros [= <- <-]. exists []. split; [reflexivity|apply incl_refl].
    - intros H. apply bind_ok in H as (st1 & w1 & w2 & H1 & H2 & ->).
      destruct (do_sheet_place _ _ _ _ H1) as (v1 & P1 & I1). destruct (IH _ _ _ H2) as (v2 & P2 & I2).
      exists (v1 ++ v2). split; [eapply place_all_app_ok; eassumption|apply incl_app; [apply incl_appl|apply incl_appr]; assumption].
  Qed.

  Notation row_plain := (row_plain O).

  Definition tinv (rs : list row) (t : ttemp) : Prop :=
    snd t = map r_obj (filter (no_id O) rs) /\
    keyed (fun i d => merged (filter (has_id O i) rs) d) (ids O rs) (fst t).
  Definition ginv (rs : list row) (st : main_state) : Prop :=
    keyed (fun r t => tinv (filter (has_root r) rs) t) (roots rs) st.

  Lemma ids_snoc rs x : ids O (rs ++ [x]) = nub (flat_map (fun x => match row_id O x with Some k => [k] | None => [] end) rs ++ match row_id O x with Some k => [k] | None => [] end).
  Proof. unfold ids. rewrite flat_map_app. simpl. rewrite app_nil_r. reflexivity. Qed.

  Lemma tinv_nil : tinv [] ([], []).
  Proof. split; [reflexivity|constructor]. Qed.

  Lemma in_ids_rows rs i : In i (flat_map (fun x => match row_id O x with Some k => [k] | None => [] end) rs) <-> exists x, In x rs /\ row_id O x = Some i.
  Proof.
    rewrite in_flat_map. split.
    - intros (x & Hx & Hi). destruct (row_id O x) as [k|] eqn:E; [|destruct Hi]. destruct Hi as [->|[]]. eauto.
    - intros (x & Hx & E). exists x. rewrite E. split; [exact Hx|left; reflexivity].
  Qed.

  Lemma tinv_noid rs x t : row_id O x = None -> tinv rs t -> tinv (rs ++ [x]) (fst t, snd t ++ [r_obj x]).
  Proof.
    intros E [H1 H2]. split; simpl.
    - rewrite filter_app, map_app, H1. simpl. unfold no_id at 3. rewrite E. reflexivity.
    - rewrite ids_snoc, E, app_nil_r. eapply keyed_mono; [|exact H2]. intros i d _. rewrite filter_app. simpl. unfold has_id at 3. rewrite E.
      rewrite app_nil_r. auto.
  Qed.
  Lemma tinv_new rs x k t : (forall y, In y rs -> row_plain y) -> row_plain x -> row_id O x = Some k -> tinv rs t -> kget k (fst t) = None ->
    tinv (rs ++ [x]) (kset k (r_obj x) (fst t), snd t).
  Proof.
    intros Hp Hpx E [H1 H2] Hg. split; simpl.
    - rewrite filter_app, map_app, H1. simpl. unfold no_id at 3. rewrite E. rewrite app_nil_r. reflexivity.
    - rewrite ids_snoc, E. eapply keyed_add_new; [exact H2|exact Hg| |].
      + intros i d Hi Hik. rewrite filter_app. simpl. unfold has_id at 3. rewrite E, Hik, app_nil_r. auto.
      + rewrite filter_app. simpl. unfold has_id at 2. rewrite E. destruct Hpx as [_ Hpx]. rewrite py_eqb_refl by (apply Hpx; exact E).
        rewrite filter_none; [apply merged_one|]. intros y Hy. unfold has_id. destruct (row_id O y) as [ky|] eqn:Ey; [|reflexivity].
        destruct (py_eqb k ky) eqn:F; [|reflexivity].
        destruct (nub_cover ky (flat_map (fun x => match row_id O x with Some k => [k] | None => [] end) rs)) as (i & Hi & Hik).
        * apply in_ids_rows. eauto.
        * apply (Hp y Hy). exact Ey.
        * pose proof (keyed_none _ _ _ _ H2 Hg i Hi) as G. rewrite py_eqb_sym in F. rewrite (py_eqb_trans _ _ _ Hik F) in G. discriminate.
  Qed.
  Lemma tinv_old rs x k t old d dbg w : row_id O x = Some k -> tinv rs t -> kget k (fst t) = Some old ->
    merge dbg old (r_obj x) = Ok d w -> tinv (rs ++ [x]) (kset k d (fst t), snd t).
  Proof.
    intros E [H1 H2] Hg Hm. split; simpl.
    - rewrite filter_app, map_app, H1. simpl. unfold no_id at 3. rewrite E. rewrite app_nil_r. reflexivity.
    - rewrite ids_snoc, E. eapply keyed_add_old; [exact H2|exact Hg| |].
      + intros i e Hi Hik. rewrite filter_app. simpl. unfold has_id at 3. rewrite E, Hik, app_nil_r. auto.
      + intros i Hi Hik Hq. rewrite filter_app. simpl. assert (Hh : has_id O i x = true) by (unfold has_id; rewrite E; exact Hik). rewrite Hh. exact (merged_more _ _ _ _ _ _ Hq Hm).
  Qed.

  Lemma roots_snoc rs x : roots (rs ++ [x]) = nub (map r_root rs ++ [r_root x]).
  Proof. unfold roots. rewrite map_app. reflexivity. Qed.

  Lemma place_ginv rs x st st' w : (forall y, In y rs -> row_plain y) -> row_plain x -> ginv rs st ->
    place O (r_sheet x) (r_root x) (r_obj x) st = Ok st' w -> ginv (rs ++ [x]) st'.
  Proof.
    intros Hp Hpx Hg H. unfold ginv. rewrite roots_snoc.
    assert (Hother : forall i t, In i (nub (map r_root rs)) -> py_eqb i (r_root x) = false ->
              tinv (filter (has_root i) rs) t -> tinv (filter (has_root i) (rs ++ [x])) t).
    { intros i t _ Hi. rewrite filter_app. simpl. unfold has_root at 3. rewrite Hi, app_nil_r. auto. }
    (* the new group *)
    assert (Hstep : exists t', st' = kset (r_root x) t' st /\
              forall rs0, (forall y, In y rs0 -> row_plain y) -> tinv rs0 (match kget (r_root x) st with Some t => t | None => ([], []) end) -> tinv (rs0 ++ [x]) t').
    { unfold place in H. apply bind_ok in H as (k & w1 & w2 & H1 & H2 & _).
      pose proof (main_id_row _ _ _ H1) as Ek. fold (row_id O x) in Ek.
      set (t := match kget (r_root x) st with Some t => t | None => ([], []) end) in *.
      destruct (match k with Some k0 => _ | None => _ end) as [[k0 old]|] eqn:E.
      - destruct k as [k1|]; [|discriminate]. destruct (kget k1 (fst t)) as [old'|] eqn:G; [|discriminate].
        injection E as -> ->. apply bind_ok in H2 as (new & w3 & w4 & H3 & H4 & _). injection H4 as <- _.
        eexists. split; [reflexivity|]. intros rs0 _ Ht. eapply tinv_old; eauto.
      - apply bind_ok in H2 as (t' & w3 & w4 & H3 & H4 & _). injection H4 as <- _. exists t'. split; [reflexivity|].
        intros rs0 Hp0 Ht. destruct (main_id_item_key _ _ _ _ H1) as (w'' & Hk).
        destruct t as [data nk]. unfold temp_append in H3. rewrite Hk in H3. apply bind_ok in H3 as (k' & w5 & w6 & H5 & H6 & _).
        injection H5 as <- _. destruct k as [k1|].
        + cbn [fst] in E. destruct (kget k1 data) as [z|] eqn:G; [discriminate|]. injection H6 as <- _.
          apply (tinv_new rs0 x k1 (data, nk)); auto.
        + injection H6 as <- _. apply (tinv_noid rs0 x (data, nk)); auto. }
    destruct Hstep as (t' & -> & Hstep).
    assert (Hpf : forall i y, In y (filter (has_root i) rs) -> row_plain y) by (intros i y Hy; apply filter_In in Hy as [Hy _]; auto).
    destruct (kget (r_root x) st) as [t|] eqn:E.
    - eapply keyed_add_old; [exact Hg|exact E|exact Hother|]. intros i Hi Hix Hq. rewrite filter_app. simpl. unfold has_root at 2. rewrite Hix.
      apply Hstep; auto. apply Hpf.
    - eapply keyed_add_new; [exact Hg|exact E|exact Hother|]. rewrite filter_app. simpl. unfold has_root at 2.
      rewrite py_eqb_refl by exact (proj1 Hpx). rewrite filter_none; [apply (Hstep []); [intros y []|exact tinv_nil]|].
      intros y Hy. unfold has_root. destruct (py_eqb (r_root x) (r_root y)) eqn:F; [|reflexivity].
      destruct (nub_cover (r_root y) (map r_root rs)) as (i & Hi & Hik); [apply in_map; exact Hy|exact (proj1 (Hp y Hy))|].
      pose proof (keyed_none _ _ _ _ Hg E i Hi) as G. rewrite py_eqb_sym in F. rewrite (py_eqb_trans _ _ _ Hik F) in G. discriminate.
  Qed.

  Lemma place_all_ginv rs : forall st w, (forall y, In y rs -> row_plain y) -> place_all rs [] = Ok st w -> ginv rs st.
  Proof.
    induction rs as [|x rs IH] using rev_ind; intros st w Hp H.
    - injection H as <- _. constructor.
    - apply place_all_app in H as (s & w1 & w2 & H1 & H2 & _). simpl in H2. apply bind_ok in H2 as (s' & w3 & w4 & H3 & H4 & _).
      injection H4 as <- _. eapply place_ginv; [| | |exact H3].
      + intros y Hy. apply Hp. apply in_or_app. left. exact Hy.
      + apply Hp. apply in_or_app. right. left. reflexivity.
      + eapply IH; [|exact H1]. intros y Hy. apply Hp. apply in_or_app. left. exact Hy.
  Qed.

  Lemma tinv_group rs t : tinv rs t -> group O rs (temp_items t).
  Proof.
    intros [H1 H2]. exists (map snd (fst t)). split; [unfold temp_items; rewrite H1; reflexivity|].
    unfold keyed in H2. revert H2. generalize (ids O rs). intros l H2. induction H2 as [|i e ks st [_ Hq] _ IH]; simpl; constructor; assumption.
  Qed.
  Lemma ginv_grouped rs st : ginv rs st -> grouped O rs (st_items st).
  Proof.
    intros H. exists (map (fun e => temp_items (snd e)) st). split; [unfold st_items; rewrite flat_map_concat_map; reflexivity|].
    unfold ginv, keyed in H. induction H as [|i e ks st [_ Hq] _ IH]; simpl; constructor; [apply tinv_group; exact Hq|exact IH].
  Qed.

  Theorem unflatten_grouped sheets out w :
    (forall x, In x (rows_of O sheets) -> row_plain x) ->
    do_unflatten O sheets = Ok out w ->
    exists objs, out = map dict_to_j objs /\ grouped O (rows_of O sheets) objs.
  Proof.
    intros Hp H. apply do_unflatten_items in H as (st & H & ->). exists (st_items st). split; [reflexivity|].
    apply do_sheets_place in H as (w' & H & _). apply ginv_grouped. eapply place_all_ginv; eassumption.
  Qed.
End Run.
