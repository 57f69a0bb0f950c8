(** The rows of a sub-sheet, item by item. *)
From Verif.Base Require Import PyStr PyNum PyVal PyDict Outcome.
From Verif.Model Require Import Flatten.
From Verif.Spec Require Import Flat Sites Paths.
From Verif.Proofs Require Import JvInd FlattenTrace FlattenRows FlattenRun FlattenPlain FlattenPaths.

Fixpoint items_each (k : str) (i : nat) (l : list jv) : list item :=
  match l with
  | [] => []
  | y :: l' =>
    match y with
    | JO e => map (under (k, Some i)) (items_in y) ++ [{| it_at := []; it_key := k; it_pos := i; it_obj := e |}]
    | _ => []
    end ++ items_each k (S i) l'
  end.
Definition items_piece (k : str) (x : jv) : list item :=
  match x with
  | JS _ => []
  | JO _ => map (under (k, None)) (items_in x)
  | JA l => items_each k 0 l
  end.
Lemma items_JO d : items_in (JO d) = flat_map (fun kx => items_piece (fst kx) (snd kx)) d.
Proof.
  induction d as [|[k x] d IH]; [reflexivity|]. cbn [flat_map fst snd]. rewrite <- IH. clear IH.
  change (items_in (JO ((k, x) :: d))) with
    (match x with
        | JS _ => []
        | JO _ => map (under (k, None)) (items_in x)
        | JA l => (fix each (i : nat) (l : list jv) : list item :=
            match l with
            | [] => []
            | y :: l' =>
              match y with
              | JO e => map (under (k, Some i)) (items_in y) ++ [{| it_at := []; it_key := k; it_pos := i; it_obj := e |}]
              | _ => []
              end ++ each (S i) l'
            end) 0%nat l
        end ++ items_in (JO d)).
  f_equal. destruct x as [|l|]; try reflexivity. unfold items_piece. generalize 0%nat as i. induction l as [|y l IH]; intros i; [reflexivity|].
  cbn [items_each]. rewrite <- IH. reflexivity.
Qed.

Section Items.
  Variable O : popts.

  Definition site_of (p : str) (ids : list (str * jv)) (v : jv) (x : item) : site :=
    item_site O p ids v (it_at x) (it_key x) (it_pos x) (it_obj x).

  Lemma no_items l i k : (forall e, ~ In (JO e) l) -> items_each k i l = [].
  Proof.
    revert i. induction l as [|y l IH]; intros i H; [reflexivity|]. cbn [items_each]. rewrite IH by (intros e He; exact (H e (or_intror He))).
    destruct y as [| |e]; try reflexivity. exfalso. exact (H e (or_introl eq_refl)).
  Qed.
  Lemma leaf_no_items l c : leaf_cell O (JA l) = Some c -> forall e, ~ In (JO e) l.
  Proof. intros H e Hin. apply In_nth_error in Hin as (i & Hi). rewrite (items_not_leaf O _ _ _ Hi) in H. discriminate. Qed.

  Lemma under_site p ids d k o e0 x : at_path (JO d) [(k, o)] = Some (JO e0) ->
    site_of p ids (JO d) (under (k, o) x) = site_of (p ++ step_text (k, o)) (scope O p d ids) (JO e0) x.
  Proof.
    intros H. unfold site_of, item_site, under. cbn [it_at it_key it_pos it_obj chain]. rewrite H. rewrite <- app_comm_cons, !pre_cons, !app_assoc. reflexivity.
  Qed.

  Lemma drop_all p k x : kept O p k = false -> filter (fun x => keeps_from O p (it_path x)) (items_piece k x) = [].
  Proof.
    intros Hk.
    assert (U : forall o x, keeps_from O p (it_path (under (k, o) x)) = false).
    { intros o it. unfold it_path. cbn [under it_at it_key it_pos app keeps_from]. rewrite Hk. reflexivity. }
    assert (M : forall o xs, filter (fun x => keeps_from O p (it_path x)) (map (under (k, o)) xs) = []).
    { intros o. induction xs as [|it xs IH]; [reflexivity|]. cbn [map filter]. rewrite U. exact IH. }
    destruct x as [|l|e]; [reflexivity| |apply M]. cbn [items_piece]. generalize 0%nat as i. induction l as [|y l IH]; intros i; [reflexivity|]. cbn [items_each].
    rewrite filter_app, IH, app_nil_r. destruct y; try reflexivity. rewrite filter_app, M. cbn [filter app]. unfold it_path. cbn [it_at it_key it_pos app keeps_from]. rewrite Hk. reflexivity.
  Qed.
  Lemma inner_items v : clean v -> forall p ids, inner_sites O p ids v = map (site_of p ids v) (filter (fun x => keeps_from O p (it_path x)) (items_in v)).
  Proof.
    assert (G : forall v, (clean v -> forall p ids, inner_sites O p ids v = map (site_of p ids v) (filter (fun x => keeps_from O p (it_path x)) (items_in v))) /\
      (forall l, v = JA l -> Forall (fun v => clean v -> forall p ids, inner_sites O p ids v = map (site_of p ids v) (filter (fun x => keeps_from O p (it_path x)) (items_in v))) l)).
    { clear v. induction v as [sc|l IH|d IH] using jv_ind'.
      - split; [reflexivity|discriminate].
      - split; [reflexivity|]. intros l' [= <-]. eapply Forall_impl; [|exact IH]. intros v [H _]. exact H.
      - split; [|discriminate]. intros Hc p ids. rewrite sites_JO, items_JO. apply clean_JO in Hc as [Hn Hc].
        assert (U : forall k o x, kept O p k = true -> keeps_from O p (it_path (under (k, o) x)) = keeps_from O (p ++ step_text (k, o)) (it_path x)).
        { intros k o x Hk. unfold it_path. cbn [under it_at it_key it_pos app keeps_from]. rewrite Hk. reflexivity. }
        assert (Q : forall d0, (forall kx, In kx d0 -> In kx d) -> sites_of O p (scope O p d ids) d0 =
          map (site_of p ids (JO d)) (filter (fun x => keeps_from O p (it_path x)) (flat_map (fun kx => items_piece (fst kx) (snd kx)) d0))).
        { induction d0 as [|[k x] d0 IHd]; intros Hi; [reflexivity|]. cbn [sites_of flat_map fst snd]. rewrite filter_app, map_app, IHd by (intros kx Hk; apply Hi; right; exact Hk).
          f_equal. clear IHd. assert (Hin : In (k, x) d) by (apply Hi; left; reflexivity). assert (Ek : sget k d = Some x) by (apply In_sget; assumption).
          rewrite Forall_forall in IH, Hc. specialize (IH _ Hin) as [IH1 IH2]. specialize (Hc _ Hin) as [_ Hcx]. simpl in IH1, IH2, Hcx.
          destruct (kept O p k) eqn:Hk; [|rewrite (drop_all p k x Hk); reflexivity]. specialize (U k).
          destruct x as [sc|l|e0].
          - reflexivity.
          - destruct (leaf_cell O (JA l)) as [c|] eqn:El; [cbn [items_piece]; rewrite no_items by (eapply leaf_no_items; exact El); reflexivity|].
            cbn [items_piece]. specialize (IH2 l eq_refl). apply clean_JA in Hcx.
            assert (S : forall l1 l2, l = l1 ++ l2 -> item_sites O p k (scope O p d ids) l2 =
              map (site_of p ids (JO d)) (filter (fun x => keeps_from O p (it_path x)) (items_each k (length l1) l2))).
            { intros l1 l2. revert l1. induction l2 as [|y l2 IHl]; intros l1 E; [reflexivity|]. cbn [item_sites items_each]. rewrite filter_app, map_app.
              rewrite (IHl (l1 ++ [y])) by (rewrite E, <- app_assoc; reflexivity). rewrite app_length, Nat.add_1_r. f_equal.
              destruct y as [| |e]; try reflexivity. rewrite filter_app, map_app. assert (Ho : at_path (JO d) [(k, Some (length l1))] = Some (JO e)).
              { cbn [at_path]. rewrite Ek, E, nth_error_app2, Nat.sub_diag by lia. reflexivity. }
              assert (Hy : In (JO e) l) by (rewrite E; apply in_or_app; right; left; reflexivity).
              rewrite Forall_forall in IH2, Hcx. f_equal.
              - rewrite (IH2 _ Hy (Hcx _ Hy)). generalize (items_in (JO e)) as xs. induction xs as [|it xs IHx]; [reflexivity|]. cbn [map filter].
                rewrite (U (Some (length l1)) it Hk). change (p ++ k ++ u "/0/") with (p ++ step_text (k, Some (length l1))) in *.
                destruct (keeps_from O (p ++ step_text (k, Some (length l1))) (it_path it)); cbn [map]; rewrite IHx; [|reflexivity].
                rewrite (under_site p ids d k (Some (length l1)) e it Ho). reflexivity.
              - cbn [filter]. unfold it_path. cbn [it_at it_key it_pos app keeps_from]. rewrite Hk. cbn [andb map].
                unfold site_of, item_site. cbn [it_at it_key it_pos it_obj app pre flat_map chain scopes fold_left fst snd]. rewrite !app_nil_r. reflexivity. }
            apply (S [] l eq_refl).
          - cbn [items_piece]. assert (Ho : at_path (JO d) [(k, None)] = Some (JO e0)) by (cbn [at_path]; rewrite Ek; reflexivity).
            rewrite (IH1 Hcx). generalize (items_in (JO e0)) as xs. induction xs as [|it xs IHx]; [reflexivity|]. cbn [map filter].
            rewrite (U None it Hk). change (p ++ k ++ u "/") with (p ++ step_text (k, None)) in *.
            destruct (keeps_from O (p ++ step_text (k, None)) (it_path it)); cbn [map]; rewrite IHx; [|reflexivity].
            rewrite (under_site p ids d k None e0 it Ho). reflexivity. }
        apply Q. auto. }
    exact (proj1 (G v)).
  Qed.
  Lemma items_at v : clean v -> forall x, In x (items_in v) -> at_path v (it_path x) = Some (JO (it_obj x)).
  Proof.
    assert (G : forall v, (clean v -> forall x, In x (items_in v) -> at_path v (it_path x) = Some (JO (it_obj x))) /\
      (forall l, v = JA l -> Forall (fun v => clean v -> forall x, In x (items_in v) -> at_path v (it_path x) = Some (JO (it_obj x))) l)).
    { clear v. induction v as [sc|l IH|d IH] using jv_ind'.
      - split; [intros _ x []|discriminate].
      - split; [intros _ x []|]. intros l' [= <-]. eapply Forall_impl; [|exact IH]. intros v [H _]. exact H.
      - split; [|discriminate]. intros Hc x. rewrite items_JO. intros Hx. apply in_flat_map in Hx as ([k y] & Hin & Hx). simpl in Hx.
        apply clean_JO in Hc as [Hn Hc]. rewrite Forall_forall in IH, Hc. specialize (IH _ Hin) as [IH1 IH2]. specialize (Hc _ Hin) as [_ Hcx]. simpl in IH1, IH2, Hcx.
        assert (Ek : sget k d = Some y) by (apply In_sget; assumption). destruct y as [sc|l|e0]; [destruct Hx| |].
        + cbn [items_piece] in Hx. specialize (IH2 l eq_refl). apply clean_JA in Hcx. rewrite Forall_forall in IH2, Hcx.
          assert (S : forall l1 l2, l = l1 ++ l2 -> In x (items_each k (length l1) l2) -> at_path (JO d) (it_path x) = Some (JO (it_obj x))).
          { intros l1 l2. revert l1. induction l2 as [|y l2 IHl]; intros l1 E Hi; [destruct Hi|]. cbn [items_each] in Hi. apply in_app_or in Hi as [Hi|Hi].
            - destruct y as [| |e]; try destruct Hi. assert (Ho : at_path (JO d) [(k, Some (length l1))] = Some (JO e)).
              { cbn [at_path]. rewrite Ek, E, nth_error_app2, Nat.sub_diag by lia. reflexivity. }
              assert (Hy : In (JO e) l) by (rewrite E; apply in_or_app; right; left; reflexivity).
              apply in_app_or in Hi as [Hi|[<-|[]]]; [|exact Ho]. apply in_map_iff in Hi as (x0 & <- & Hi). unfold it_path. cbn [under it_at it_key it_pos it_obj app].
              change (at_path (JO d) ([(k, Some (length l1))] ++ it_path x0) = Some (JO (it_obj x0))). rewrite at_path_app, Ho. apply (IH2 _ Hy (Hcx _ Hy) _ Hi).
            - apply (IHl (l1 ++ [y])); [rewrite E, <- app_assoc; reflexivity|]. rewrite app_length, Nat.add_1_r. exact Hi. }
          exact (S [] l eq_refl Hx).
        + cbn [items_piece] in Hx. apply in_map_iff in Hx as (x0 & <- & Hi). change (at_path (JO d) ([(k, None)] ++ it_path x0) = Some (JO (it_obj x0))).
          rewrite at_path_app. cbn [at_path]. rewrite Ek. exact (IH1 Hcx _ Hi). }
    exact (proj1 (G v)).
  Qed.
End Items.

(** every item is listed *)
Lemma items_all v : clean v -> forall q k i e, at_path v (q ++ [(k, Some i)]) = Some (JO e) ->
  In {| it_at := q; it_key := k; it_pos := i; it_obj := e |} (items_in v).
Proof.
  intros _ q. revert v.
  assert (E : forall k l i j y, nth_error l i = Some (JO y) -> forall x, In x (map (under (k, Some (j + i)%nat)) (items_in (JO y)) ++ [{| it_at := []; it_key := k; it_pos := (j + i)%nat; it_obj := y |}]) ->
    In x (items_each k j l)).
  { intros k. induction l as [|z l IH]; intros [|i] j y H x Hx; try discriminate; cbn [nth_error items_each] in *; apply in_or_app.
    - injection H as ->. left. rewrite Nat.add_0_r in Hx. exact Hx.
    - right. apply (IH i (S j) y H). rewrite Nat.add_succ_comm. exact Hx. }
  induction q as [|[k0 o] q IH]; intros v k i e H.
  - cbn [app at_path] in H. destruct v as [| |d]; try discriminate. destruct (sget k d) as [[|l|]|] eqn:Ek; try discriminate.
    destruct (nth_error l i) as [y|] eqn:Ei; [|discriminate]. injection H as ->. rewrite items_JO. apply in_flat_map. exists (k, JA l).
    split; [apply sget_In; exact Ek|]. cbn [fst snd items_piece]. apply (E k l i 0%nat e Ei). apply in_or_app. right. left. reflexivity.
  - cbn [app] in H. change ((k0, o) :: q ++ [(k, Some i)]) with ([(k0, o)] ++ (q ++ [(k, Some i)])) in H. rewrite at_path_app in H.
    destruct (at_path v [(k0, o)]) as [x|] eqn:Ex; [|discriminate]. pose proof (IH x k i e H) as Q. destruct v as [| |d]; try discriminate. rewrite items_JO. apply in_flat_map.
    cbn [at_path] in Ex. destruct o as [i0|].
    + destruct (sget k0 d) as [[|l|]|] eqn:Ek; try discriminate. destruct (nth_error l i0) as [y|] eqn:Ei; [|discriminate]. injection Ex as ->.
      exists (k0, JA l). split; [apply sget_In; exact Ek|]. cbn [fst snd items_piece]. destruct x as [| |y]; [destruct Q|destruct Q|].
      apply (E k0 l i0 0%nat y Ei). apply in_or_app. left. apply in_map_iff. exists {| it_at := q; it_key := k; it_pos := i; it_obj := e |}. split; [reflexivity|exact Q].
    + destruct (sget k0 d) as [y|] eqn:Ek; [|discriminate]. injection Ex as ->. exists (k0, x). split; [apply sget_In; exact Ek|]. cbn [fst snd].
      destruct x as [| |y]; [destruct Q|destruct Q|]. cbn [items_piece]. apply in_map_iff. exists {| it_at := q; it_key := k; it_pos := i; it_obj := e |}. split; [reflexivity|exact Q].
Qed.

Section Run.
  Variables (O : popts) (drop : bool) (pi : list str).
  Hypothesis P : simple O.
  Hypothesis NF : po_filter O = None.

  Lemma sub_sites l n : Forall clean l -> on_sheet (Some n) (sites O l) = map (fun vx => site_of O [] [] (fst vx) (snd vx)) (sheet_items O n l).
  Proof.
    unfold sheet_items. induction 1 as [|v l Hc Hl IH]; [reflexivity|]. change (sites O (v :: l)) with (record_sites O v ++ sites O l).
    change (all_items (v :: l)) with (map (pair v) (items_in v) ++ all_items l). unfold on_sheet in *. rewrite !filter_app, map_app, <- IH. f_equal.
    destruct v as [| |d]; try reflexivity. cbn [record_sites]. rewrite filter_app, (inner_items O _ Hc). cbn [filter si_sheet oname_eqb]. rewrite app_nil_r.
    generalize (items_in (JO d)) as xs. induction xs as [|x xs IHx]; [reflexivity|]. cbn [map filter].
    change (kept_item O (JO d, x)) with (keeps_from O [] (it_path x)). destruct (keeps_from O [] (it_path x)); [|exact IHx]. cbn [map filter]. rewrite IHx.
    change (match si_sheet (site_of O [] [] (JO d) x) with Some y => str_eqb n y | None => false end) with (str_eqb n (item_sheet O (JO d, x))).
    destruct (str_eqb n (item_sheet O (JO d, x))); reflexivity.
  Qed.

  Theorem sub_rows l s w : flatten O drop pi l = Ok s w -> name_free O s -> Forall clean l -> key_ok (po_id_name O) -> key_ok (po_root_id O) ->
    forall t, In t (sub_tables s) -> Forall2 (item_shown O) (sheet_items O (tb_name t) l) (tb_rows t).
  Proof.
    intros H HF Hcl KI KR t Ht. rewrite (flatten_sites O P drop pi l s w NF H HF (Some (tb_name t)) t (conj Ht eq_refl)), (sub_sites _ _ Hcl).
    assert (A : forall vx, In vx (sheet_items O (tb_name t) l) -> In (fst vx) l /\ In (snd vx) (items_in (fst vx)) /\ keeps O (it_path (snd vx)) = true).
    { intros vx Hx. apply filter_In in Hx as [Hx _]. apply filter_In in Hx as [Hx HK]. apply in_flat_map in Hx as (v & Hv & Hx). apply in_map_iff in Hx as (x & <- & Hx). auto. }
    revert A. generalize (sheet_items O (tb_name t) l) as xs.
    induction xs as [|[v x] xs IH]; intros A; [constructor|]. cbn [map]. constructor; [|apply IH; intros vx Hx; apply A; right; exact Hx].
    destruct (A (v, x) (or_introl eq_refl)) as (Hv & Hx & HK). cbn [fst snd] in *. rewrite Forall_forall in Hcl. specialize (Hcl v Hv).
    pose proof (items_at v Hcl x Hx) as He. unfold it_path in He.
    split; [exact (item_leaves O v (it_at x) (it_key x) (it_pos x) (it_obj x) Hcl He HK)|]. split.
    - intros Hr. split; [exact (item_ids O KI KR v (it_at x) (it_key x) (it_pos x) (it_obj x) Hcl He HK Hr)|exact (item_root O KI KR v (it_at x) (it_key x) (it_pos x) (it_obj x) Hcl He HK Hr)].
    - exact (item_only O KR v (it_at x) (it_key x) (it_pos x) (it_obj x) Hcl He HK).
  Qed.
  (** the sub-sheets are those of the items *)
  Theorem sub_names l s w : flatten O drop pi l = Ok s w -> name_free O s -> Forall clean l ->
    forall n, (In n (map tb_name (sub_tables s)) -> schema_sheet O n \/ sheet_items O n l <> []) /\ (sheet_items O n l <> [] -> In n (map tb_name (sub_tables s))).
  Proof.
    intros H HF Hcl n. split; intros Hn.
    - apply in_map_iff in Hn as (t & <- & Ht). destruct (flatten_tables O P drop pi l s w NF H t Ht) as [Sc|(x & Hx & Ex)]; [left; exact Sc|right].
      assert (Q : In x (on_sheet (Some (tb_name t)) (sites O l))) by (apply filter_In; split; [exact Hx|rewrite Ex; apply oname_eqb_refl]).
      rewrite (sub_sites _ _ Hcl) in Q. intros E. rewrite E in Q. destruct Q.
    - destruct (sheet_items O n l) as [|vx xs] eqn:E; [congruence|].
      assert (Q : In (site_of O [] [] (fst vx) (snd vx)) (on_sheet (Some n) (sites O l))) by (rewrite (sub_sites _ _ Hcl), E; left; reflexivity).
      apply filter_In in Q as [Q Q2]. apply oname_eqb_eq in Q2. destruct (site_has_table O drop pi P NF l s w _ _ H HF Q (eq_sym Q2)) as (t & Ht & En).
      apply in_map_iff. exists t. split; assumption.
  Qed.
  Theorem main_rows_show l s w : flatten O drop pi l = Ok s w -> name_free O s -> Forall clean l -> po_rollup O = [] ->
    Forall2 (record_shown O) (records l) (tb_rows (main_table s)).
  Proof.
    intros H HF Hcl RL. rewrite (main_rows O drop pi P NF l s w H HF). change (objects l) with (records l).
    assert (A : Forall (fun d => clean (JO d)) (records l)).
    { clear - Hcl. induction Hcl as [|v l Hc Hl IH]; [constructor|]. unfold records. cbn [flat_map]. apply Forall_app. split; [|exact IH]. destruct v; constructor; [exact Hc|constructor]. }
    induction A as [|d ds Hd _ IH]; [constructor|]. cbn [map]. constructor; [|exact IH].
    split; [exact (main_leaves O d RL Hd)|exact (main_only O d RL Hd)].
  Qed.
End Run.
