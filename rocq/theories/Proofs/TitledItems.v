(** The rows of a run with any mix of schema, titles and roll-up, in terms of
    places in the data. *)
From Coq Require Import Permutation.
From Verif.Base Require Import PyStr PyNum PyVal PyDict Outcome.
From Verif.Model Require Import Flatten.
From Verif.Spec Require Import Flat Sites Paths Rollup Titled.
From Verif.Proofs Require Import JvInd FlattenTrace FlattenRows FlattenRun FlattenPlain FlattenPaths FlattenItems RollupFacts FlattenTotal FlattenMain FlattenTitled.

Lemma fill_keys l : forall row h, In h (map fst (fill l row)) <-> In h (map fst l) \/ In h (map fst row).
Proof.
  induction l as [|[k x] l IH]; intros row h; [cbn [fill fold_left map]; simpl; tauto|]. cbn [fill fold_left fst snd]. fold (fill l (sset k x row)). rewrite IH. cbn [map fst].
  assert (E : In h (map fst (sset k x row)) <-> h = k \/ In h (map fst row)).
  { clear. pose proof (sget_None h (sset k x row)) as A. pose proof (sget_None h row) as B. destruct (str_eqb_spec h k) as [-> |N].
    - split; [left; reflexivity|]. intros _. destruct (in_dec (list_eq_dec N.eq_dec) k (map fst (sset k x row))) as [I|I]; [exact I|]. apply A in I. rewrite sget_sset_eq in I. discriminate.
    - rewrite sget_sset_neq in A by exact N. split.
      + intros I. right. destruct (in_dec (list_eq_dec N.eq_dec) h (map fst row)) as [J|J]; [exact J|]. exfalso. apply B in J. apply A in J. exact (J I).
      + intros [I|I]; [contradiction|]. destruct (in_dec (list_eq_dec N.eq_dec) h (map fst (sset k x row))) as [J|J]; [exact J|]. exfalso. apply A in J. apply B in J. exact (J I). }
  rewrite E. simpl. intuition congruence.
Qed.
Lemma tells_by (value : str -> jv -> Prop) row : (forall h val, sget h row = Some val -> value h val) -> (forall h val, value h val -> In h (map fst row)) -> tells value row.
Proof.
  intros A B. split; [exact A|]. split; [|exact B]. intros h val H U. destruct (sget h row) as [x|] eqn:E; [f_equal; apply U, A; exact E|].
  exfalso. apply sget_None in E. exact (E (B _ _ H)).
Qed.

Section Items.
  Variable O : popts.
  Notation head := (heading O).

  Fixpoint tchain (r : sref) (p : str) (v : jv) (q : jpath) : list (sref * str * jobj) :=
    match v with
    | JO d => (r, p, d) :: match q with
                           | [] => []
                           | (k, o) :: q' =>
                             match at_path v [(k, o)] with
                             | Some x => tchain (match o with Some _ => Some (sub_sheet_name O p k) | None => r end) (p ++ step_text (k, o)) x q'
                             | None => []
                             end
                           end
    | _ => []
    end.
  Definition tscopes (l : list (sref * str * jobj)) (ids : list (str * jv)) : list (str * jv) :=
    fold_left (fun ids x => tscope O (fst (fst x)) (snd (fst x)) (snd x) ids) l ids.
  Definition tsite_of (r : sref) (p : str) (ids : list (str * jv)) (v : jv) (x : item) : site :=
    {| si_sheet := Some (sub_sheet_name O (p ++ pre (it_at x)) (it_key x)); si_prefix := p ++ pre (it_path x);
       si_ids := tscopes (tchain r p v (it_at x)) ids; si_obj := it_obj x |}.
  Lemma under_tsite r p ids d k o e0 x : at_path (JO d) [(k, o)] = Some (JO e0) ->
    tsite_of r p ids (JO d) (under (k, o) x) =
    tsite_of (match o with Some _ => Some (sub_sheet_name O p k) | None => r end) (p ++ step_text (k, o)) (tscope O r p d ids) (JO e0) x.
  Proof.
    intros H. unfold tsite_of, it_path, under. cbn [it_at it_key it_pos it_obj tchain]. rewrite H. rewrite <- app_comm_cons, !pre_cons, !app_assoc. reflexivity.
  Qed.
  Lemma tinner_items v : clean v -> forall r p ids, tinner O r p ids v = map (tsite_of r p ids v) (filter (fun x => keeps_from O p (it_path x)) (items_in v)).
  Proof.
    assert (G : forall v, (clean v -> forall r p ids, tinner O r p ids v = map (tsite_of r p ids v) (filter (fun x => keeps_from O p (it_path x)) (items_in v))) /\
      (forall l, v = JA l -> Forall (fun v => clean v -> forall r p ids, tinner O r p ids v = map (tsite_of r p ids v) (filter (fun x => keeps_from O p (it_path x)) (items_in v))) l)).
    { clear v. induction v as [sc|l IH|d IH] using jv_ind'.
      - split; [reflexivity|discriminate].
      - split; [reflexivity|]. intros l' [= <-]. eapply Forall_impl; [|exact IH]. intros v [H _]. exact H.
      - split; [|discriminate]. intros Hc r p ids. rewrite tsites_JO, items_JO. apply clean_JO in Hc as [Hn Hc].
        assert (U : forall k o x, kept O p k = true -> keeps_from O p (it_path (under (k, o) x)) = keeps_from O (p ++ step_text (k, o)) (it_path x)).
        { intros k o x Hk. unfold it_path. cbn [under it_at it_key it_pos app keeps_from]. rewrite Hk. reflexivity. }
        assert (Q : forall d0, (forall kx, In kx d0 -> In kx d) -> tsites_of O r p (tscope O r p d ids) d0 =
          map (tsite_of r p ids (JO d)) (filter (fun x => keeps_from O p (it_path x)) (flat_map (fun kx => items_piece (fst kx) (snd kx)) d0))).
        { induction d0 as [|[k x] d0 IHd]; intros Hi; [reflexivity|]. cbn [tsites_of flat_map fst snd]. rewrite filter_app, map_app, IHd by (intros kx Hk; apply Hi; right; exact Hk).
          f_equal. clear IHd. assert (Hin : In (k, x) d) by (apply Hi; left; reflexivity). assert (Ek : sget k d = Some x) by (apply In_sget; assumption).
          rewrite Forall_forall in IH, Hc. specialize (IH _ Hin) as [IH1 IH2]. specialize (Hc _ Hin) as [_ Hcx]. simpl in IH1, IH2, Hcx.
          destruct (kept O p k) eqn:Hk; [|rewrite (drop_all O p k x Hk); reflexivity]. specialize (U k).
          destruct x as [sc|l|e0].
          - reflexivity.
          - destruct (leaf_cell O (JA l)) as [c|] eqn:El; [cbn [items_piece]; rewrite no_items by (eapply leaf_no_items; exact El); reflexivity|].
            cbn [items_piece]. specialize (IH2 l eq_refl). apply clean_JA in Hcx.
            assert (S : forall l1 l2, l = l1 ++ l2 -> titem_sites O p k (tscope O r p d ids) l2 =
              map (tsite_of r p ids (JO d)) (filter (fun x => keeps_from O p (it_path x)) (items_each k (length l1) l2))).
            { intros l1 l2. revert l1. induction l2 as [|y l2 IHl]; intros l1 E; [reflexivity|]. cbn [titem_sites items_each]. rewrite filter_app, map_app.
              rewrite (IHl (l1 ++ [y])) by (rewrite E, <- app_assoc; reflexivity). rewrite app_length, Nat.add_1_r. f_equal.
              destruct y as [| |e]; try reflexivity. rewrite filter_app, map_app. assert (Ho : at_path (JO d) [(k, Some (length l1))] = Some (JO e)).
              { cbn [at_path]. rewrite Ek, E, nth_error_app2, Nat.sub_diag by lia. reflexivity. }
              assert (Hy : In (JO e) l) by (rewrite E; apply in_or_app; right; left; reflexivity).
              rewrite Forall_forall in IH2, Hcx. f_equal.
              - rewrite (IH2 _ Hy (Hcx _ Hy)). generalize (items_in (JO e)) as xs. induction xs as [|it xs IHx]; [reflexivity|]. cbn [map filter].
                rewrite (U (Some (length l1)) it Hk). change (p ++ k ++ u "/0/") with (p ++ step_text (k, Some (length l1))) in *.
                destruct (keeps_from O (p ++ step_text (k, Some (length l1))) (it_path it)); cbn [map]; rewrite IHx; [|reflexivity].
                rewrite (under_tsite r p ids d k (Some (length l1)) e it Ho). reflexivity.
              - cbn [filter]. unfold it_path. cbn [it_at it_key it_pos app keeps_from]. rewrite Hk. cbn [andb map].
                unfold tsite_of, it_path. cbn [it_at it_key it_pos it_obj app pre flat_map tchain tscopes fold_left fst snd]. rewrite !app_nil_r. reflexivity. }
            apply (S [] l eq_refl).
          - cbn [items_piece]. assert (Ho : at_path (JO d) [(k, None)] = Some (JO e0)) by (cbn [at_path]; rewrite Ek; reflexivity).
            rewrite (IH1 Hcx). generalize (items_in (JO e0)) as xs. induction xs as [|it xs IHx]; [reflexivity|]. cbn [map filter].
            rewrite (U None it Hk). change (p ++ k ++ u "/") with (p ++ step_text (k, None)) in *.
            destruct (keeps_from O (p ++ step_text (k, None)) (it_path it)); cbn [map]; rewrite IHx; [|reflexivity].
            rewrite (under_tsite r p ids d k None e0 it Ho). reflexivity. }
        apply Q. auto. }
    exact (proj1 (G v)).
  Qed.

  (** ** sheet names *)
  Lemma sub_name q k : path_ok q -> sub_sheet_name O (pre q) k = array_sheet O q k.
  Proof.
    intros H. unfold sub_sheet_name, array_sheet, short_name. rewrite <- (name_of_path q k (po_trunc O) H). destruct (po_titles O); [|reflexivity].
    destruct (po_schema O); reflexivity.
  Qed.
  Lemma tchain_In q : forall q0 r v r1 p1 d1 x, path_ok (q0 ++ q) -> at_path v q = Some x -> In (r1, p1, d1) (tchain r (pre q0) v q) <->
    exists q1 q2, q = q1 ++ q2 /\ at_path v q1 = Some (JO d1) /\ p1 = pre (q0 ++ q1) /\ r1 = sheet_after O r q0 q1.
  Proof.
    induction q as [|[k o] q IH]; intros q0 r v r1 p1 d1 x HP Hx.
    - split.
      + destruct v as [| |d]; cbn [tchain]; [intros []|intros []|]. intros [E|[]]. injection E as <- <- <-. exists [], []. cbn [app]. rewrite app_nil_r. auto.
      + intros (q1 & q2 & E & Hd & -> & ->). symmetry in E. apply app_eq_nil in E as [-> ->]. injection Hd as ->. cbn [tchain]. rewrite app_nil_r. left. reflexivity.
    - destruct v as [| |d]; try discriminate Hx. change ((k, o) :: q) with ([(k, o)] ++ q) in Hx. rewrite at_path_app in Hx. destruct (at_path (JO d) [(k, o)]) as [y|] eqn:Ey; [|discriminate].
      cbn [tchain]. rewrite Ey.
      assert (HP' : path_ok ((q0 ++ [(k, o)]) ++ q)) by (rewrite <- app_assoc; exact HP).
      assert (Pq : path_ok q0) by (apply Forall_app in HP; exact (proj1 HP)).
      assert (Ep : pre q0 ++ step_text (k, o) = pre (q0 ++ [(k, o)])) by (rewrite pre_app; f_equal; cbn [pre flat_map]; rewrite app_nil_r; reflexivity).
      rewrite Ep. rewrite (sub_name q0 k Pq). cbn [In]. rewrite (IH (q0 ++ [(k, o)]) _ y r1 p1 d1 x HP' Hx). split.
      + intros [E|(q1 & q2 & -> & Hd & -> & ->)].
        * injection E as <- <- <-. exists [], ((k, o) :: q). rewrite app_nil_r. auto.
        * exists ((k, o) :: q1), q2. split; [reflexivity|]. split.
          -- change ((k, o) :: q1) with ([(k, o)] ++ q1). rewrite at_path_app, Ey. exact Hd.
          -- rewrite <- app_assoc. split; reflexivity.
      + intros (q1 & q2 & E & Hd & -> & ->). destruct q1 as [|[k' o'] q1].
        * left. injection Hd as ->. rewrite app_nil_r. reflexivity.
        * right. cbn [app] in E. injection E as <- <- ->. exists q1, q2. split; [reflexivity|]. split.
          -- change ((k, o) :: q1) with ([(k, o)] ++ q1) in Hd. rewrite at_path_app, Ey in Hd. exact Hd.
          -- rewrite <- app_assoc. split; reflexivity.
  Qed.

  (** ** ids *)
  (** what an object on the way adds *)
  Definition adds (x : sref * str * jobj) (c : str) (val : jv) : Prop :=
    (sget (po_id_name O) (snd x) = Some val /\ c = head (fst (fst x)) (snd (fst x) ++ po_id_name O)) \/
    (po_root_id O <> [] /\ sget (po_root_id O) (snd x) = Some val /\ c = head (fst (fst x)) (po_root_id O)).
  Lemma tscope_In r p d ids c val : In (c, val) (tscope O r p d ids) -> In (c, val) ids \/ adds (r, p, d) c val.
  Proof.
    unfold tscope, adds. cbn [fst snd]. set (ids1 := match po_root_id O with [] => ids | _ => _ end).
    assert (A : In (c, val) ids1 -> In (c, val) ids \/ (po_root_id O <> [] /\ sget (po_root_id O) d = Some val /\ c = head r (po_root_id O))).
    { unfold ids1. destruct (po_root_id O) as [|a rid]; [auto|]. destruct (sget (a :: rid) d) as [x|] eqn:E; [|auto]. intros H. apply sset_In in H as [[= -> ->]|H]; [|auto]. right. split; [discriminate|auto]. }
    destruct (sget (po_id_name O) d) as [x|]; [|intros H; apply A in H; tauto]. intros H. apply sset_In in H as [[= -> ->]|H]; [auto|]. apply A in H. tauto.
  Qed.
  Lemma sset_keys_In k (x : jv) l h : In h (map fst (sset k x l)) <-> h = k \/ In h (map fst l).
  Proof.
    pose proof (fill_keys [(k, x)] l h) as E. cbn [fill fold_left map fst snd In] in E. rewrite E. intuition congruence.
  Qed.
  Lemma tscope_keys r p d ids c : In c (map fst ids) \/ (exists val, adds (r, p, d) c val) -> In c (map fst (tscope O r p d ids)).
  Proof.
    unfold tscope, adds. cbn [fst snd]. set (ids1 := match po_root_id O with [] => ids | _ => _ end).
    assert (A : In c (map fst ids) \/ (exists val, po_root_id O <> [] /\ sget (po_root_id O) d = Some val /\ c = head r (po_root_id O)) -> In c (map fst ids1)).
    { unfold ids1. destruct (po_root_id O) as [|a rid]; [intros [H|(v & H & _)]; [exact H|congruence]|]. destruct (sget (a :: rid) d) as [x|] eqn:E.
      - rewrite sset_keys_In. intros [H|(v & _ & _ & ->)]; auto.
      - intros [H|(v & _ & H & _)]; [exact H|discriminate]. }
    intros H. destruct (sget (po_id_name O) d) as [x|] eqn:Ed.
    - rewrite sset_keys_In. destruct H as [H|(val & [[_ ->]|H])]; [right; apply A; auto|auto|right; apply A; eauto].
    - apply A. destruct H as [H|(val & [[H _]|H])]; [auto|discriminate|eauto].
  Qed.
  Lemma tscopes_In l : forall ids c val, In (c, val) (tscopes l ids) -> In (c, val) ids \/ exists x, In x l /\ adds x c val.
  Proof.
    induction l as [|[[r p] d] l IH]; intros ids c val H; [left; exact H|]. cbn [tscopes fold_left fst snd] in H. apply IH in H as [H|(x & Hx & H)]; [|right; exists x; split; [right; exact Hx|exact H]].
    apply tscope_In in H as [H|H]; [left; exact H|right; exists (r, p, d); split; [left; reflexivity|exact H]].
  Qed.
  Lemma tscopes_keys l : forall ids c, In c (map fst ids) \/ (exists x val, In x l /\ adds x c val) -> In c (map fst (tscopes l ids)).
  Proof.
    induction l as [|[[r p] d] l IH]; intros ids c H; [destruct H as [H|(x & _ & [] & _)]; exact H|]. cbn [tscopes fold_left fst snd]. apply IH.
    destruct H as [H|(x & val & [<-|Hx] & H)]; [left; apply tscope_keys; auto|left; apply tscope_keys; eauto|right; eauto].
  Qed.
  Lemma rn_keys r l h : In h (map fst (rn O r l)) <-> exists c, In c (map fst l) /\ h = head r c.
  Proof. unfold rn. rewrite map_map. rewrite in_map_iff. cbn [fst]. split; [intros (x & <- & H); exists (fst x); split; [apply in_map; exact H|reflexivity]|intros (c & H & ->); apply in_map_iff in H as (x & <- & H); exists x; auto]. Qed.
  Lemma rn_In r l h val : In (h, val) (rn O r l) <-> exists c, In (c, val) l /\ h = head r c.
  Proof. unfold rn. rewrite in_map_iff. split; [intros ([c x] & [= <- <-] & H); eauto|intros (c & H & ->); exists (c, val); auto]. Qed.

  (** ** the row of an item *)
  Section Item.
    Variables (v : jv) (x : item).
    Hypothesis Hc : clean v.
    Hypothesis He : at_path v (it_path x) = Some (JO (it_obj x)).
    Hypothesis HkQ : keeps O (it_path x) = true.
    Notation Q := (it_path x).
    Lemma it_ok : path_ok (it_at x).
    Proof. destruct (at_path_ok _ _ _ Hc He) as [H _]. unfold it_path in H. apply Forall_app in H. exact (proj1 H). Qed.
    Lemma it_unrolled : unrolled O (pre Q).
    Proof. left. unfold it_path. rewrite pre_app. destruct (pre (it_at x)); [destruct (it_key x)|]; discriminate. Qed.
    Lemma it_clean : clean (JO (it_obj x)).
    Proof. exact (proj2 (at_path_ok _ _ _ Hc He)). Qed.
    Lemma it_there : exists y, at_path v (it_at x) = Some y.
    Proof. unfold it_path in He. rewrite at_path_app in He. destruct (at_path v (it_at x)) as [y|]; [exists y; reflexivity|discriminate]. Qed.
    Notation site := (tsite_of None [] [] v x).
    Notation r := (Some (array_sheet O (it_at x) (it_key x))).
    Lemma it_sheet : si_sheet site = r.
    Proof. cbn [tsite_of si_sheet app]. rewrite (sub_name _ _ it_ok). reflexivity. Qed.
    Lemma leaf_In h val : In (h, val) (tcells O r (pre Q) (JO (it_obj x))) <-> leaf_value O r Q (it_obj x) h val.
    Proof.
      rewrite tcells_rn by (unfold it_path; rewrite pre_app; destruct (pre (it_at x)); [destruct (it_key x)|]; discriminate).
      rewrite rn_In. unfold leaf_value. split.
      - intros (c & H & ->). apply (cells_in O (pre Q) (JO (it_obj x)) it_unrolled (it_obj x) eq_refl it_clean) in H as (ks & k & (y & Hy & HL & HK) & ->).
        exists ks, k, y. split; [exact Hy|]. split; [exact HL|]. split; [|reflexivity]. unfold keeps in *. rewrite keeps_app, HkQ. exact HK.
      - intros (ks & k & y & Hy & HL & HK & ->). exists (pre Q ++ pre (down ks) ++ k). split; [|reflexivity].
        apply (cells_in O (pre Q) (JO (it_obj x)) it_unrolled (it_obj x) eq_refl it_clean). exists ks, k. split; [|reflexivity]. exists y. split; [exact Hy|]. split; [exact HL|].
        unfold keeps in *. rewrite keeps_app, HkQ in HK. exact HK.
    Qed.
    Lemma around r1 p1 d1 : In (r1, p1, d1) (tchain None [] v (it_at x)) <->
      exists Q1 Q2, Q = Q1 ++ Q2 /\ Q2 <> [] /\ at_path v Q1 = Some (JO d1) /\ p1 = pre Q1 /\ r1 = sheet_of_place O Q1.
    Proof.
      destruct it_there as (y & Hy). rewrite (tchain_In (it_at x) [] None v r1 p1 d1 y it_ok Hy). unfold it_path, sheet_of_place. cbn [app]. split.
      - intros (q1 & q2 & -> & Hd & E1 & E2). exists q1, (q2 ++ [(it_key x, Some (it_pos x))]). rewrite <- app_assoc. split; [reflexivity|]. split; [destruct q2; discriminate|auto].
      - intros (Q1 & Q2 & E & Hne & Hd & E1 & E2). destruct (exists_last Hne) as (q3 & z & ->). rewrite app_assoc in E. apply app_inj_tail in E as [E _]. exists Q1, q3. auto.
    Qed.
    Lemma item_tells : tells (item_value O v x) (trow O site).
    Proof.
      pose proof it_sheet as Es. unfold trow. rewrite Es. cbn [tsite_of si_prefix si_obj si_ids app].
      apply tells_by; unfold item_value; cbv zeta.
      - intros h val H. apply fill_get in H as [H|H]; [left; apply leaf_In; exact H|right]. apply fill_get in H as [H|H]; [|discriminate H].
        apply rn_In in H as (c & H & ->). apply tscopes_In in H as [[]|([[r1 p1] d1] & H & A)]. apply around in H as (Q1 & Q2 & E & Hne & Hd & -> & ->).
        exists Q1, Q2, d1. split; [exact E|]. split; [exact Hne|]. split; [exact Hd|]. destruct A as [[A ->]|(B & A & ->)]; [left|right]; auto.
      - intros h val [H|(Q1 & Q2 & d1 & E & Hne & Hd & H)].
        + apply fill_keys. left. apply in_map_iff. exists (h, val). split; [reflexivity|]. apply leaf_In. exact H.
        + apply fill_keys. right. apply fill_keys. left. apply rn_keys.
          assert (I : In (sheet_of_place O Q1, pre Q1, d1) (tchain None [] v (it_at x))) by (apply around; exists Q1, Q2; auto).
          destruct H as [[H ->]|(B & H & ->)]; eexists; (split; [|reflexivity]); apply tscopes_keys; right; exists (sheet_of_place O Q1, pre Q1, d1), val; (split; [exact I|]); [left|right]; auto.
    Qed.
  End Item.

  (** ** main rows *)
  Section Main.
    Hypothesis HP : forall l, Permutation l (po_set_order O l).
    Variable d : jobj.
    Hypothesis Hc : clean (JO d).
    Definition troll (k : str) (x : jv) : list (str * jv) :=
      if kept O [] k then match x with JA l => match leaf_cell O x with Some _ => [] | None => roll_cells O None k l end | _ => [] end else [].
    Lemma tcells_top d0 : tcells_of O None [] d0 = flat_map (fun kx => rn O None (own_cells O [] (fst kx) (snd kx)) ++ troll (fst kx) (snd kx)) d0.
    Proof.
      induction d0 as [|[k x] d0 IH]; [reflexivity|]. cbn [tcells_of flat_map fst snd]. rewrite IH. f_equal. unfold own_cells, troll.
      destruct (kept O [] k); [|reflexivity]. destruct x as [s|l|e]; [reflexivity| |rewrite app_nil_r; reflexivity]. destruct (leaf_cell O (JA l)); reflexivity.
    Qed.
    Lemma roll_column_heading k f : match roll_column O k f with Some c => Some (head None c) | None => None end = rolled_heading O k f.
    Proof.
      unfold roll_column, rolled_heading, in_rollup, roll_path. cbv zeta. change [slash_c] with (u "/"). change (k ++ u "/0/" ++ f) with (k ++ u "/0/" ++ f).
      destruct (po_schema O) as [sc|] eqn:Es.
      - destruct (po_titles O) eqn:Et.
        + unfold ahas. fold (sget (k ++ u "/0/" ++ f) (sh_titles (sci_main sc))). destruct (sget (k ++ u "/0/" ++ f) (sh_titles (sci_main sc))) as [t|] eqn:E1.
          * unfold heading, titles_of. rewrite Et, Es, E1. reflexivity.
          * destruct (str_mem k (po_rollup O)); [|reflexivity]. destruct (aget pair_eqb ([], k) (sci_sub_titles sc)) as [n|]; [|reflexivity].
            fold (sget n (sci_subs sc)). destruct (sget n (sci_subs sc)) as [y|] eqn:En; [|reflexivity]. f_equal. f_equal. unfold heading at 1, titles_of. rewrite Et, Es, En. reflexivity.
        + unfold heading. rewrite Et. destruct (str_mem _ _ || str_mem _ _); reflexivity.
      - destruct (str_mem k (po_rollup O)); [|reflexivity]. unfold heading, titles_of. rewrite Es. destruct (po_titles O); reflexivity.
    Qed.
    Lemma many_column k f : (if roll_many_wanted O k f then Some (head None (roll_path k f)) else None) = many_heading O k f.
    Proof. reflexivity. Qed.
    Lemma roll_cells_In k l h val : clean (JA l) -> In (h, val) (roll_cells O None k l) <-> po_rollup O <> [] /\ exists f, roll_kept O k f = true /\
      ((exists e, l = [JO e] /\ sget f e = Some val /\ rolled_heading O k f = Some h) \/
       ((2 <= length l)%nat /\ (exists e, In (JO e) l /\ In f (map fst e)) /\ val = JS (SStr rollup_text) /\ many_heading O k f = Some h)).
    Proof.
      intros Hl. unfold roll_cells. destruct (po_rollup O) as [|f0 fs] eqn:Er; [split; [intros []|intros [Q _]; congruence]|].
      assert (Ne : f0 :: fs <> []) by discriminate.
      destruct l as [|y [|z l]].
      - split; [intros []|]. intros [_ (f & _ & [(e & E & _)|(E & _)])]; [discriminate|simpl in E; lia].
      - destruct y as [s|a|e].
        + split; [intros []|]. intros [_ (f & _ & [(e & E & _)|(E & _)])]; [discriminate|simpl in E; lia].
        + split; [intros []|]. intros [_ (f & _ & [(e & E & _)|(E & _)])]; [discriminate|simpl in E; lia].
        + assert (Hn : NoDup (map fst e)) by (apply clean_JA in Hl; apply Forall_cons_iff in Hl as [Hl _]; apply clean_JO in Hl; exact (proj1 Hl)).
          rewrite in_flat_map. split.
          * intros ([f y] & H & E). apply filter_In in H as [H K]. cbn [fst snd] in *. split; [exact Ne|]. exists f. split; [exact K|]. left. exists e. split; [reflexivity|].
            pose proof (roll_column_heading k f) as R. destruct (roll_column O k f) as [c|]; [|destruct E]. destruct E as [[= <- <-]|[]]. split; [apply In_sget; assumption|]. symmetry. exact R.
          * intros [_ (f & K & [(e' & E & G & R)|(E & _)])]; [|simpl in E; lia]. injection E as <-. exists (f, val). split; [apply filter_In; split; [apply sget_In; exact G|exact K]|].
            cbn [fst snd]. rewrite <- roll_column_heading in R. destruct (roll_column O k f) as [c|]; [|discriminate]. injection R as <-. left. reflexivity.
      - match goal with |- In _ ?X <-> _ => assert (E0 : X = flat_map (fun f => if roll_many_wanted O k f then [(head None (roll_path k f), JS (SStr rollup_text))] else [])
               (filter (roll_kept O k) (po_set_order O (nub_str (flat_map (fun v => match v with JO d => map fst d | _ => [] end) (y :: z :: l)))))) by (destruct y; reflexivity) end.
        rewrite E0, in_flat_map. split.
        + intros (f & H & E). apply filter_In in H as [H K]. split; [exact Ne|]. exists f. split; [exact K|]. right. split; [simpl; lia|].
          apply (Permutation_in _ (Permutation_sym (HP _))) in H. apply (proj1 (nub_In _ _)) in H. apply keys_In in H. split; [exact H|].
          rewrite <- many_column. destruct (roll_many_wanted O k f); [|destruct E]. destruct E as [[= <- <-]|[]]. split; reflexivity.
        + intros [_ (f & K & [(e' & E & _)|(_ & F & -> & R)])]; [discriminate|]. exists f. split.
          * apply filter_In. split; [|exact K]. apply (Permutation_in _ (HP _)). apply (proj2 (nub_In _ _)). apply (proj2 (keys_In (y :: z :: l) f)). exact F.
          * rewrite <- many_column in R. destruct (roll_many_wanted O k f); [|discriminate]. injection R as <-. left. reflexivity.
    Qed.
    Lemma main_In h val : In (h, val) (tcells O None [] (JO d)) <-> record_value O d h val.
    Proof.
      cbn [tcells]. rewrite tcells_top. pose proof Hc as Hc0. apply clean_JO in Hc0 as [Hn HK]. rewrite Forall_forall in HK.
      assert (U : unrolled (without_rollup O) []) by (right; reflexivity).
      assert (LK : forall q p, keeps_from (without_rollup O) p q = keeps_from O p q) by (induction q as [|[k o] q IH]; intros p; [reflexivity|]; cbn [keeps_from]; rewrite IH; reflexivity).
      assert (L : (exists c, In (c, val) (flat_map (fun kx => own_cells O [] (fst kx) (snd kx)) d) /\ h = head None c) <-> leaf_value O None [] d h val).
      { unfold leaf_value. rewrite <- cells_base, <- cells_JO. split.
        - intros (c & H & ->). apply (cells_in (without_rollup O) [] (JO d) U d eq_refl Hc) in H as (ks & k & (y & Hy & HL & HKp) & ->). exists ks, k, y. rewrite LK in HKp. auto.
        - intros (ks & k & y & Hy & HL & HKp & ->). eexists. split; [|reflexivity]. apply (cells_in (without_rollup O) [] (JO d) U d eq_refl Hc). exists ks, k. split; [|reflexivity].
          exists y. rewrite LK. auto. }
      unfold record_value. rewrite <- L. clear L. rewrite in_flat_map. split.
      - intros ([k x] & Hin & H). cbn [fst snd] in H. apply in_app_or in H as [H|H].
        + left. apply rn_In in H as (c & H & ->). exists c. split; [|reflexivity]. apply in_flat_map. exists (k, x). auto.
        + right. unfold troll in H. destruct (kept O [] k) eqn:Hk; [|destruct H]. destruct x as [|l|]; try destruct H. destruct (leaf_cell O (JA l)) eqn:El; [destruct H|].
          destruct (HK _ Hin) as [_ Hx]. apply (roll_cells_In k l h val Hx) in H as (Ne & f & Hf & H). split; [exact Ne|]. exists k, l, f. split; [apply In_sget; assumption|]. split; [exact El|].
          split; [unfold keeps; cbn [keeps_from]; rewrite Hk; reflexivity|]. split; [apply roll_kept_spec; exact Hf|exact H].
      - intros [(c & H & ->)|(Ne & k & l & f & Hg & El & Hk & Hf & H)].
        + apply in_flat_map in H as (kx & Hin & H). exists kx. split; [exact Hin|]. apply in_or_app. left. apply rn_In. eauto.
        + apply sget_In in Hg. exists (k, JA l). split; [exact Hg|]. apply in_or_app. right. cbn [fst snd]. unfold troll. unfold keeps in Hk. cbn [keeps_from] in Hk. rewrite andb_true_r in Hk. rewrite Hk, El.
          destruct (HK _ Hg) as [_ Hx]. apply (roll_cells_In k l h val Hx). split; [exact Ne|]. exists f. split; [apply roll_kept_spec; exact Hf|exact H].
    Qed.
    Lemma record_tells : tells (record_value O d) (fill (tcells O None [] (JO d)) []).
    Proof.
      apply tells_by.
      - intros h val H. apply fill_get in H as [H|H]; [|discriminate H]. apply main_In. exact H.
      - intros h val H. apply fill_keys. left. apply in_map_iff. exists (h, val). split; [reflexivity|]. apply main_In. exact H.
    Qed.
  End Main.

  (** ** sheets *)
  Lemma tsub_sites l n : Forall clean l -> on_sheet (Some n) (tsites O l) = map (fun vx => tsite_of None [] [] (fst vx) (snd vx)) (items_on O n l).
  Proof.
    unfold items_on. induction 1 as [|v l Hc Hl IH]; [reflexivity|]. change (tsites O (v :: l)) with (trecord O v ++ tsites O l).
    change (all_items (v :: l)) with (map (pair v) (items_in v) ++ all_items l). unfold on_sheet in *. rewrite !filter_app, map_app, <- IH. f_equal.
    destruct v as [| |d]; try reflexivity. cbn [trecord]. rewrite filter_app, (tinner_items _ Hc). cbn [filter si_sheet oname_eqb]. rewrite app_nil_r.
    pose proof (items_at (JO d) Hc) as At. revert At. generalize (items_in (JO d)) as xs. induction xs as [|x xs IHx]; intros At; [reflexivity|]. cbn [map filter snd].
    specialize (IHx (fun y Hy => At y (or_intror Hy))). change (keeps O (it_path x)) with (keeps_from O [] (it_path x)). destruct (keeps_from O [] (it_path x)); [|exact IHx]. cbn [map filter snd]. rewrite IHx.
    rewrite (it_sheet (JO d) x Hc (At x (or_introl eq_refl))). cbn [oname_eqb].
    destruct (str_eqb n (array_sheet O (it_at x) (it_key x))); reflexivity.
  Qed.
  Lemma tinner_sub v : clean v -> forall r p ids s, In s (tinner O r p ids v) -> si_sheet s <> None.
  Proof. intros Hc r p ids s. rewrite (tinner_items v Hc). intros H. apply in_map_iff in H as (x & <- & _). discriminate. Qed.
  Lemma tsites_main l : Forall clean l -> on_sheet None (tsites O l) = map main_site (objects l).
  Proof.
    induction 1 as [|v l Hc Hl IH]; [reflexivity|]. change (tsites O (v :: l)) with (trecord O v ++ tsites O l). unfold on_sheet in *. rewrite filter_app, IH.
    destruct v as [| |d]; try reflexivity. change (objects (JO d :: l)) with (d :: objects l). cbn [map trecord]. rewrite filter_app.
    assert (E : filter (fun s => oname_eqb None (si_sheet s)) (tinner O None [] [] (JO d)) = []).
    { pose proof (tinner_sub (JO d) Hc None [] []) as Q. revert Q. generalize (tinner O None [] [] (JO d)) as ls. induction ls as [|s ls IHs]; intros Q; [reflexivity|].
      cbn [filter]. pose proof (Q s (or_introl eq_refl)) as Qs. destruct (si_sheet s); [|congruence]. apply IHs. intros s' H'. apply Q. right. exact H'. }
    rewrite E. reflexivity.
  Qed.
End Items.

Section Run.
  Variables (O : popts) (drop : bool) (pi : list str).
  Hypothesis P : json_run O.
  Hypothesis NF : po_filter O = None.

  Theorem main_told l s w : (forall l, Permutation l (po_set_order O l)) -> flatten O drop pi l = Ok s w -> name_free O s -> Forall clean l ->
    Forall2 (fun d => tells (record_value O d)) (records l) (tb_rows (main_table s)).
  Proof.
    intros HP H HF Hcl. rewrite (flatten_tsites O P drop pi l s w NF H HF None (main_table s) eq_refl), (tsites_main O l Hcl), map_map. change (objects l) with (records l).
    induction (records_clean l Hcl) as [|d ds Hd _ IH]; [constructor|]. cbn [map]. constructor; [exact (record_tells O HP d Hd)|exact IH].
  Qed.
  Theorem sub_told l s w : flatten O drop pi l = Ok s w -> name_free O s -> Forall clean l ->
    forall t, In t (sub_tables s) -> Forall2 (fun vx => tells (item_value O (fst vx) (snd vx))) (items_on O (tb_name t) l) (tb_rows t).
  Proof.
    intros H HF Hcl t Ht. rewrite (flatten_tsites O P drop pi l s w NF H HF (Some (tb_name t)) t (conj Ht eq_refl)), (tsub_sites O _ _ Hcl), map_map.
    assert (A : forall vx, In vx (items_on O (tb_name t) l) -> In (fst vx) l /\ In (snd vx) (items_in (fst vx)) /\ keeps O (it_path (snd vx)) = true).
    { intros vx Hx. apply filter_In in Hx as [Hx _]. apply filter_In in Hx as [Hx HK]. apply in_flat_map in Hx as (v & Hv & Hx). apply in_map_iff in Hx as (x & <- & Hx). auto. }
    revert A. generalize (items_on O (tb_name t) l) as xs.
    induction xs as [|[v x] xs IH]; intros A; [constructor|]. cbn [map]. constructor; [|apply IH; intros vx Hx; apply A; right; exact Hx].
    destruct (A (v, x) (or_introl eq_refl)) as (Hv & Hx & HK). cbn [fst snd] in *. rewrite Forall_forall in Hcl. specialize (Hcl v Hv).
    exact (item_tells O v x Hcl (items_at v Hcl x Hx) HK).
  Qed.
  Lemma tsite_has_table l s w x n : flatten O drop pi l = Ok s w -> name_free O s -> In x (tsites O l) -> si_sheet x = Some n ->
    exists t, In t (sub_tables s) /\ tb_name t = n.
  Proof.
    intros H HF Hx Hn. destruct (flatten_inv _ _ _ _ _ _ H) as (s0 & w0 & H0 & ->).
    pose proof (proj1 P) as SR.
    pose proof (parse_list_trace O _ _ _ _ _ H0) as T. pose proof (trace_names O _ _ T (start_names O drop SR)) as Hnn.
    pose proof (name_free_drop O drop l s0 w0 H0 SR HF) as HM.
    pose proof (start_ok O drop SR) as S0.
    destruct (parse_list_title O P l NF _ _ _ _ (start_good O drop) H0) as (_ & G & _). specialize (G HM S0 (Some n)). rewrite (start_rows O drop SR), sel_tentries in G. cbn [app] in G.
    assert (Hin : In (trow O x) (rows (Some n) s0)).
    { rewrite G. apply in_map. unfold on_sheet. apply filter_In. split; [exact Hx|]. rewrite Hn. apply oname_eqb_refl. }
    unfold rows in Hin. destruct (sheet_at (Some n) s0) as [y|] eqn:Ey; [|destruct Hin].
    assert (Ey' : sget n (p_subs (drop_empty drop s0)) = Some y).
    { simpl in Ey. destruct (sget n (p_subs (drop_empty drop s0))) as [z|] eqn:Ez.
      - pose proof (drop_sheet drop (Some n) s0 z Hnn Ez) as Q. simpl in Q. congruence.
      - pose proof (drop_gone drop n s0 y Hnn Ey Ez) as El. unfold lines_of in Hin. rewrite El in Hin. destruct Hin. }
    exists (table_of (p_store (drop_empty drop s0)) n y). split; [|reflexivity]. unfold sub_tables. apply in_map_iff. exists (n, y). split; [reflexivity|]. apply sget_In. exact Ey'.
  Qed.
  Theorem names_told l s w : flatten O drop pi l = Ok s w -> name_free O s -> Forall clean l ->
    forall n, (In n (map tb_name (sub_tables s)) -> schema_sheet O n \/ items_on O n l <> []) /\ (items_on O n l <> [] -> In n (map tb_name (sub_tables s))).
  Proof.
    intros H HF Hcl n. split; intros Hn.
    - apply in_map_iff in Hn as (t & <- & Ht). destruct (flatten_ttables O P drop pi l s w NF H t Ht) as [Sc|(x & Hx & Ex)]; [left; exact Sc|right].
      assert (Q : In x (on_sheet (Some (tb_name t)) (tsites O l))) by (apply filter_In; split; [exact Hx|rewrite Ex; apply oname_eqb_refl]).
      rewrite (tsub_sites O _ _ Hcl) in Q. intros E. rewrite E in Q. destruct Q.
    - destruct (items_on O n l) as [|vx xs] eqn:E; [congruence|].
      assert (Q : In (tsite_of O None [] [] (fst vx) (snd vx)) (on_sheet (Some n) (tsites O l))) by (rewrite (tsub_sites O _ _ Hcl), E; left; reflexivity).
      apply filter_In in Q as [Q Q2]. apply oname_eqb_eq in Q2. destruct (tsite_has_table l s w _ _ H HF Q (eq_sym Q2)) as (t & Ht & En).
      apply in_map_iff. exists t. split; assumption.
  Qed.
End Run.

(** ** with a filter too *)
Section Chosen.
  Variables (O : popts) (drop : bool) (pi : list str).
  Hypothesis P : json_run O.
  Lemma run_unfiltered l s w : flatten O drop pi l = Ok s w -> exists w', flatten (without_filter O) drop pi (chosen O l) = Ok s w'.
  Proof.
    intros H. unfold chosen. destruct (po_filter O) as [[f v]|] eqn:E.
    - pose proof (flatten_filter O (proj2 (proj2 P)) f v drop pi l E) as Q. rewrite H in Q. simpl in Q.
      destruct (flatten (without_filter O) drop pi (filter (passes f v) l)) as [s' w'|]; simpl in Q; [|discriminate]. injection Q as ->. eauto.
    - exists w. rewrite <- H. f_equal. unfold without_filter. destruct O; simpl in *; subst; reflexivity.
  Qed.
  Theorem chosen_main l s w : (forall l, Permutation l (po_set_order O l)) -> flatten O drop pi l = Ok s w -> name_free O s -> Forall clean l ->
    Forall2 (fun d => tells (record_value O d)) (records (chosen O l)) (tb_rows (main_table s)).
  Proof.
    intros HP H HF Hc. destruct (run_unfiltered l s w H) as (w' & H').
    exact (main_told (without_filter O) drop pi P eq_refl _ s w' HP H' HF (chosen_clean O l Hc)).
  Qed.
  Theorem chosen_sub l s w : flatten O drop pi l = Ok s w -> name_free O s -> Forall clean l ->
    forall t, In t (sub_tables s) -> Forall2 (fun vx => tells (item_value O (fst vx) (snd vx))) (items_on O (tb_name t) (chosen O l)) (tb_rows t).
  Proof.
    intros H HF Hc. destruct (run_unfiltered l s w H) as (w' & H').
    exact (sub_told (without_filter O) drop pi P eq_refl _ s w' H' HF (chosen_clean O l Hc)).
  Qed.
  Theorem chosen_names l s w : flatten O drop pi l = Ok s w -> name_free O s -> Forall clean l ->
    forall n, (In n (map tb_name (sub_tables s)) -> schema_sheet O n \/ items_on O n (chosen O l) <> []) /\ (items_on O n (chosen O l) <> [] -> In n (map tb_name (sub_tables s))).
  Proof.
    intros H HF Hc. destruct (run_unfiltered l s w H) as (w' & H').
    exact (names_told (without_filter O) drop pi P eq_refl _ s w' H' HF (chosen_clean O l Hc)).
  Qed.
End Chosen.
