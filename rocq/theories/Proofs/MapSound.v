(** What is in the source maps. *)
From Coq Require Import Permutation Lia.
From Verif.Base Require Import PyStr PyNum PyVal PyDict Outcome.
From Verif.Model Require Import Warn Lib Convert Input SourceMap.
From Verif.Spec Require Import Source Ids Cells Rows Maps.
From Verif.Proofs Require Import TreeInd EmbedFacts RunCells RunSource MapFacts MapRun.
Local Open Scope res_scope.

(** ** Collecting pairs under keys *)
Section Bump.
  Context {X A : Type} (eqb : A -> A -> bool) (key : X -> str) (vals : X -> list A).
  Definition seen (ps : list A) (a : A) : Prop := In a ps \/ exists b, In b ps /\ eqb a b = true.
  Lemma add_absent_in l x a : In a (add_absent eqb l x) -> In a l \/ a = x.
  Proof. unfold add_absent. destruct (existsb (eqb x) l); [auto|]. intros H. apply in_app_or in H as [H|[H|[]]]; auto. Qed.
  Lemma add_absent_incl l x : incl l (add_absent eqb l x).
  Proof. unfold add_absent. destruct (existsb (eqb x) l); [apply incl_refl|]. intros a H. apply in_or_app. auto. Qed.
  Lemma add_absent_seen l x : seen (add_absent eqb l x) x.
  Proof.
    unfold add_absent. destruct (existsb (eqb x) l) eqn:E.
    - right. apply existsb_exists in E as (b & Hb & E). exists b. auto.
    - left. apply in_or_app. right. left. reflexivity.
  Qed.
  Lemma once_snoc l x : once eqb l -> (forall a, In a l -> eqb x a = false) -> once eqb (l ++ [x]).
  Proof.
    intros H. induction H as [|a l Ha H IH]; intros Hx; simpl.
    - constructor; [constructor|constructor].
    - constructor; [|apply IH; intros; apply Hx; right; assumption]. rewrite Forall_forall in *. intros b Hb. apply in_app_or in Hb as [Hb|[<-|[]]]; [auto|]. apply Hx. left. reflexivity.
  Qed.
  Lemma add_absent_once l x : once eqb l -> once eqb (add_absent eqb l x).
  Proof.
    intros H. unfold add_absent. destruct (existsb (eqb x) l) eqn:E; [exact H|]. apply once_snoc; [exact H|]. intros a Ha.
    destruct (eqb x a) eqn:Q; [|reflexivity]. rewrite <- E. symmetry. apply existsb_exists. exists a. auto.
  Qed.
  Lemma seen_incl l l' a : incl l l' -> seen l a -> seen l' a.
  Proof. intros H [S|(b & S & E)]; [left; apply H; exact S|right; exists b; auto]. Qed.
  Lemma adds_spec xs : forall l, once eqb l -> let l' := fold_left (add_absent eqb) xs l in
    (forall a, In a l' -> In a l \/ In a xs) /\ incl l l' /\ (forall a, In a xs -> seen l' a) /\ once eqb l'.
  Proof.
    induction xs as [|x xs IH]; intros l Hl; cbn [fold_left].
    - split; [auto|]. split; [apply incl_refl|]. split; [intros a []|exact Hl].
    - destruct (IH (add_absent eqb l x) (add_absent_once l x Hl)) as (A1 & A2 & A3 & A4). split; [|split; [|split; [|exact A4]]].
      + intros a Ha. apply A1 in Ha as [Ha|Ha]; [|right; right; exact Ha]. apply add_absent_in in Ha as [Ha| ->]; [auto|right; left; reflexivity].
      + eapply incl_tran; [apply add_absent_incl|exact A2].
      + intros a [<-|Ha]; [|auto]. eapply seen_incl; [exact A2|]. apply add_absent_seen.
  Qed.
  Definition binv (done : list X) (m : list (str * list A)) : Prop :=
    NoDup (map fst m) /\
    forall k, match sget k m with
              | None => forall x, In x done -> key x <> k
              | Some ps => (exists x, In x done /\ key x = k) /\ (forall a, In a ps -> exists x, In x done /\ key x = k /\ In a (vals x)) /\
                           (forall x a, In x done -> key x = k -> In a (vals x) -> seen ps a) /\ once eqb ps
              end.
  Lemma binv_step done m x : binv done m -> binv (done ++ [x]) (bump eqb (key x) (vals x) m).
  Proof.
    intros [Hnd H]. unfold bump. split; [apply sset_NoDup; exact Hnd|]. intros k.
    destruct (str_eqb_spec (key x) k) as [<-|Hk].
    - rewrite sget_sset_eq. specialize (H (key x)). split; [exists x; split; [apply in_or_app; right; left; reflexivity|reflexivity]|].
      destruct (sget (key x) m) as [ps|].
      + destruct H as (_ & H2 & H3 & H4). destruct (adds_spec (vals x) ps H4) as (A1 & A2 & A3 & A4). repeat split; [| |exact A4].
        * intros a Ha. apply A1 in Ha as [Ha|Ha].
          -- destruct (H2 a Ha) as (y & Hy & E & Hv). exists y. split; [apply in_or_app; auto|auto].
          -- exists x. split; [apply in_or_app; right; left; reflexivity|auto].
        * intros y a Hy E Hv. apply in_app_or in Hy as [Hy|[<-|[]]]; [|auto]. eapply seen_incl; [exact A2|]. eapply H3; eassumption.
      + destruct (adds_spec (vals x) [] (FOP_nil _)) as (A1 & A2 & A3 & A4). repeat split; [| |exact A4].
        * intros a Ha. apply A1 in Ha as [[]|Ha]. exists x. split; [apply in_or_app; right; left; reflexivity|auto].
        * intros y a Hy E Hv. apply in_app_or in Hy as [Hy|[<-|[]]]; [exfalso; exact (H y Hy E)|auto].
    - rewrite sget_sset_neq by congruence. specialize (H k). destruct (sget k m) as [ps|].
      + destruct H as ((y & Hy & E) & H2 & H3 & H4). split; [exists y; split; [apply in_or_app; auto|exact E]|]. repeat split; [| |exact H4].
        * intros a Ha. destruct (H2 a Ha) as (z & Hz & Ez & Hv). exists z. split; [apply in_or_app; auto|auto].
        * intros z a Hz Ez Hv. apply in_app_or in Hz as [Hz|[<-|[]]]; [eapply H3; eassumption|congruence].
      + intros y Hy. apply in_app_or in Hy as [Hy|[<-|[]]]; [apply H; exact Hy|exact Hk].
  Qed.
  Lemma binv_fold l : forall done m, binv done m -> binv (done ++ l) (fold_left (fun m x => bump eqb (key x) (vals x) m) l m).
  Proof.
    induction l as [|x l IH]; intros done m H; cbn [fold_left]; [rewrite app_nil_r; exact H|].
    apply binv_step with (x := x) in H. apply IH in H. rewrite <- app_assoc in H. exact H.
  Qed.
  Lemma binv_run l : binv l (fold_left (fun m x => bump eqb (key x) (vals x) m) l []).
  Proof. apply (binv_fold l [] []). split; [constructor|]. intros k. cbn. intros x []. Qed.
  Lemma binv_in l m k ps : binv l m -> In (k, ps) m ->
    (exists x, In x l /\ key x = k) /\ (forall a, In a ps -> exists x, In x l /\ key x = k /\ In a (vals x)) /\
    (forall x a, In x l -> key x = k -> In a (vals x) -> seen ps a) /\ once eqb ps.
  Proof. intros [Hnd H] Hin. specialize (H k). rewrite (In_sget _ _ _ Hnd Hin) in H. exact H. Qed.
  Lemma binv_key l m x : binv l m -> In x l -> exists ps, In (key x, ps) m.
  Proof. intros [Hnd H] Hin. specialize (H (key x)). destruct (sget (key x) m) as [ps|] eqn:E; [exists ps; apply sget_In; exact E|]. exfalso. exact (H x Hin eq_refl). Qed.
End Bump.

(** ** The cell entries and the row entries *)
Lemma cell_entries_list l : NoDup (map (fun x : epath * list loc => path_str (fst x)) l) ->
  cell_entries l = map (fun x => (path_str (fst x), ECells (snd x))) l.
Proof.
  unfold cell_entries. intros H.
  assert (G : forall m, (forall x, In x l -> ~ In (path_str (fst x)) (map fst m)) ->
    fold_left (fun m x => sset (path_str (fst x)) (ECells (snd x)) m) l m = m ++ map (fun x => (path_str (fst x), ECells (snd x))) l).
  { induction l as [|x l IH]; intros m Hm; cbn [fold_left map]; [rewrite app_nil_r; reflexivity|].
    cbn [map] in H. apply NoDup_cons_iff in H as [Hx H]. rewrite sset_new by (apply sget_None; apply Hm; left; reflexivity).
    rewrite IH; [rewrite <- app_assoc; reflexivity|exact H|]. intros y Hy Hin. rewrite map_app in Hin. apply in_app_or in Hin as [Hin|[Q|[]]].
    - exact (Hm y (or_intror Hy) Hin).
    - cbn [fst] in Q. apply Hx. rewrite Q. apply in_map_iff. exists y. auto. }
  rewrite G; [reflexivity|]. intros x _ [].
Qed.
Lemma add_rows_list rows : forall m, NoDup (map fst rows) -> (forall k, In k (map fst rows) -> ~ In k (map fst m)) ->
  add_rows rows m = Ok (m ++ map (fun kl => (fst kl, ERows (snd kl))) rows) [].
Proof.
  induction rows as [|[k l] rows IH]; intros m Hnd Hm; cbn [add_rows map fst snd]; [rewrite app_nil_r; reflexivity|].
  cbn [map fst] in *. apply NoDup_cons_iff in Hnd as [Hk Hnd].
  assert (E : sget k m = None) by (apply sget_None; apply Hm; left; reflexivity).
  unfold shas, ahas. fold (sget k m). rewrite E. rewrite sset_new by exact E. rewrite IH; [rewrite <- app_assoc; reflexivity|exact Hnd|].
  intros k' Hk' Hin. rewrite map_app in Hin. apply in_app_or in Hin as [Hin|[<-|[]]]; [exact (Hm k' (or_intror Hk') Hin)|exact (Hk Hk')].
Qed.

Section Tree.
  Variables (F : fancy) (tree : list jdict).
  Hypothesis G : good_tree tree.
  Notation cells := (tree_cells (JList tree)).
  Notation at_ := (node_at (JList tree)).
  Lemma in_cells p c : In (p, c) cells <-> at_ p = Some (JCell c).
  Proof. apply in_tree_cells. apply gt_wf. exact G. Qed.
  (** a leaf sits directly in an object *)
  Lemma cell_parent p c : at_ p = Some (JCell c) -> exists q k d, p = q ++ [PKey k] /\ at_ q = Some (JDict d) /\ q <> [].
  Proof.
    intros H. destruct p as [|a p] using rev_ind; [discriminate|]. clear IHp. destruct (node_at_app _ _ _ _ H) as (n & H1 & H2).
    destruct a as [i|k]; cbn [node_at] in H2.
    - destruct n as [|d|l]; try discriminate. destruct (nth_error l (N.to_nat i)); discriminate.
    - destruct n as [|d|l]; try discriminate. exists p, k, d. split; [reflexivity|]. split; [exact H1|]. intros ->. discriminate.
  Qed.
  Lemma cell_slashless p c : at_ p = Some (JCell c) -> slashless p.
  Proof. intros H k Hk. apply in_cells in H. apply (gt_key _ G _ _ H k Hk). Qed.
  Lemma slashless_l p q : slashless (p ++ q) -> slashless p.
  Proof. intros H k Hk. apply H. unfold pkeys. rewrite flat_map_app. apply in_or_app. left. exact Hk. Qed.
  (** places above leaves *)
  Definition placed (p : epath) : Prop := p <> [] /\ slashless p /\ exists n, at_ p = Some n.
  Lemma placed_inj p q : placed p -> placed q -> path_str (pre F ++ p) = path_str (pre F ++ q) -> p = q.
  Proof.
    intros (P1 & P2 & n & P3) (Q1 & Q2 & m & Q3) H. eapply places_same; [exact P3|exact Q3|]. eapply path_str_inj; eassumption.
  Qed.
  Lemma cell_placed p c : at_ p = Some (JCell c) -> placed p.
  Proof. intros H. split; [intros ->; discriminate|]. split; [eapply cell_slashless; exact H|eauto]. Qed.
  Lemma parent_placed q k c : at_ (q ++ [PKey k]) = Some (JCell c) -> placed q /\ exists d, at_ q = Some (JDict d).
  Proof.
    intros H. destruct (cell_parent _ _ H) as (q' & k' & d & Q & Hq & Hne). apply app_inj_tail in Q as [<- _].
    split; [|eauto]. split; [exact Hne|]. split; [|eauto]. eapply slashless_l. eapply cell_slashless. exact H.
  Qed.
  Lemma pre_last q k : removelast (pre F ++ q ++ [PKey k]) = pre F ++ q.
  Proof. rewrite app_assoc. apply removelast_last. Qed.

  Lemma source_maps items : Permutation items (locs_at (pre F) cells) ->
    let rows := fold_left row_step items [] in
    let heads := fold_left heading_step items [] in
    (exists m, add_rows rows (cell_entries items) = Ok m [] /\ NoDup (map fst m) /\
      (forall k ls, In (k, ECells ls) m <-> exists p c, at_ p = Some (JCell c) /\ k = place_text F p /\ ls = cell_locs c) /\
      (forall k rs, In (k, ERows rs) m -> NoDup rs /\ exists q, k = place_text F q /\ (exists key c, at_ (q ++ [PKey key]) = Some (JCell c)) /\
         forall s n, In (s, n) rs <-> exists key l, recorded tree (q ++ [PKey key]) l /\ l_sheet l = s /\ l_row l = n) /\
      (forall q key c, at_ (q ++ [PKey key]) = Some (JCell c) -> exists rs, In (place_text F q, ERows rs) m)) /\
    (NoDup (map fst heads) /\
      (forall k hs, In (k, hs) heads -> once hpair_eqb hs /\ (exists p c, at_ p = Some (JCell c) /\ k = field_text F p) /\
         (forall s h, In (s, h) hs -> exists p l, field_text F p = k /\ recorded tree p l /\ l_sheet l = s /\ l_heading l = h) /\
         (forall p l, field_text F p = k -> recorded tree p l -> exists h, In (l_sheet l, h) hs /\ (h = l_heading l \/ py_eqb (l_heading l) h = true))) /\
      (forall p c, at_ p = Some (JCell c) -> exists hs, In (field_text F p, hs) heads)).
  Proof.
    intros Hperm rows heads.
    assert (Hitem : forall x, In x items <-> exists p c, at_ p = Some (JCell c) /\ x = (pre F ++ p, cell_locs c)).
    { intros x. split.
      - intros Hx. eapply Permutation_in in Hx; [|exact Hperm]. unfold locs_at in Hx. apply in_map_iff in Hx as ([p c] & <- & Hx). exists p, c. split; [apply in_cells; exact Hx|reflexivity].
      - intros (p & c & H & ->). eapply Permutation_in; [apply Permutation_sym; exact Hperm|]. unfold locs_at. apply in_map_iff. exists (p, c). split; [reflexivity|apply in_cells; exact H]. }
    assert (Hkeys : NoDup (map (fun x : epath * list loc => path_str (fst x)) items)).
    { assert (Hn : NoDup (map fst cells)) by (apply tree_cells_NoDup; apply gt_wf; exact G).
      eapply Permutation_NoDup; [apply Permutation_map; apply Permutation_sym; exact Hperm|]. unfold locs_at. rewrite map_map.
      assert (Hall : forall pc, In pc cells -> at_ (fst pc) = Some (JCell (snd pc))) by (intros [p c] Hin; apply in_cells; exact Hin).
      clear Hitem Hperm. revert Hn Hall. induction cells as [|[p c] l IH]; intros Hn Hall; [constructor|]. cbn [map fst snd] in *. apply NoDup_cons_iff in Hn as [Hp Hn]. constructor.
      - intros Hin. apply in_map_iff in Hin as ([q c'] & Q & Hin). cbn [fst snd] in Q. apply placed_inj in Q.
        + subst q. apply Hp. apply in_map_iff. exists (p, c'). auto.
        + exact (cell_placed _ _ (Hall (q, c') (or_intror Hin))).
        + exact (cell_placed _ _ (Hall (p, c) (or_introl eq_refl))).
      - apply IH; [exact Hn|]. intros pc Hpc. apply Hall. right. exact Hpc. }
    pose proof (binv_run pair_eqb (fun x : epath * list loc => path_str (removelast (fst x))) (fun x => map (fun l => (l_sheet l, l_row l)) (snd x)) items) as Hrows.
    change (binv pair_eqb (fun x : epath * list loc => path_str (removelast (fst x))) (fun x => map (fun l => (l_sheet l, l_row l)) (snd x)) items rows) in Hrows.
    pose proof (binv_run hpair_eqb (fun x : epath * list loc => header_str (fst x)) (fun x => map (fun l => (l_sheet l, l_heading l)) (snd x)) items) as Hheads.
    change (binv hpair_eqb (fun x : epath * list loc => header_str (fst x)) (fun x => map (fun l => (l_sheet l, l_heading l)) (snd x)) items heads) in Hheads.
    assert (Hhead : forall p c, at_ p = Some (JCell c) -> header_str (pre F ++ p) = field_text F p).
    { intros p c H. apply header_str_field. intros k Hk. apply in_cells in H. apply (gt_key _ G _ _ H k Hk). }
    assert (Hrow : forall x, In x items -> exists q k c, at_ (q ++ [PKey k]) = Some (JCell c) /\ x = (pre F ++ q ++ [PKey k], cell_locs c) /\ path_str (removelast (fst x)) = path_str (pre F ++ q)).
    { intros x Hx. apply Hitem in Hx as (p & c & H & ->). destruct (cell_parent _ _ H) as (q & k & d & -> & Hq & Hne). exists q, k, c. split; [exact H|]. split; [reflexivity|]. cbn [fst]. rewrite pre_last. reflexivity. }
    assert (Hpe : forall a b, pair_eqb a b = true <-> a = b).
    { intros [a n] [b m]. unfold pair_eqb. cbn [fst snd]. rewrite andb_true_iff, N.eqb_eq, str_eqb_eq. split; [intros [-> ->]; reflexivity|intros [= -> ->]; auto]. }
    split.
    - assert (Hdis : forall k, In k (map fst rows) -> ~ In k (map fst (cell_entries items))).
      { intros k Hk Hc. rewrite cell_entries_list in Hc by exact Hkeys. rewrite map_map in Hc. cbn [fst] in Hc. apply in_map_iff in Hc as (x & Q & Hx).
        apply in_map_iff in Hk as ([k' rs] & Qk & Hk). cbn [fst] in Qk. subst k'. destruct (binv_in _ _ _ _ _ _ _ Hrows Hk) as [(y & Hy & E) _].
        destruct (Hrow y Hy) as (q & kk & c & Hq & -> & E'). cbn beta in E. rewrite E' in E. apply Hitem in Hx as (p & c' & Hp & ->). cbn [fst] in Q. rewrite <- E in Q.
        destruct (parent_placed _ _ _ Hq) as [Pq (d & Hd)]. apply placed_inj in Q; [|eapply cell_placed; exact Hp|exact Pq]. subst q. congruence. }
      eexists. split; [apply add_rows_list; [apply Hrows|exact Hdis]|].
      assert (Hc : forall k ls, In (k, ECells ls) (cell_entries items ++ map (fun kl => (fst kl, ERows (snd kl))) rows) <-> exists p c, at_ p = Some (JCell c) /\ k = place_text F p /\ ls = cell_locs c).
      { intros k ls. rewrite cell_entries_list by exact Hkeys. rewrite in_app_iff, !in_map_iff. split.
        - intros [(x & Q & Hx)|([k' l] & Q & _)]; [|discriminate]. injection Q as <- <-. apply Hitem in Hx as (p & c & Hp & ->). exists p, c. cbn [fst snd]. rewrite path_str_place. auto.
        - intros (p & c & Hp & -> & ->). left. exists (pre F ++ p, cell_locs c). cbn [fst snd]. rewrite path_str_place. split; [reflexivity|]. apply Hitem. eauto. }
      split; [|split; [exact Hc|split]].
      + rewrite map_app, map_map. cbn [fst]. change (map (fun x : str * list (str * N) => fst x) rows) with (map fst rows). apply NoDup_app'.
        * rewrite cell_entries_list by exact Hkeys. rewrite map_map. cbn [fst]. exact Hkeys.
        * apply Hrows.
        * intros k Hk Hk'. exact (Hdis k Hk' Hk).
      + intros k rs Hin. rewrite cell_entries_list in Hin by exact Hkeys. rewrite in_app_iff, !in_map_iff in Hin. destruct Hin as [(x & Q & _)|([k' l] & Q & Hin)]; [discriminate|].
        cbn [fst snd] in Q. injection Q as -> ->. destruct (binv_in _ _ _ _ _ _ _ Hrows Hin) as ((y & Hy & E) & H2 & H3 & H4). split.
        * clear -H4 Hpe. unfold once in H4. induction H4 as [|a l Ha _ IH]; constructor; [|exact IH]. intros Hin. rewrite Forall_forall in Ha. specialize (Ha a Hin). rewrite (proj2 (Hpe a a) eq_refl) in Ha. discriminate.
        * destruct (Hrow y Hy) as (q & kk & c & Hq & -> & E'). cbn beta in E. rewrite E' in E. exists q. split; [rewrite <- E; apply path_str_place|]. split; [eauto|]. intros s n. split.
          -- intros Hs. destruct (H2 _ Hs) as (z & Hz & Ez & Hv). destruct (Hrow z Hz) as (q' & k2 & c2 & Hq' & -> & Ez'). cbn beta in Ez. rewrite Ez', <- E in Ez.
             apply placed_inj in Ez; [|eapply parent_placed; eassumption|eapply parent_placed; eassumption]. subst q'. cbn [snd] in Hv. apply in_map_iff in Hv as (l & Ql & Hl). injection Ql as <- <-.
             exists k2, l. split; [exists c2; auto|auto].
          -- intros (key & l & (c2 & Hc2 & Hl) & <- & <-). destruct (H3 (pre F ++ q ++ [PKey key], cell_locs c2) (l_sheet l, l_row l)) as [Hs|(b & Hb & Eb)].
             ++ apply Hitem. eauto.
             ++ cbn [fst]. rewrite pre_last. exact E.
             ++ cbn [snd]. apply in_map_iff. exists l. auto.
             ++ exact Hs.
             ++ apply Hpe in Eb. subst b. exact Hb.
      + intros q key c Hq. destruct (binv_key _ _ _ _ _ (pre F ++ q ++ [PKey key], cell_locs c) Hrows) as (rs & Hin); [apply Hitem; eauto|].
        cbn [fst] in Hin. rewrite pre_last, path_str_place in Hin. exists rs. apply in_or_app. right. apply in_map_iff. exists (place_text F q, rs). auto.
    - split; [apply Hheads|]. split.
      + intros k hs Hin. destruct (binv_in _ _ _ _ _ _ _ Hheads Hin) as ((y & Hy & E) & H2 & H3 & H4). split; [exact H4|]. split; [|split].
        * apply Hitem in Hy as (p & c & Hp & ->). exists p, c. split; [exact Hp|]. cbn [fst] in E. rewrite <- E. eapply Hhead. exact Hp.
        * intros s h Hs. destruct (H2 _ Hs) as (z & Hz & Ez & Hv). apply Hitem in Hz as (p & c & Hp & ->). cbn [fst] in Ez. rewrite (Hhead _ _ Hp) in Ez. cbn [snd] in Hv.
          apply in_map_iff in Hv as (l & Ql & Hl). injection Ql as <- <-. exists p, l. split; [exact Ez|]. split; [exists c; auto|auto].
        * intros p l Ep (c & Hp & Hl). destruct (H3 (pre F ++ p, cell_locs c) (l_sheet l, l_heading l)) as [Hs|([s h] & Hb & Eb)].
          -- apply Hitem. eauto.
          -- cbn [fst]. rewrite (Hhead _ _ Hp). exact Ep.
          -- cbn [snd]. apply in_map_iff. exists l. auto.
          -- exists (l_heading l). auto.
          -- unfold hpair_eqb in Eb. cbn [fst snd] in Eb. apply andb_true_iff in Eb as [Es Eh]. apply str_eqb_eq in Es. subst s. exists h. auto.
      + intros p c Hp. destruct (binv_key _ _ _ _ _ (pre F ++ p, cell_locs c) Hheads) as (hs & Hin); [apply Hitem; eauto|]. cbn [fst] in Hin. rewrite (Hhead _ _ Hp) in Hin. eauto.
  Qed.
End Tree.

(** ** A run *)
Lemma jcells_tree xml idn n : forall sp c, In (sp, c) (jcells xml idn n) -> exists p, In (p, c) (tree_cells n).
Proof.
  assert (D : forall d, Pjd (fun n => forall sp c, In (sp, c) (jcells xml idn n) -> exists p, In (p, c) (tree_cells n)) d ->
     forall sp c, In (sp, c) (flat_map (fun kn => below (Key (fst kn)) (jcells xml idn (snd kn))) d) -> exists p, In (p, c) (entries_cells tree_cells d)).
  { intros d HF sp c Hin. apply in_flat_map in Hin as ([k n0] & Hd & Hin). unfold below in Hin. apply in_map_iff in Hin as ([q c'] & Q & Hin). injection Q as <- <-.
    unfold Pjd in HF. rewrite Forall_forall in HF. destruct (HF _ Hd _ _ Hin) as (p & Hp). exists (PKey k :: p). apply in_entries_cells. exists k, n0, p. auto. }
  induction n as [c0|d IH|l IH] using jnode_ind'; intros sp c Hin.
  - destruct Hin as [Q|[]]. injection Q as <- <-. exists []. left. reflexivity.
  - exact (D d IH sp c Hin).
  - cbn [jcells] in Hin. apply in_flat_map in Hin as (d & Hd & Hin). unfold below at 1 in Hin. apply in_map_iff in Hin as ([q c'] & Q & Hin). injection Q as <- <-.
    rewrite Forall_forall in IH. destruct (D d (IH _ Hd) _ _ Hin) as (p & Hp). apply In_nth_error in Hd as (i & Hi). exists (PIdx (N.of_nat i) :: p).
    cbn [tree_cells]. apply in_items_cells. exists i, d, p. rewrite N.add_0_l. auto.
Qed.

Theorem fancy_run O F sheets tree w : do_unflatten O sheets = Ok tree w ->
  exists items, Permutation items (locs_at (pre F) (tree_cells (JList tree))) /\
    exists m, add_rows (fold_left row_step items []) (cell_entries items) = Ok m [] /\
    fancy_unflatten O F sheets = Ok (map dict_to_v tree, if f_cells F then Some m else None,
      if f_cells F || f_headings F then Some (if f_headings F then fold_left heading_step items [] else []) else None) w.
Proof.
  intros H. pose proof (run_good_tree _ _ _ _ H) as G.
  assert (He : extract_list_to_error_path (pre F) tree = Ok (locs_at (pre F) (tree_cells (JList tree))) []).
  { exact (extract_ok (JList tree) (gt_wf _ G) (gt_sub _ G) (pre F)). }
  destruct (sort_paths_ok (locs_at (pre F) (tree_cells (JList tree)))) as (items & Hs & Hp).
  { intros x y Hx Hy. unfold locs_at in Hx, Hy. apply in_map_iff in Hx as ([p c] & <- & Hx). apply in_map_iff in Hy as ([q c'] & <- & Hy). cbn [fst].
    apply pre_comparable. apply in_tree_cells in Hx; [|apply gt_wf; exact G]. apply in_tree_cells in Hy; [|apply gt_wf; exact G]. eapply places_comparable; eassumption. }
  exists items. split; [exact Hp|]. destruct (source_maps F tree G items Hp) as [(m & Hm & _) _]. exists m. split; [exact Hm|].
  unfold fancy_unflatten. rewrite H. cbn [bind]. fold (pre F). destruct (f_cells F || f_headings F) eqn:E.
  - rewrite He. cbn [bind]. rewrite Hs. cbn [bind]. destruct (f_cells F) eqn:Ec.
    + rewrite Hm. cbn [bind ret]. rewrite !app_nil_r. reflexivity.
    + cbn [ret]. rewrite !app_nil_r. reflexivity.
  - apply orb_false_iff in E as [-> _]. cbn [ret]. rewrite !app_nil_r. reflexivity.
Qed.
Theorem maps_total O F sheets r w : unflatten O sheets = Ok r w ->
  exists mc mh, fancy_unflatten O F sheets = Ok (r, mc, mh) w /\ (f_cells F = true -> exists m, mc = Some m) /\ (f_headings F = true -> exists h, mh = Some h).
Proof.
  unfold unflatten. intros H. apply bind_ok in H as (tree & w1 & w2 & H1 & H2 & ->). injection H2 as <- <-. rewrite app_nil_r.
  destruct (fancy_run O F _ _ _ H1) as (items & _ & m & _ & Hf). rewrite Hf. eexists _, _. split; [reflexivity|].
  split; intros ->; [eauto|]. rewrite orb_true_r. eauto.
Qed.
Lemma fancy_inv O F sheets r mc mh w : fancy_unflatten O F sheets = Ok (r, mc, mh) w ->
  exists tree items, do_unflatten O sheets = Ok tree w /\ r = map dict_to_v tree /\ good_tree tree /\ Permutation items (locs_at (pre F) (tree_cells (JList tree))) /\
    (forall m, mc = Some m -> add_rows (fold_left row_step items []) (cell_entries items) = Ok m []) /\
    (f_headings F = true -> forall h, mh = Some h -> h = fold_left heading_step items []).
Proof.
  intros H. destruct (do_unflatten O sheets) as [tree w1|e w1] eqn:E; [|unfold fancy_unflatten in H; rewrite E in H; discriminate].
  destruct (fancy_run O F _ _ _ E) as (items & Hp & m & Hm & Hf). rewrite Hf in H. injection H as <- <- <- <-.
  exists tree, items. split; [reflexivity|]. split; [reflexivity|]. split; [eapply run_good_tree; exact E|]. split; [exact Hp|]. split.
  - intros m' Q. destruct (f_cells F); [|discriminate]. injection Q as <-. exact Hm.
  - intros Fh h Q. rewrite Fh, orb_true_r in Q. injection Q as <-. reflexivity.
Qed.
Lemma unflatten_of_tree O sheets tree w : do_unflatten O sheets = Ok tree w -> unflatten O sheets = Ok (map dict_to_v tree) w.
Proof. intros H. unfold unflatten. rewrite H. cbn. rewrite app_nil_r. reflexivity. Qed.
Lemma leaf_text_inj F tree p q v v' : good_tree tree -> leaf (map dict_to_v tree) p v -> leaf (map dict_to_v tree) q v' -> place_text F p = place_text F q -> p = q.
Proof.
  intros G Hp Hq H. apply leaf_cell in Hp as (c & Hc & _). apply leaf_cell in Hq as (c' & Hc' & _). rewrite <- !path_str_place in H.
  eapply placed_inj; [| |exact H]; eapply cell_placed; eassumption.
Qed.
Lemma recorded_read O sheets tree w p l c : do_unflatten O sheets = Ok tree w -> node_at (JList tree) p = Some (JCell c) -> In l (cell_locs c) -> read_as O sheets l (c_val c).
Proof.
  intros H Hp Hl. pose proof (run_good_tree _ _ _ _ H) as G. apply in_tree_cells in Hp; [|apply gt_wf; exact G].
  destruct (tree_cells_spot (o_xml O) (o_id_name O) _ _ _ Hp) as (sp & Hsp & _). destruct (out_cells_sourced _ _ _ _ H sp c Hsp) as [(v & Hv1 & Hv2) Hs].
  unfold read_as. destruct Hl as [<-|Hl].
  - exists v, (c_val c). auto.
  - apply in_map_iff in Hl as ([x l'] & <- & Hin). destruct (Hs _ _ Hin) as [He (v' & H1 & H2)]. exists v', x. auto.
Qed.

Theorem cell_map_sound O F sheets r m mh w : fancy_unflatten O F sheets = Ok (r, Some m, mh) w ->
  unflatten O sheets = Ok r w /\ NoDup (map fst m) /\
  (forall p q v v', leaf r p v -> leaf r q v' -> place_text F p = place_text F q -> p = q) /\
  (forall k ls, In (k, ECells ls) m -> exists p v, leaf r p v /\ k = place_text F p) /\
  (forall p v, leaf r p v -> exists ls, In (place_text F p, ECells ls) m /\ ls <> [] /\ forall l, In l ls -> read_as O sheets l v).
Proof.
  intros H. apply fancy_inv in H as (tree & items & H & -> & G & Hp & Hm & _). specialize (Hm m eq_refl).
  destruct (source_maps F tree G items Hp) as [(m' & Hm' & Hnd & Hc & _) _]. rewrite Hm in Hm'. injection Hm' as <-.
  split; [apply unflatten_of_tree; exact H|]. split; [exact Hnd|]. split; [intros; eapply leaf_text_inj; eassumption|]. split.
  - intros k ls Hin. apply Hc in Hin as (p & c & Hp' & -> & ->). exists p, (c_val c). split; [|reflexivity]. apply leaf_cell. exists c. auto.
  - intros p v Hl. apply leaf_cell in Hl as (c & Hc' & <-). exists (cell_locs c). split; [apply Hc; exists p, c; auto|]. split; [discriminate|].
    intros l Hl. eapply recorded_read; eassumption.
Qed.
Theorem cell_map_complete O F sheets r m mh w : fancy_unflatten O F sheets = Ok (r, Some m, mh) w ->
  forall d sp c, In d (fragments O sheets) -> In (sp, c) (icells (o_xml O) (o_id_name O) d) ->
    (exists p v ls, leaf r p v /\ In (place_text F p, ECells ls) m /\ In (c_loc c) ls /\ (v = c_val c \/ cv_eqb v (c_val c) = true)) \/
    (exists x, In x w /\ named_by x sp c).
Proof.
  intros H d sp c Hd Hin. apply fancy_inv in H as (tree & items & H & -> & G & Hp & Hm & _). specialize (Hm m eq_refl).
  destruct (source_maps F tree G items Hp) as [(m' & Hm' & Hnd & Hc & _) _]. rewrite Hm in Hm'. injection Hm' as <-.
  destruct (no_cell_lost _ _ _ _ H sp c) as [(c' & H1 & H2 & H3)|Hw]; [apply in_flat_map; eauto| |right; exact Hw].
  left. unfold out_cells in H1. apply jcells_tree in H1 as (p & H1). apply in_tree_cells in H1; [|apply gt_wf; exact G].
  exists p, (c_val c'), (cell_locs c'). split; [apply leaf_cell; eauto|]. split; [apply Hc; eauto|]. split; [exact H2|exact H3].
Qed.
Theorem row_entries O F sheets r m mh w : fancy_unflatten O F sheets = Ok (r, Some m, mh) w ->
  (forall k rs, In (k, ERows rs) m -> NoDup rs /\ exists q, k = place_text F q /\ (exists f v, leaf r (q ++ [PKey f]) v) /\
     forall s n, In (s, n) rs <-> exists f v ls l, leaf r (q ++ [PKey f]) v /\ In (place_text F (q ++ [PKey f]), ECells ls) m /\ In l ls /\ l_sheet l = s /\ l_row l = n) /\
  (forall q f v, leaf r (q ++ [PKey f]) v -> exists rs, In (place_text F q, ERows rs) m).
Proof.
  intros H. apply fancy_inv in H as (tree & items & H & -> & G & Hp & Hm & _). specialize (Hm m eq_refl).
  destruct (source_maps F tree G items Hp) as [(m' & Hm' & Hnd & Hc & Hr1 & Hr2) _]. rewrite Hm in Hm'. injection Hm' as <-. split.
  - intros k rs Hin. destruct (Hr1 k rs Hin) as (Hn & q & -> & (f & c & Hf) & Hiff). split; [exact Hn|]. exists q. split; [reflexivity|].
    split; [exists f, (c_val c); apply leaf_cell; eauto|]. intros s n. rewrite Hiff. split.
    + intros (f' & l & (c' & Hc' & Hl) & E1 & E2). exists f', (c_val c'), (cell_locs c'), l. split; [apply leaf_cell; eauto|]. split; [apply Hc; eauto|auto].
    + intros (f' & v & ls & l & Hlf & Hin' & Hl & E1 & E2). apply Hc in Hin' as (p & c' & Hp' & Q & ->). apply leaf_cell in Hlf as (c2 & Hc2 & _).
      exists f', l. split; [|auto]. exists c'. split; [|exact Hl]. rewrite <- Hp'. f_equal. rewrite <- !path_str_place in Q.
      eapply placed_inj; [| |exact Q]; eapply cell_placed; eassumption.
  - intros q f v Hl. apply leaf_cell in Hl as (c & Hc' & _). eapply Hr2. exact Hc'.
Qed.
Theorem heading_map_sound O F sheets r mc h w : f_headings F = true -> fancy_unflatten O F sheets = Ok (r, mc, Some h) w ->
  exists tree, do_unflatten O sheets = Ok tree w /\ r = map dict_to_v tree /\ NoDup (map fst h) /\
  (forall k hs, In (k, hs) h -> exists p v, leaf r p v /\ k = field_text F p) /\
  (forall p v, leaf r p v -> exists hs, In (field_text F p, hs) h) /\
  (forall k hs, In (k, hs) h -> once hpair_eqb hs /\
     (forall s x, In (s, x) hs -> exists p l, field_text F p = k /\ recorded tree p l /\ l_sheet l = s /\ l_heading l = x) /\
     (forall p l, field_text F p = k -> recorded tree p l -> exists x, In (l_sheet l, x) hs /\ (x = l_heading l \/ py_eqb (l_heading l) x = true))).
Proof.
  intros Fh H. apply fancy_inv in H as (tree & items & H & -> & G & Hp & _ & Hh). specialize (Hh Fh h eq_refl). subst h.
  destruct (source_maps F tree G items Hp) as [_ (Hnd & H1 & H2)]. exists tree. split; [exact H|]. split; [reflexivity|]. split; [exact Hnd|]. split; [|split].
  - intros k hs Hin. destruct (H1 k hs Hin) as (_ & (p & c & Hc & ->) & _). exists p, (c_val c). split; [apply leaf_cell; eauto|reflexivity].
  - intros p v Hl. apply leaf_cell in Hl as (c & Hc & _). eapply H2. exact Hc.
  - intros k hs Hin. destruct (H1 k hs Hin) as (A & _ & B & C). auto.
Qed.
(** the same locations as in the cell source map *)
Theorem heading_cell_maps O F sheets r m h w : f_headings F = true -> fancy_unflatten O F sheets = Ok (r, Some m, Some h) w ->
  forall k hs, In (k, hs) h ->
     (forall s x, In (s, x) hs -> exists p v ls l, leaf r p v /\ field_text F p = k /\ In (place_text F p, ECells ls) m /\ In l ls /\ l_sheet l = s /\ l_heading l = x) /\
     (forall p v ls l, leaf r p v -> field_text F p = k -> In (place_text F p, ECells ls) m -> In l ls -> exists x, In (l_sheet l, x) hs /\ (x = l_heading l \/ py_eqb (l_heading l) x = true)).
Proof.
  intros Fh H k hs Hin. apply fancy_inv in H as (tree & items & H & -> & G & Hp & Hm & Hh). specialize (Hh Fh h eq_refl). subst h. specialize (Hm m eq_refl).
  destruct (source_maps F tree G items Hp) as [(m' & Hm' & Hnd & Hc & _) (_ & H1 & _)]. rewrite Hm in Hm'. injection Hm' as <-.
  destruct (H1 k hs Hin) as (_ & _ & B & C). split.
  - intros s x Hs. destruct (B s x Hs) as (p & l & E & (c & Hc' & Hl) & E1 & E2). exists p, (c_val c), (cell_locs c), l. split; [apply leaf_cell; eauto|]. split; [exact E|]. split; [apply Hc; eauto|auto].
  - intros p v ls l Hlf E Hin' Hl. apply Hc in Hin' as (q & c & Hq & Q & ->). apply leaf_cell in Hlf as (c2 & Hc2 & _). apply C with (p := p); [exact E|].
    exists c. split; [|exact Hl]. rewrite <- Hq. f_equal. rewrite <- !path_str_place in Q. eapply placed_inj; [| |exact Q]; eapply cell_placed; eassumption.
Qed.
