(** The rows of flattening in terms of places in the data. *)
From Verif.Base Require Import PyStr PyNum PyVal PyDict Outcome.
From Verif.Model Require Import Flatten.
From Verif.Spec Require Import Flat Sites Paths.
From Verif.Proofs Require Import JvInd FlattenTrace FlattenRows FlattenRun FlattenPlain.

Lemma clean_JA l : clean (JA l) <-> Forall clean l.
Proof. induction l as [|x l IH]; simpl in *; [split; constructor|]. rewrite Forall_cons_iff, <- IH. tauto. Qed.
Lemma clean_JO d : clean (JO d) <-> NoDup (map fst d) /\ Forall (fun kx => key_ok (fst kx) /\ clean (snd kx)) d.
Proof.
  simpl. apply and_iff_compat_l. induction d as [|[k x] d IH]; simpl; [split; constructor|]. rewrite Forall_cons_iff, <- IH. simpl. tauto.
Qed.
Lemma pre_app p q : pre (p ++ q) = pre p ++ pre q.
Proof. apply flat_map_app. Qed.

Lemma pre_cons st q : pre (st :: q) = step_text st ++ pre q.
Proof. reflexivity. Qed.
Lemma step_key k : step_text (k, None) = k ++ u "/".
Proof. reflexivity. Qed.
Lemma step_item k i : step_text (k, Some i) = k ++ u "/0/".
Proof. reflexivity. Qed.
Lemma pre_down k ks : pre (down (k :: ks)) = k ++ u "/" ++ pre (down ks).
Proof. change (pre (down (k :: ks))) with (step_text (k, None) ++ pre (down ks)). rewrite step_key, <- app_assoc. reflexivity. Qed.

Lemma NoDup_app_disj {A} (l m : list A) : NoDup l -> NoDup m -> (forall x, In x l -> In x m -> False) -> NoDup (l ++ m).
Proof.
  intros Hl Hm H. induction Hl as [|x l Hx Hl IH]; [exact Hm|]. simpl. constructor.
  - rewrite in_app_iff. intros [Q|Q]; [contradiction|]. exact (H x (or_introl eq_refl) Q).
  - apply IH. intros y H1 H2. exact (H y (or_intror H1) H2).
Qed.

(** ** dict filling *)
Lemma fill_in l : forall row c v, NoDup (map fst l) -> In (c, v) l -> sget c (fill l row) = Some v.
Proof.
  assert (Out : forall l row c, ~ In c (map fst l) -> sget c (fill l row) = sget c row).
  { induction l0 as [|[k x] l0 IH]; intros row c H; [reflexivity|]. cbn [fill fold_left fst snd]. fold (fill l0 (sset k x row)).
    rewrite IH by (intros Q; apply H; right; exact Q). apply sget_sset_neq. intros ->. apply H. left. reflexivity. }
  induction l as [|[k x] l IH]; intros row c v Hn Hin; [destruct Hin|]. inversion Hn as [|? ? Hk Hn']; subst.
  cbn [fill fold_left fst snd]. fold (fill l (sset k x row)). destruct Hin as [E|Hin]; [|apply IH; assumption].
  injection E as -> ->. rewrite Out by exact Hk. apply sget_sset_eq.
Qed.
Lemma fill_out l : forall row c, ~ In c (map fst l) -> sget c (fill l row) = sget c row.
Proof.
  induction l as [|[k x] l IH]; intros row c H; [reflexivity|]. cbn [fill fold_left fst snd]. fold (fill l (sset k x row)).
  rewrite IH by (intros Q; apply H; right; exact Q). apply sget_sset_neq. intros ->. apply H. left. reflexivity.
Qed.
Lemma fill_get l row c v : sget c (fill l row) = Some v -> In (c, v) l \/ sget c row = Some v.
Proof.
  revert row. induction l as [|[k x] l IH]; intros row H; [right; exact H|]. cbn [fill fold_left fst snd] in H. fold (fill l (sset k x row)) in H.
  apply IH in H as [H|H]; [left; right; exact H|]. destruct (str_eqb_spec c k) as [-> |Hn].
  - rewrite sget_sset_eq in H. injection H as ->. left. left. reflexivity.
  - rewrite sget_sset_neq in H by exact Hn. right. exact H.
Qed.

(** ** columns determine places *)
Definition tail_ok (r : str) : Prop := match r with [] => True | c :: _ => c = 47%N end.
Lemma first_seg k1 k2 r1 r2 : key_ok k1 -> key_ok k2 -> tail_ok r1 -> tail_ok r2 -> k1 ++ r1 = k2 ++ r2 -> k1 = k2 /\ r1 = r2.
Proof.
  intros H1 H2 T1 T2. revert k2 H2. induction k1 as [|c k1 IH]; intros [|c2 k2] H2 E; simpl in E.
  - auto.
  - exfalso. subst r1. simpl in T1. subst. apply H2. left. reflexivity.
  - exfalso. subst r2. simpl in T2. subst. apply H1. left. reflexivity.
  - injection E as -> E. destruct (IH (fun Q => H1 (or_intror Q)) k2 (fun Q => H2 (or_intror Q)) E) as [-> ->]. auto.
Qed.

Lemma keeps_app O p q1 q2 : keeps_from O p (q1 ++ q2) = keeps_from O p q1 && keeps_from O (p ++ pre q1) q2.
Proof.
  revert p. induction q1 as [|[k o] q1 IH]; intros p; [cbn [app pre flat_map keeps_from]; rewrite app_nil_r; reflexivity|].
  cbn [app keeps_from]. rewrite IH, andb_assoc, pre_cons, app_assoc. reflexivity.
Qed.
Lemma keeps_all O : po_preserve O = [] -> forall q p, keeps_from O p q = true.
Proof. intros PL. induction q as [|[k o] q IH]; intros p; [reflexivity|]. cbn [keeps_from]. rewrite IH. unfold kept. rewrite PL. reflexivity. Qed.

Section Paths.
  Variable O : popts.
  (** no rolled up cells: below the record itself, or without roll-up *)
  Definition unrolled (p : str) : Prop := p <> [] \/ po_rollup O = [].

  Lemma none_rolled p k l : unrolled p -> match p with [] => rolled O k l | _ => [] end = [].
  Proof. intros [H|H]; destruct p; try reflexivity; [congruence|]. unfold rolled. rewrite H. reflexivity. Qed.
  Lemma unrolled_down p k : unrolled (p ++ k ++ u "/").
  Proof. left. destruct p; [destruct k|]; discriminate. Qed.
  Definition own_cells (p k : str) (x : jv) : list (str * jv) :=
    if kept O p k then match x with JO _ => cells O (p ++ k ++ u "/") x | _ => match leaf_cell O x with Some t => [(p ++ k, t)] | None => [] end end else [].
  Lemma cells_of_cons p k x d : unrolled p -> cells_of O p ((k, x) :: d) = own_cells p k x ++ cells_of O p d.
  Proof.
    intros HU. cbn [cells_of]. f_equal. unfold own_cells. destruct (kept O p k); [|reflexivity]. destruct x as [|l|]; [reflexivity| |reflexivity].
    destruct (leaf_cell O (JA l)); [reflexivity|]. apply none_rolled. exact HU.
  Qed.

  (** ** cells are leaves *)
  Definition leafs (p : str) (d : jobj) (ks : list str) (k : str) (c : jv) : Prop :=
    exists x, at_path (JO d) (down (ks ++ [k])) = Some x /\ leaf_cell O x = Some c /\ keeps_from O p (down (ks ++ [k])) = true.

  Lemma leaf_not_obj x c : leaf_cell O x = Some c -> forall e, x <> JO e.
  Proof. intros H e ->. discriminate H. Qed.

  Lemma cells_in p v : unrolled p -> forall d, v = JO d -> clean v -> forall c x, In (c, x) (cells O p v) <-> exists ks k, leafs p d ks k x /\ c = p ++ pre (down ks) ++ k.
  Proof.
    revert p. induction v as [s|l IH|d IH] using jv_ind'; intros p HU d' E Hc c x; try discriminate. injection E as <-.
    rewrite cells_JO. apply clean_JO in Hc as [Hn Hc].
    assert (G : forall d1, Forall (fun kv => forall (p : str), unrolled p -> forall (d : jobj), snd kv = JO d -> clean (snd kv) -> forall (c : str) (x : jv),
        In (c, x) (cells O p (snd kv)) <-> exists ks k, leafs p d ks k x /\ c = p ++ pre (down ks) ++ k) d1 ->
        Forall (fun kx => key_ok (fst kx) /\ clean (snd kx)) d1 ->
      In (c, x) (cells_of O p d1) <-> exists k y, In (k, y) d1 /\ kept O p k = true /\
        ((exists e ks k', y = JO e /\ leafs (p ++ k ++ u "/") e ks k' x /\ c = (p ++ k ++ u "/") ++ pre (down ks) ++ k') \/ (leaf_cell O y = Some x /\ c = p ++ k))).
    { clear - HU. induction d1 as [|[k y] d1 IH1]; intros HF Hc; [|rewrite (cells_of_cons _ _ _ _ HU)].
      - split; [intros []|intros (k & y & [] & _)].
      - apply Forall_cons_iff in HF as [HF1 HF]. apply Forall_cons_iff in Hc as [[Hk Hy] Hc]. simpl in *. specialize (IH1 HF Hc).
        rewrite in_app_iff, IH1. clear IH1. unfold own_cells. split.
        + intros [H|(k' & y' & Hin & H)]; [|exists k', y'; split; [right; exact Hin|exact H]].
          exists k, y. split; [left; reflexivity|]. destruct (kept O p k); [|destruct H]. split; [reflexivity|]. destruct y as [s|l|e].
          * right. simpl in H. destruct H as [H|[]]. injection H as <- <-. auto.
          * right. destruct (leaf_cell O (JA l)); simpl in H; [|destruct H]. destruct H as [H|[]]. injection H as <- <-. auto.
          * left. apply (HF1 _ (unrolled_down p k) e eq_refl Hy) in H as (ks & k' & HL & E). exists e, ks, k'. auto.
        + intros (k' & y' & [Hin|Hin] & Hkk & H); [|right; exists k', y'; auto]. injection Hin as <- <-. left. rewrite Hkk.
          destruct H as [(e & ks & k' & -> & HL & E)|[HL E]].
          * apply (HF1 _ (unrolled_down p k) e eq_refl Hy). exists ks, k'. auto.
          * destruct y as [s|l|e]; [| |discriminate]; rewrite HL; left; rewrite E; reflexivity. }
    rewrite (G d IH Hc). clear G IH. split.
    - intros (k & y & Hin & Hkk & H). assert (Eg : sget k d = Some y) by (apply In_sget; assumption). destruct H as [(e & ks & k' & -> & (z & Hz & HL & HK) & E)|[HL E]].
      + exists (k :: ks), k'. split.
        * exists z. split; [cbn [down map app at_path]; rewrite Eg; exact Hz|]. split; [exact HL|]. cbn [down map app keeps_from]. rewrite Hkk, step_key. exact HK.
        * rewrite E, pre_down, <- !app_assoc. reflexivity.
      + exists [], k. split; [|exact E]. exists y. split; [cbn [down map app at_path]; rewrite Eg; reflexivity|]. split; [exact HL|]. cbn [down map app keeps_from]. rewrite Hkk. reflexivity.
    - intros (ks & k & (z & Hz & HL & HK) & E). destruct ks as [|k0 ks]; cbn [down map app at_path keeps_from] in Hz, HK; apply andb_true_iff in HK as [HK1 HK].
      + destruct (sget k d) as [y|] eqn:Eg; [|discriminate]. injection Hz as ->. exists k, z. split; [apply sget_In; exact Eg|]. split; [exact HK1|]. right. auto.
      + destruct (sget k0 d) as [y|] eqn:Eg; [|discriminate]. exists k0, y. split; [apply sget_In; exact Eg|]. split; [exact HK1|]. left.
        destruct y as [s|l|e]; [destruct ks; discriminate Hz|destruct ks; discriminate Hz|]. exists e, ks, k. split; [reflexivity|]. split; [exists z; rewrite step_key in HK; auto|].
        rewrite E, pre_down, <- !app_assoc. reflexivity.
  Qed.

  Lemma cells_prefix p v c x : unrolled p -> In (c, x) (cells O p v) -> exists r, c = p ++ r.
  Proof.
    revert p. induction v as [s|l IH|d IH] using jv_ind'; intros p HU; try (intros []). rewrite cells_JO.
    induction IH as [|[k y] d Hy _ IHd]; [intros []|rewrite (cells_of_cons _ _ _ _ HU)]. intros H. apply in_app_or in H as [H|H]; [|apply IHd; exact H].
    unfold own_cells in H. destruct (kept O p k); [|destruct H].
    assert (G : In (c, x) (match leaf_cell O y with Some t => [(p ++ k, t)] | None => [] end) -> exists r, c = p ++ r).
    { destruct (leaf_cell O y); [|intros []]. intros [E|[]]. injection E as <- _. exists k. reflexivity. }
    destruct y as [s|l|e]; try exact (G H). apply (Hy _ (unrolled_down p k)) in H as (r & ->). exists (k ++ u "/" ++ r). rewrite !app_assoc. reflexivity.
  Qed.
  Lemma cells_nodup p v : unrolled p -> clean v -> NoDup (map fst (cells O p v)).
  Proof.
    revert p. induction v as [s|l IH|d IH] using jv_ind'; intros p HU Hc; try constructor. rewrite cells_JO. apply clean_JO in Hc as [Hn Hc].
    assert (Pc : forall k y c, key_ok k -> In c (map fst (own_cells p k y)) ->
      exists r, tail_ok r /\ c = p ++ k ++ r).
    { intros k y c Hk H. unfold own_cells in H. destruct (kept O p k); [|destruct H].
      assert (G : In c (map fst (match leaf_cell O y with Some t => [(p ++ k, t)] | None => [] end)) -> exists r, tail_ok r /\ c = p ++ k ++ r).
      { destruct (leaf_cell O y); [|intros []]. intros [<-|[]]. exists []. split; [exact I|]. rewrite app_nil_r. reflexivity. }
      destruct y as [s|l|e]; try exact (G H). apply in_map_iff in H as ([c' x] & <- & H). apply (cells_prefix _ _ _ _ (unrolled_down p k)) in H as (r & ->).
      exists (u "/" ++ r). split; [reflexivity|]. simpl fst. rewrite !app_assoc. reflexivity. }
    induction IH as [|[k y] d Hy _ IHd]; [constructor|rewrite (cells_of_cons _ _ _ _ HU)].
    simpl in Hn. inversion Hn as [|? ? Hk Hn']; subst. apply Forall_cons_iff in Hc as [[Hk1 Hc1] Hc]. simpl in *. rewrite map_app.
    assert (A : NoDup (map fst (own_cells p k y))).
    { unfold own_cells. destruct (kept O p k); [|constructor].
      assert (G : NoDup (map fst (match leaf_cell O y with Some t => [(p ++ k, t)] | None => [] end))) by (destruct (leaf_cell O y); simpl; [constructor; [intros []|constructor]|constructor]).
      destruct y as [s|l|e]; try exact G. apply Hy; [apply unrolled_down|exact Hc1]. }
    assert (B : NoDup (map fst (cells_of O p d))) by (apply IHd; assumption).
    assert (C : forall c, In c (map fst (cells_of O p d)) -> exists k' r, In k' (map fst d) /\ key_ok k' /\ tail_ok r /\ c = p ++ k' ++ r).
    { clear - HU Pc Hc. induction d as [|[k' y'] d IHd]; [intros c []|rewrite (cells_of_cons _ _ _ _ HU)]. apply Forall_cons_iff in Hc as [[Hk' _] Hc]. intros c H. rewrite map_app in H.
      apply in_app_or in H as [H|H].
      - apply Pc in H as (r & Hr & ->); [|exact Hk']. exists k', r. simpl. auto.
      - destruct (IHd Hc c H) as (k2 & r & Hin & Q). exists k2, r. simpl. tauto. }
    apply NoDup_app_disj; [exact A|exact B|]. intros c HA HB. apply (Pc k y c Hk1) in HA as (r & Hr & ->).
    apply C in HB as (k' & r' & Hin & Hk' & Hr' & E). apply app_inv_head in E. destruct (first_seg _ _ _ _ Hk1 Hk' Hr Hr' E) as [<- _]. contradiction.
  Qed.

  (** ** items have sites *)
  Fixpoint chain (p : str) (v : jv) (q : jpath) : list (str * jobj) :=
    match v with
    | JO d => (p, d) :: match q with
                        | [] => []
                        | (k, o) :: q' =>
                          match at_path v [(k, o)] with Some x => chain (p ++ step_text (k, o)) x q' | None => [] end
                        end
    | _ => []
    end.
  Definition scopes (l : list (str * jobj)) (ids : list (str * jv)) : list (str * jv) :=
    fold_left (fun ids pd => scope O (fst pd) (snd pd) ids) l ids.
  Definition item_site (p : str) (ids : list (str * jv)) (v : jv) (q : jpath) (k : str) (i : nat) (e : jobj) : site :=
    {| si_sheet := Some (sub_sheet_name O (p ++ pre q) k); si_prefix := p ++ pre (q ++ [(k, Some i)]);
       si_ids := scopes (chain p v q) ids; si_obj := e |}.

  Lemma items_not_leaf l i e : nth_error l i = Some (JO e) -> leaf_cell O (JA l) = None.
  Proof.
    intros H. apply nth_error_In in H. unfold leaf_cell.
    assert (A : forall f, f (JO e) = false -> forallb f l = false).
    { intros f Hf. destruct (forallb f l) eqn:E; [|reflexivity]. rewrite forallb_forall in E. rewrite (E _ H) in Hf. discriminate. }
    rewrite (A jbasic eq_refl), (A inner_array eq_refl). reflexivity.
  Qed.
  Lemma item_sites_from p k ids l s : In s (item_sites O p k ids l) -> exists i e, nth_error l i = Some (JO e) /\
    (In s (inner_sites O (p ++ k ++ u "/0/") ids (JO e)) \/ s = {| si_sheet := Some (sub_sheet_name O p k); si_prefix := p ++ k ++ u "/0/"; si_ids := ids; si_obj := e |}).
  Proof.
    induction l as [|y l IH]; cbn [item_sites]; [intros []|]. intros H. apply in_app_or in H as [H|H].
    - destruct y as [| |e]; try destruct H. exists 0%nat, e. split; [reflexivity|]. apply in_app_or in H as [H|[<-|[]]]; [left; exact H|right; reflexivity].
    - destruct (IH H) as (i & e & Hi & Q). exists (Datatypes.S i), e. auto.
  Qed.
  Definition piece (p : str) (ids : list (str * jv)) (k : str) (x : jv) : list site :=
    match x with
    | JS _ => []
    | JO _ => inner_sites O (p ++ k ++ u "/") ids x
    | JA l => match leaf_cell O x with Some _ => [] | None => item_sites O p k ids l end
    end.
  Lemma sites_of_from p ids d s : In s (sites_of O p ids d) -> exists k x, In (k, x) d /\ In s (piece p ids k x).
  Proof.
    induction d as [|[k x] d IH]; cbn [sites_of]; [intros []|]. intros H. apply in_app_or in H as [H|H].
    - destruct (kept O p k); [|destruct H]. exists k, x. split; [left; reflexivity|exact H].
    - destruct (IH H) as (k' & x' & Hin & H'). exists k', x'. split; [right; exact Hin|exact H'].
  Qed.
  Lemma at_path_app v q1 q2 : at_path v (q1 ++ q2) = match at_path v q1 with Some x => at_path x q2 | None => None end.
  Proof.
    revert v. induction q1 as [|[k o] q1 IH]; intros v; [reflexivity|]. cbn [app at_path]. destruct v as [| |d]; try reflexivity.
    destruct o as [i|]; destruct (sget k d) as [x|]; try reflexivity; [|apply IH]. destruct x as [|l|]; try reflexivity.
    destruct (nth_error l i); [apply IH|reflexivity].
  Qed.
  (** ** ids *)
  Lemma chain_app p v q1 q2 d : at_path v q1 = Some (JO d) -> chain p v (q1 ++ q2) =
    firstn (length q1) (chain p v q1) ++ chain (p ++ pre q1) (JO d) q2.
  Proof.
    revert p v. induction q1 as [|[k o] q1 IH]; intros p v H.
    - simpl in H. injection H as ->. cbn [app length firstn pre flat_map]. rewrite app_nil_r. reflexivity.
    - change ((k, o) :: q1) with ([(k, o)] ++ q1) in H. rewrite at_path_app in H. destruct (at_path v [(k, o)]) as [x|] eqn:Ex; [|discriminate].
      destruct v as [| |d0]; try discriminate. cbn [app chain]. rewrite Ex. cbn [length firstn app]. rewrite (IH _ _ H). rewrite pre_cons, app_assoc. reflexivity.
  Qed.
  (** the members of the chain are the objects on the way *)
  Lemma chain_In p v q p1 d1 x : at_path v q = Some x -> In (p1, d1) (chain p v q) ->
    exists q1 q2, q = q1 ++ q2 /\ at_path v q1 = Some (JO d1) /\ p1 = p ++ pre q1.
  Proof.
    revert p v. induction q as [|[k o] q IH]; intros p v Hx H.
    - destruct v as [| |d]; simpl in H; try contradiction. destruct H as [E|[]]. injection E as <- <-. exists [], []. simpl. rewrite app_nil_r. auto.
    - destruct v as [| |d]; try destruct H. 
      + injection H as <- <-. exists [], ((k, o) :: q). simpl. rewrite app_nil_r. auto.
      + change ((k, o) :: q) with ([(k, o)] ++ q) in Hx. rewrite at_path_app in Hx. destruct (at_path (JO d) [(k, o)]) as [y|] eqn:Ey; [|discriminate].
        apply IH in H as (q1 & q2 & -> & H1 & ->); [|exact Hx]. exists ((k, o) :: q1), q2. split; [reflexivity|]. split.
        * change ((k, o) :: q1) with ([(k, o)] ++ q1). rewrite at_path_app, Ey. exact H1.
        * rewrite pre_cons, app_assoc. reflexivity.
  Qed.
  Lemma In_chain p v q1 q2 d1 : at_path v q1 = Some (JO d1) -> In (p ++ pre q1, d1) (chain p v (q1 ++ q2)).
  Proof.
    intros H. rewrite (chain_app _ _ _ _ _ H). apply in_or_app. right. destruct q2; left; reflexivity.
  Qed.

  (** column segments *)
  Definition segs (q : jpath) : list str := flat_map (fun st : jstep => fst st :: match snd st with Some _ => [u "0"] | None => [] end) q.
  Lemma pre_segs q k : pre q ++ k = join (u "/") (segs q ++ [k]).
  Proof.
    induction q as [|[k0 o] q IH]; [reflexivity|]. rewrite pre_cons. cbn [segs flat_map fst snd]. fold (segs q).
    destruct o; [rewrite step_item|rewrite step_key]; cbn [app]; rewrite <- !app_assoc, IH.
    - destruct (segs q ++ [k]) eqn:E; [destruct (segs q); discriminate|]. rewrite !join_cons. reflexivity.
    - destruct (segs q ++ [k]) eqn:E; [destruct (segs q); discriminate|]. rewrite join_cons. reflexivity.
  Qed.
  Definition path_ok (q : jpath) : Prop := Forall (fun st => key_ok (fst st)) q.
  Lemma segs_ok q : path_ok q -> Forall key_ok (segs q).
  Proof.
    induction 1 as [|[k o] q Hk _ IH]; [constructor|]. cbn [segs flat_map fst snd]. fold (segs q). constructor; [exact Hk|].
    destruct o; [|exact IH]. constructor; [|exact IH]. intros [E|[]]. discriminate E.
  Qed.
  Lemma pre_inj q1 k1 q2 k2 : path_ok q1 -> path_ok q2 -> key_ok k1 -> key_ok k2 -> pre q1 ++ k1 = pre q2 ++ k2 -> segs q1 = segs q2 /\ k1 = k2.
  Proof.
    intros H1 H2 K1 K2 E. rewrite !pre_segs in E.
    assert (F : forall q k, path_ok q -> key_ok k -> split_on 47%N (join (u "/") (segs q ++ [k])) = segs q ++ [k]).
    { intros q k Hq Hk. apply (split_join 47%N); [destruct (segs q); discriminate|]. intros x Hx. apply in_app_or in Hx as [Hx|[<-|[]]]; [|exact Hk].
      pose proof (segs_ok q Hq) as Q. rewrite Forall_forall in Q. exact (Q x Hx). }
    apply (f_equal (split_on 47%N)) in E. rewrite !F in E by assumption. apply app_inj_tail in E. exact E.
  Qed.
  Lemma segs_app q1 q2 : segs (q1 ++ q2) = segs q1 ++ segs q2.
  Proof. apply flat_map_app. Qed.
  Lemma segs_length q : (length q <= length (segs q))%nat.
  Proof. induction q as [|[k o] q IH]; [simpl; lia|]. cbn [segs flat_map fst snd]. fold (segs q). simpl. rewrite app_length. lia. Qed.
  Lemma at_path_ok v q x : clean v -> at_path v q = Some x -> path_ok q /\ clean x.
  Proof.
    revert v. induction q as [|[k o] q IH]; intros v Hc H; [simpl in H; injection H as ->; split; [constructor|exact Hc]|].
    cbn [at_path] in H. destruct v as [| |d]; try discriminate. apply clean_JO in Hc as [_ Hc]. rewrite Forall_forall in Hc.
    destruct o as [i|].
    - destruct (sget k d) as [[|l|]|] eqn:Ek; try discriminate. apply sget_In in Ek. destruct (Hc _ Ek) as [Hk Hl]. simpl in Hk, Hl.
      destruct (nth_error l i) as [y|] eqn:Ei; [|discriminate]. apply clean_JA in Hl. rewrite Forall_forall in Hl. apply nth_error_In in Ei.
      destruct (IH y (Hl _ Ei) H) as [A B]. split; [constructor; assumption|exact B].
    - destruct (sget k d) as [y|] eqn:Ek; try discriminate. apply sget_In in Ek. destruct (Hc _ Ek) as [Hk Hl].
      destruct (IH y Hl H) as [A B]. split; [constructor; assumption|exact B].
  Qed.

  Hypothesis KI : key_ok (po_id_name O).
  Hypothesis KR : key_ok (po_root_id O).

  Lemma scope_other c p d ids : c <> p ++ po_id_name O -> c <> po_root_id O -> sget c (scope O p d ids) = sget c ids.
  Proof.
    intros H1 H2. unfold scope. set (ids1 := match po_root_id O with [] => _ | _ :: _ => _ end).
    assert (E : sget c ids1 = sget c ids).
    { unfold ids1. destruct (po_root_id O) as [|a rid]; [reflexivity|]. destruct (sget (a :: rid) d); [|reflexivity]. apply sget_sset_neq. exact H2. }
    destruct (sget (po_id_name O) d); [|exact E]. rewrite sget_sset_neq by exact H1. exact E.
  Qed.
  Lemma scope_id p d ids x : sget (po_id_name O) d = Some x -> sget (p ++ po_id_name O) (scope O p d ids) = Some x.
  Proof. intros H. unfold scope. rewrite H. apply sget_sset_eq. Qed.
  Lemma scope_keeps_root p d ids x : (po_root_id O <> [] -> sget (po_root_id O) d = None) -> p ++ po_id_name O <> po_root_id O ->
    sget (po_root_id O) ids = Some x -> sget (po_root_id O) (scope O p d ids) = Some x.
  Proof.
    intros H1 H2 H. unfold scope. set (ids1 := match po_root_id O with [] => _ | _ :: _ => _ end).
    assert (E : ids1 = ids) by (unfold ids1; destruct (po_root_id O) as [|a rid]; [reflexivity|]; rewrite H1 by discriminate; reflexivity).
    rewrite E. destruct (sget (po_id_name O) d); [|exact H]. rewrite sget_sset_neq; [exact H|]. intros Q. apply H2. symmetry. exact Q.
  Qed.
  Lemma scope_root p d ids x : po_root_id O <> [] -> sget (po_root_id O) d = Some x -> (p ++ po_id_name O = po_root_id O -> po_id_name O = po_root_id O) ->
    sget (po_root_id O) (scope O p d ids) = Some x.
  Proof.
    intros Hr H HI. unfold scope. set (ids1 := match po_root_id O with [] => _ | _ :: _ => _ end).
    assert (E : sget (po_root_id O) ids1 = Some x) by (unfold ids1; destruct (po_root_id O) as [|a rid]; [congruence|]; rewrite H; apply sget_sset_eq).
    destruct (sget (po_id_name O) d) as [y|] eqn:Ed; [|exact E]. destruct (str_eqb_spec (po_root_id O) (p ++ po_id_name O)) as [Q|Q].
    - rewrite Q, sget_sset_eq. rewrite (HI (eq_sym Q)) in Ed. congruence.
    - rewrite sget_sset_neq by exact Q. exact E.
  Qed.
  Lemma scope_sound p d ids c x : sget c (scope O p d ids) = Some x ->
    sget c ids = Some x \/ (c = p ++ po_id_name O /\ sget (po_id_name O) d = Some x) \/ (po_root_id O <> [] /\ c = po_root_id O /\ sget (po_root_id O) d = Some x).
  Proof.
    unfold scope. set (ids1 := match po_root_id O with [] => _ | _ :: _ => _ end). intros H.
    assert (E : sget c ids1 = Some x -> sget c ids = Some x \/ (c = p ++ po_id_name O /\ sget (po_id_name O) d = Some x) \/ (po_root_id O <> [] /\ c = po_root_id O /\ sget (po_root_id O) d = Some x)).
    { unfold ids1. destruct (po_root_id O) as [|a rid]; [auto|]. destruct (sget (a :: rid) d) as [y|] eqn:E; [|auto].
      destruct (str_eqb_spec c (a :: rid)) as [-> |Q]; [rewrite sget_sset_eq; intros [= ->]; right; right; split; [discriminate|auto]|rewrite sget_sset_neq by exact Q; auto]. }
    destruct (sget (po_id_name O) d) as [y|] eqn:Ed; [|apply E; exact H].
    destruct (str_eqb_spec c (p ++ po_id_name O)) as [-> |Q]; [rewrite sget_sset_eq in H; injection H as ->; right; left; auto|].
    rewrite sget_sset_neq in H by exact Q. apply E. exact H.
  Qed.
  Lemma scopes_sound l : forall ids c x, sget c (scopes l ids) = Some x ->
    sget c ids = Some x \/ exists p d, In (p, d) l /\ ((c = p ++ po_id_name O /\ sget (po_id_name O) d = Some x) \/ (po_root_id O <> [] /\ c = po_root_id O /\ sget (po_root_id O) d = Some x)).
  Proof.
    induction l as [|[p d] l IH]; intros ids c x H; [left; exact H|]. cbn [scopes fold_left fst snd] in H.
    apply IH in H as [H|(p1 & d1 & Hin & H)]; [|right; exists p1, d1; split; [right; exact Hin|exact H]].
    apply scope_sound in H as [H|H]; [left; exact H|right; exists p, d; split; [left; reflexivity|exact H]].
  Qed.
  Lemma scopes_nodup l : forall ids, NoDup (map fst ids) -> NoDup (map fst (scopes l ids)).
  Proof.
    induction l as [|[p d] l IH]; intros ids H; [exact H|]. cbn [scopes fold_left fst snd]. apply IH. unfold scope.
    set (ids1 := match po_root_id O with [] => _ | _ :: _ => _ end).
    assert (E : NoDup (map fst ids1)) by (unfold ids1; destruct (po_root_id O) as [|a rid]; [exact H|]; destruct (sget (a :: rid) d); [apply sset_NoDup|]; exact H).
    destruct (sget (po_id_name O) d); [apply sset_NoDup|]; exact E.
  Qed.

  (** the id of an object on the way is in the scope *)
  Lemma scopes_id v q1 q2 d1 xx x : clean v -> at_path v (q1 ++ q2) = Some x -> at_path v q1 = Some (JO d1) -> sget (po_id_name O) d1 = Some xx ->
    (pre q1 ++ po_id_name O = po_root_id O -> (forall q3 q4 d2, q2 = q3 ++ q4 -> q3 <> [] -> at_path v (q1 ++ q3) = Some (JO d2) -> po_root_id O <> [] -> sget (po_root_id O) d2 = None)) ->
    sget (pre q1 ++ po_id_name O) (scopes (chain [] v (q1 ++ q2)) []) = Some xx.
  Proof.
    intros Hc Hx H1 Hid Hroot. rewrite (chain_app _ _ _ _ _ H1). unfold scopes. rewrite fold_left_app. cbn [app].
    generalize (fold_left (fun ids pd => scope O (fst pd) (snd pd) ids) (firstn (length q1) (chain [] v q1)) []) as ids. intros ids.
    assert (G : forall l ids, (forall p d, In (p, d) l -> p ++ po_id_name O <> pre q1 ++ po_id_name O) ->
      (pre q1 ++ po_id_name O = po_root_id O -> forall p d, In (p, d) l -> po_root_id O <> [] -> sget (po_root_id O) d = None) ->
      sget (pre q1 ++ po_id_name O) ids = Some xx -> sget (pre q1 ++ po_id_name O) (fold_left (fun ids pd => scope O (fst pd) (snd pd) ids) l ids) = Some xx).
    { clear - KI KR. induction l as [|[p d] l IH]; intros ids A B H; [exact H|]. cbn [fold_left fst snd]. apply IH; [intros p' d' Hin; apply (A p' d'); right; exact Hin|intros E p' d' Hin; apply (B E p' d'); right; exact Hin|].
      destruct (str_eqb_spec (pre q1 ++ po_id_name O) (po_root_id O)) as [E|E].
      - rewrite E in *. apply scope_keeps_root; [apply (B eq_refl p d); left; reflexivity|apply (A p d); left; reflexivity|exact H].
      - rewrite scope_other; [exact H| |exact E]. intros Q. apply (A p d); [left; reflexivity|symmetry; exact Q]. }
    destruct (at_path_ok v (q1 ++ q2) x Hc Hx) as [Pq _]. apply Forall_app in Pq as [Pq1 Pq2].
    rewrite at_path_app, H1 in Hx.
    destruct q2 as [|[k o] q2]; cbn [chain fold_left fst snd]; [apply scope_id; exact Hid|].
    destruct (at_path (JO d1) [(k, o)]) as [y|] eqn:Ey; [|cbn [fold_left]; apply scope_id; exact Hid].
    change ((k, o) :: q2) with ([(k, o)] ++ q2) in Hx. rewrite at_path_app, Ey in Hx.
    assert (CI : forall p d, In (p, d) (chain (pre q1 ++ step_text (k, o)) y q2) -> exists q3 q4, q2 = q3 ++ q4 /\ at_path v (q1 ++ (k, o) :: q3) = Some (JO d) /\ p = pre (q1 ++ (k, o) :: q3)).
    { intros p d Hin. apply (chain_In _ _ _ _ _ x) in Hin as (q3 & q4 & -> & Hd & ->); [|exact Hx]. exists q3, q4. split; [reflexivity|]. split.
      - rewrite at_path_app, H1. change ((k, o) :: q3) with ([(k, o)] ++ q3). rewrite at_path_app, Ey. exact Hd.
      - rewrite pre_app, pre_cons, !app_assoc. reflexivity. }
    apply G.
    - intros p d Hin. apply CI in Hin as (q3 & q4 & -> & Hd & ->). intros E.
      apply pre_inj in E as [E _]; [|apply Forall_app; split; [exact Pq1|]; rewrite app_comm_cons in Pq2; apply Forall_app in Pq2; exact (proj1 Pq2)|exact Pq1|exact KI|exact KI].
      rewrite segs_app in E. rewrite <- (app_nil_r (segs q1)) in E at 2. apply app_inv_head in E. discriminate E.
    - intros E p d Hin. apply CI in Hin as (q3 & q4 & -> & Hd & ->). apply (Hroot E ((k, o) :: q3) q4 d); [reflexivity|discriminate|exact Hd].
    - apply scope_id. exact Hid.
  Qed.

  (** the root id survives *)
  Lemma scopes_root v q d x y : clean v -> root_id_once O v -> v = JO d -> at_path v q = Some y -> po_root_id O <> [] -> sget (po_root_id O) d = Some x ->
    sget (po_root_id O) (scopes (chain [] v q) []) = Some x.
  Proof.
    intros Hc Hr -> Hy Hne Hx.
    assert (S0 : sget (po_root_id O) (scope O [] d []) = Some x) by (apply scope_root; [exact Hne|exact Hx|intros Q; exact Q]).
    destruct q as [|[k o] q]; cbn [chain scopes fold_left fst snd]; [exact S0|].
    change ((k, o) :: q) with ([(k, o)] ++ q) in Hy. rewrite at_path_app in Hy.
    destruct (at_path (JO d) [(k, o)]) as [z|] eqn:Ez; [|exact S0]. cbn [app].
    assert (CI : forall p d1, In (p, d1) (chain (step_text (k, o)) z q) -> exists q3 q4, q = q3 ++ q4 /\ at_path (JO d) ((k, o) :: q3) = Some (JO d1) /\ p = pre ((k, o) :: q3)).
    { intros p d1 Hin. apply (chain_In _ _ _ _ _ y) in Hin as (q3 & q4 & -> & Hd & ->); [|exact Hy]. exists q3, q4. split; [reflexivity|]. split; [|reflexivity].
      change ((k, o) :: q3) with ([(k, o)] ++ q3). rewrite at_path_app, Ez. exact Hd. }
    revert CI S0. generalize (chain (step_text (k, o)) z q) as l, (scope O [] d []) as ids. induction l as [|[p d1] l IH]; intros ids CI S0; [exact S0|].
    cbn [fold_left fst snd]. apply IH; [intros p' d' Hin; apply CI; right; exact Hin|].
    destruct (CI p d1 (or_introl eq_refl)) as (q3 & q4 & E & Hd & ->). apply scope_keeps_root; [|intros Q|exact S0].
    - refine (Hr ((k, o) :: q3) d1 _ Hd). discriminate.
    - change (po_root_id O) with (pre [] ++ po_root_id O) in Q. apply pre_inj in Q as [Q _]; [discriminate Q| |constructor|exact KI|exact KR].
      exact (proj1 (at_path_ok _ _ _ Hc Hd)).
  Qed.

  (** ** the row of an item *)
  Section Item.
    Variables (v : jv) (q : jpath) (k : str) (i : nat) (e : jobj).
    Hypothesis Hc : clean v.
    Hypothesis He : at_path v (q ++ [(k, Some i)]) = Some (JO e).
    Notation Q := (q ++ [(k, Some i)]).
    Notation ids := (scopes (chain [] v q) []).
    Notation row := (fill (cells O (pre Q) (JO e)) (fill ids [])).

    Lemma item_clean : clean (JO e).
    Proof. exact (proj2 (at_path_ok _ _ _ Hc He)). Qed.
    Lemma item_path_ok : path_ok Q.
    Proof. exact (proj1 (at_path_ok _ _ _ Hc He)). Qed.
    Lemma down_ok ks kk x : at_path (JO e) (down (ks ++ [kk])) = Some x -> path_ok (down ks) /\ key_ok kk.
    Proof.
      intros H. destruct (at_path_ok _ _ _ item_clean H) as [P _]. unfold down in P. rewrite map_app in P. apply Forall_app in P as [P1 P2]. split; [exact P1|].
      apply Forall_cons_iff in P2. exact (proj1 P2).
    Qed.
    Lemma item_unrolled : unrolled (pre Q).
    Proof. left. rewrite pre_app. destruct (pre q); [destruct k|]; discriminate. Qed.
    Hypothesis HkQ : keeps O Q = true.
    Lemma item_keeps ks kk : keeps O (Q ++ down (ks ++ [kk])) = keeps_from O (pre Q) (down (ks ++ [kk])).
    Proof. unfold keeps in *. rewrite keeps_app, HkQ. reflexivity. Qed.
    Lemma item_leaves : shows_leaves (leaf_cell O) (keeps O) Q e row.
    Proof.
      intros ks kk x c Hx HL HK. apply fill_in; [apply cells_nodup; [exact item_unrolled|exact item_clean]|].
      apply (cells_in (pre Q) (JO e) item_unrolled e eq_refl item_clean).
      exists ks, kk. rewrite item_keeps in HK. split; [exists x; auto|reflexivity].
    Qed.
    Lemma cell_columns c x : In (c, x) (cells O (pre Q) (JO e)) -> exists q2 kk, path_ok q2 /\ key_ok kk /\ c = pre (Q ++ q2) ++ kk.
    Proof.
      intros H. apply (cells_in (pre Q) (JO e) item_unrolled e eq_refl item_clean) in H as (ks & kk & (y & Hy & _) & ->). destruct (down_ok _ _ _ Hy) as [A B].
      exists (down ks), kk. split; [exact A|]. split; [exact B|]. rewrite (pre_app Q), app_assoc. reflexivity.
    Qed.
    (** an id column of an object around is none of the columns of the item *)
    Lemma id_not_cell q1 q2 kk : Q = q1 ++ q2 -> q2 <> [] -> key_ok kk -> ~ In (pre q1 ++ kk) (map fst (cells O (pre Q) (JO e))).
    Proof.
      intros E Hne Hk Hin. apply in_map_iff in Hin as ([c x] & Ec & Hin). simpl in Ec. subst c. apply cell_columns in Hin as (q3 & k3 & P3 & K3 & E3).
      pose proof item_path_ok as PQ. assert (P1 : path_ok q1) by (rewrite E in PQ; apply Forall_app in PQ; exact (proj1 PQ)).
      apply pre_inj in E3 as [E3 _]; [|exact P1|apply Forall_app; split; assumption|exact Hk|exact K3].
      rewrite E, !segs_app, <- app_assoc in E3. rewrite <- (app_nil_r (segs q1)) in E3 at 1. apply app_inv_head in E3.
      destruct q2 as [|[? ?] ?]; [congruence|discriminate E3].
    Qed.
    Lemma ids_get c x : sget c ids = Some x -> sget c (fill ids []) = Some x.
    Proof. intros H. apply fill_in; [apply scopes_nodup; constructor|apply sget_In; exact H]. Qed.
    Lemma q_exists : exists y, at_path v q = Some y.
    Proof. rewrite at_path_app in He. destruct (at_path v q) as [y|]; [exists y; reflexivity|discriminate]. Qed.
    (** splits of the path of the item *)
    Lemma split_last q1 q2 : Q = q1 ++ q2 -> q2 <> [] -> exists q3, q = q1 ++ q3.
    Proof.
      intros E Hne. destruct (exists_last Hne) as (q3 & z & ->). rewrite app_assoc in E. apply app_inj_tail in E as [E _]. exists q3. exact E.
    Qed.
    Lemma item_ids : root_id_once O v -> shows_ids O v Q row.
    Proof.
      intros Hr q1 q2 d x E Hne Hd Hid. destruct (split_last _ _ E Hne) as (q3 & Eq).
      rewrite fill_out by (eapply id_not_cell; eassumption). apply ids_get. destruct q_exists as (y & Hy). rewrite Eq in *.
      eapply scopes_id; [exact Hc|exact Hy|exact Hd|exact Hid|]. intros _ q4 q5 d2 _ H4 Hd2. apply (Hr (q1 ++ q4) d2); [|exact Hd2]. destruct q1; [exact H4|discriminate].
    Qed.
    Lemma item_root : root_id_once O v -> shows_root O v row.
    Proof.
      intros Hr d x Ev Hne Hx. destruct q_exists as (y & Hy).
      rewrite fill_out by (change (po_root_id O) with (pre [] ++ po_root_id O); apply (id_not_cell [] Q); [reflexivity|destruct q; discriminate|exact KR]).
      apply ids_get. eapply scopes_root; [exact Hc|exact Hr|exact Ev|exact Hy|exact Hne|exact Hx].
    Qed.
    Lemma item_only : shows_only O (leaf_cell O) (keeps O) v Q e row.
    Proof.
      intros c x H. apply fill_get in H as [H|H].
      - left. apply (cells_in (pre Q) (JO e) item_unrolled e eq_refl item_clean) in H as (ks & kk & (y & Hy & HL & HK) & ->). exists ks, kk, y. rewrite item_keeps. auto.
      - right. apply fill_get in H as [H|H]; [|discriminate H]. apply In_sget in H; [|apply scopes_nodup; constructor].
        apply scopes_sound in H as [H|(p & d & Hin & H)]; [discriminate H|]. destruct q_exists as (y & Hy).
        apply (chain_In _ _ _ _ _ y Hy) in Hin as (q1 & q2 & -> & Hd & ->). exists q1, (q2 ++ [(k, Some i)]), d.
        split; [rewrite app_assoc; reflexivity|]. split; [destruct q2; discriminate|]. split; [exact Hd|exact H].
    Qed.
  End Item.

  (** ** main rows *)
  Lemma main_leaves d : po_rollup O = [] -> clean (JO d) -> shows_leaves (leaf_cell O) (keeps O) [] d (fill (cells O [] (JO d)) []).
  Proof.
    intros RL Hc ks kk x c Hx HL HK. apply fill_in; [apply cells_nodup; [right; exact RL|exact Hc]|]. apply (cells_in [] (JO d) (or_intror RL) d eq_refl Hc).
    exists ks, kk. split; [exists x; auto|reflexivity].
  Qed.
  Lemma main_only d : po_rollup O = [] -> clean (JO d) -> shows_only O (leaf_cell O) (keeps O) (JO d) [] d (fill (cells O [] (JO d)) []).
  Proof.
    intros RL Hc c x H. left. apply fill_get in H as [H|H]; [|discriminate H].
    apply (cells_in [] (JO d) (or_intror RL) d eq_refl Hc) in H as (ks & kk & (y & Hy & HL & HK) & ->). exists ks, kk, y. auto.
  Qed.

  Definition objects (l : list jv) : list jobj := flat_map (fun v => match v with JO d => [d] | _ => [] end) l.
  Definition main_site (d : jobj) : site := {| si_sheet := None; si_prefix := []; si_ids := []; si_obj := d |}.
  Lemma inner_sub v : forall p ids s, In s (inner_sites O p ids v) -> si_sheet s <> None.
  Proof.
    clear KI KR.
    assert (G : forall v, (forall p ids s, In s (inner_sites O p ids v) -> si_sheet s <> None) /\
      (forall l, v = JA l -> Forall (fun v => forall p ids s, In s (inner_sites O p ids v) -> si_sheet s <> None) l)).
    { clear v. induction v as [sc|l IH|d IH] using jv_ind'.
      - split; [intros p ids s []|discriminate].
      - split; [intros p ids s []|]. intros l' [= <-]. eapply Forall_impl; [|exact IH]. intros v [H _]. exact H.
      - split; [|discriminate]. intros p ids s. rewrite sites_JO. intros H0. apply sites_of_from in H0 as (k & x & Hin & Hs).
        rewrite Forall_forall in IH. destruct (IH _ Hin) as [IH1 IH2]. simpl in IH1, IH2. destruct x as [sc|l|e0]; [destruct Hs| |eapply IH1; exact Hs].
        unfold piece in Hs. destruct (leaf_cell O (JA l)); [destruct Hs|]. apply item_sites_from in Hs as (i & e0 & Hi & [Hs| ->]); [|discriminate].
        specialize (IH2 l eq_refl). rewrite Forall_forall in IH2. eapply (IH2 (JO e0)); [eapply nth_error_In; exact Hi|exact Hs]. }
    exact (proj1 (G v)).
  Qed.
  Lemma sites_main l : on_sheet None (sites O l) = map main_site (objects l).
  Proof.
    clear KI KR.
    induction l as [|v l IH]; [reflexivity|]. change (sites O (v :: l)) with (record_sites O v ++ sites O l). unfold on_sheet in *. rewrite filter_app, IH.
    destruct v as [| |d]; try reflexivity. change (objects (JO d :: l)) with (d :: objects l). cbn [map record_sites]. rewrite filter_app.
    assert (E : filter (fun s => oname_eqb None (si_sheet s)) (inner_sites O [] [] (JO d)) = []).
    { pose proof (inner_sub (JO d) [] []) as Q. revert Q. generalize (inner_sites O [] [] (JO d)) as ls. induction ls as [|s ls IHs]; intros Q; [reflexivity|].
      cbn [filter]. pose proof (Q s (or_introl eq_refl)) as Qs. destruct (si_sheet s); [|congruence]. apply IHs. intros s' H'. apply Q. right. exact H'. }
    rewrite E. reflexivity.
  Qed.
End Paths.

(** ** the sheets of a run *)
Section Final.
  Variables (O : popts) (drop : bool) (pi : list str).
  Hypothesis P : simple O.
  Hypothesis NF : po_filter O = None.

  Lemma site_has_table l s w x n : flatten O drop pi l = Ok s w -> name_free O s -> In x (sites O l) -> si_sheet x = Some n ->
    exists t, In t (sub_tables s) /\ tb_name t = n.
  Proof.
    intros H HF Hx Hn. destruct (flatten_inv _ _ _ _ _ _ H) as (s0 & w0 & H0 & ->).
    pose proof (simple_ready O P) as SR.
    pose proof (parse_list_trace O _ _ _ _ _ H0) as T. pose proof (trace_names O _ _ T (start_names O drop SR)) as Hnn.
    pose proof (name_free_drop O drop l s0 w0 H0 SR HF) as HM.
    pose proof (start_ok O drop SR) as S0.
    destruct (parse_list_plain O P l NF _ _ _ _ H0) as (_ & G & _). specialize (G HM S0 (Some n)). rewrite (start_rows O drop SR), sel_entries in G. cbn [app] in G.
    assert (Hin : In (row_of O x) (rows (Some n) s0)).
    { rewrite G. apply in_map. unfold on_sheet. apply filter_In. split; [exact Hx|]. rewrite Hn. apply oname_eqb_refl. }
    unfold rows in Hin. destruct (sheet_at (Some n) s0) as [y|] eqn:Ey; [|destruct Hin].
    assert (Ey' : sget n (p_subs (drop_empty drop s0)) = Some y).
    { simpl in Ey. destruct (sget n (p_subs (drop_empty drop s0))) as [z|] eqn:Ez.
      - pose proof (drop_sheet drop (Some n) s0 z Hnn Ez) as Q. simpl in Q. congruence.
      - pose proof (drop_gone drop n s0 y Hnn Ey Ez) as El. unfold lines_of in Hin. rewrite El in Hin. destruct Hin. }
    exists (table_of (p_store (drop_empty drop s0)) n y). split; [|reflexivity]. unfold sub_tables. apply in_map_iff. exists (n, y). split; [reflexivity|]. apply sget_In. exact Ey'.
  Qed.

  Theorem main_rows l s w : flatten O drop pi l = Ok s w -> name_free O s ->
    tb_rows (main_table s) = map (fun d => fill (cells O [] (JO d)) []) (objects l).
  Proof.
    intros H HF. rewrite (flatten_sites O P drop pi l s w NF H HF None (main_table s) eq_refl), sites_main, map_map. reflexivity.
  Qed.

End Final.

(** ** sheet names *)
Lemma split_pre q : path_ok q -> split_on 47%N (pre q) = segs q ++ [[]].
Proof.
  intros H. rewrite <- (app_nil_r (pre q)), pre_segs. apply (split_join 47%N); [destruct (segs q); discriminate|].
  intros x Hx. apply in_app_or in Hx as [Hx|[<-|[]]]; [|intros []]. pose proof (segs_ok q H) as Q. rewrite Forall_forall in Q. exact (Q x Hx).
Qed.
Lemma join_ends (l : list str) : join [95%N] (l ++ [[]]) = flat_map (fun x => x ++ [95%N]) l.
Proof.
  induction l as [|x l IH]; [reflexivity|]. cbn [app flat_map]. destruct (l ++ [[]]) as [|y m] eqn:E; [destruct l; discriminate|].
  rewrite join_cons, IH, app_assoc. reflexivity.
Qed.
Lemma name_of_path q k trunc : path_ok q -> make_sub_sheet_name (pre q) k trunc 47%N =
  replace_c 58%N 45%N (flat_map (fun x => firstn trunc x ++ u "_") (filter (fun x => negb (str_eqb x (u "0"))) (map fst q)) ++ k).
Proof.
  intros H. unfold make_sub_sheet_name. rewrite split_pre by exact H. rewrite filter_app, map_app. cbn [filter map]. change (str_eqb [] zero_seg) with false. cbn [negb map].
  rewrite firstn_nil.
  rewrite join_ends. f_equal. f_equal. clear H. induction q as [|[k0 o] q IH]; [reflexivity|]. cbn [segs flat_map fst snd map]. fold (segs q).
  cbn [app filter]. change zero_seg with (u "0") in *. destruct (negb (str_eqb k0 (u "0"))); cbn [map flat_map]; destruct o; cbn [app filter]; change (negb (str_eqb (u "0") (u "0"))) with false; cbv iota; rewrite IH; reflexivity.
Qed.
Lemma name_no_colon parent k trunc sep : ~ In 58%N (make_sub_sheet_name parent k trunc sep).
Proof. unfold make_sub_sheet_name, replace_c. intros H. apply in_map_iff in H as (x & E & _). destruct (N.eqb_spec x 58); congruence. Qed.

Lemma segs_shape q1 q2 : Forall (fun st : jstep => fst st <> u "0") q1 -> Forall (fun st : jstep => fst st <> u "0") q2 -> segs q1 = segs q2 -> shape q1 = shape q2.
Proof.
  intros H1. revert q2. induction H1 as [|[k o] q1 Hk H1 IH]; intros q2 H2 E.
  - destruct q2 as [|[? ?] ?]; [reflexivity|discriminate E].
  - destruct q2 as [|[k2 o2] q2]; [discriminate E|]. apply Forall_cons_iff in H2 as [Hk2 H2]. cbn [segs flat_map fst snd] in E. fold (segs q1) (segs q2) in E. cbn [app] in E.
    injection E as -> E. cbn [shape map fst snd]. fold (shape q1) (shape q2). destruct o, o2; cbn [app] in E.
    + injection E as E. rewrite (IH _ H2 E). reflexivity.
    + exfalso. destruct q2 as [|[k3 o3] q2]; [discriminate E|]. cbn [segs flat_map fst snd app] in E. injection E as E _. apply Forall_cons_iff in H2 as [H2 _]. simpl in H2. congruence.
    + exfalso. destruct q1 as [|[k3 o3] q1]; [discriminate E|]. cbn [segs flat_map fst snd app] in E. injection E as E _.
      apply Forall_cons_iff in H1 as [H1 _]. simpl in H1. congruence.
    + rewrite (IH _ H2 E). reflexivity.
Qed.
