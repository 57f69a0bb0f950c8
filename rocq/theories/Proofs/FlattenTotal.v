(** Flattening never fails on regular data. *)
From Verif.Base Require Import PyStr PyNum PyVal PyDict Outcome.
From Verif.Model Require Import Flatten.
From Verif.Spec Require Import Flat Paths.
From Verif.Proofs Require Import JvInd FlattenTrace FlattenRows FlattenRun FlattenPlain FlattenPaths.

Definition oks {W A} (m : res W A) : Prop := exists a w, m = Ok a w.
Lemma oks_bind {W A B} (m : res W A) (f : A -> res W B) : oks m -> (forall a, oks (f a)) -> oks (bind m f).
Proof. intros (a & w & ->) H. destruct (H a) as (b & w2 & E). exists b, (w ++ w2). simpl. rewrite E. reflexivity. Qed.
Lemma oks_ret {W A} (a : A) : oks (@Ok W A a []).
Proof. eexists _, _. reflexivity. Qed.

Lemma regular_JO d : regular (JO d) <-> Forall (fun kv => regular (snd kv)) d.
Proof. simpl. induction d as [|[k v] d IH]; simpl; [split; constructor|]. rewrite Forall_cons_iff, <- IH. simpl. tauto. Qed.
Lemma regular_all l : (fix all (l : list jv) : Prop := match l with [] => True | v :: l' => regular v /\ all l' end) l <-> Forall regular l.
Proof. induction l as [|v l IH]; [split; constructor|]. rewrite Forall_cons_iff, <- IH. tauto. Qed.

Section Total.
  Variable O : popts.
  Hypothesis NX : po_xml O = false.
  Hypothesis NW : po_wkt O = false.
  Hypothesis NR : po_rollup O = [].

  Lemma add_parent_ids_oks r ids : forall row s, oks (add_parent_ids O r ids row s).
  Proof.
    induction ids as [|[k v] ids IH]; intros row s; cbn [add_parent_ids]; [apply oks_ret|]. destruct (use_key O r k s). rewrite NX.
    apply oks_bind; [apply oks_ret|]. intros a. apply IH.
  Qed.
  Definition pv_oks (v : jv) : Prop := forall d, v = JO d -> regular v -> forall r parent row ids top s, oks (parse_value O v r parent row ids top s).
  Lemma items_oks name path ids l : Forall pv_oks l -> Forall regular l -> (forall v, In v l -> v = JS SNone \/ exists d, v = JO d) ->
    forall s, oks (items (parse_value O) name path ids l s).
  Proof.
    intros HF HR Hv. induction HF as [|v l H1 _ IH]; intros s; cbn [items]; [apply oks_ret|]. apply Forall_cons_iff in HR as [HR1 HR].
    assert (Hv' : forall v, In v l -> v = JS SNone \/ exists d, v = JO d) by (intros x Hx; apply Hv; right; exact Hx).
    destruct (Hv v (or_introl eq_refl)) as [-> |(d & ->)]; [apply IH; assumption|].
    apply oks_bind; [eapply H1; [reflexivity|exact HR1]|]. intros a. apply IH; assumption.
  Qed.
  Lemma rollup_off r parent key l row s : rollup O r parent key l row s = ret (s, row).
  Proof. unfold rollup. rewrite NR. reflexivity. Qed.
  Lemma regular_array l : regular (JA l) -> forallb jbasic l = true \/ forallb inner_array l = true \/
    (Forall regular l /\ (forall v, In v l -> v = JS SNone \/ exists d, v = JO d)).
  Proof.
    cbn [regular]. intros [H|[H|[H1 H2]]].
    - left. apply forallb_forall. exact H.
    - right. left. apply forallb_forall. intros v Hv. destruct (H v Hv) as (l' & [[-> H']|(t & ->)]); [|reflexivity]. apply forallb_forall. exact H'.
    - right. right. split; [apply regular_all; exact H2|exact H1].
  Qed.
  Lemma entries_oks r skip ids d : Forall (fun kv => pv_oks (snd kv) /\ forall l, snd kv = JA l -> Forall pv_oks l) d -> Forall (fun kv => regular (snd kv)) d ->
    forall parent row s, oks (entries O (parse_value O) r skip ids d parent row s).
  Proof.
    intros HF HR. induction HF as [|[key value] d [Hv Ha] _ IH]; intros parent row s; cbn [entries]; [apply oks_ret|].
    apply Forall_cons_iff in HR as [HR1 HR]. simpl in HR1. specialize (IH HR).
    destruct (skip && _); [apply IH|]. destruct (preserve_skips _ _ _); [apply IH|].
    destruct value as [v|l|d0].
    - cbn [regular] in HR1. rewrite HR1. destruct (po_xml O && _); destruct (set_cell _ _ _ _ _ _); apply IH.
    - destruct (forallb jbasic l) eqn:E1; [destruct (set_cell _ _ _ _ _ _); apply IH|].
      destruct (forallb inner_array l) eqn:E2; [destruct (set_cell _ _ _ _ _ _); apply IH|].
      apply regular_array in HR1 as [HR1|[HR1|[HR1 HR2]]]; [congruence|congruence|].
      rewrite rollup_off. apply oks_bind; [apply oks_ret|]. intros x. apply oks_bind; [|intros s'; apply IH].
      apply items_oks; [apply Ha; reflexivity|exact HR1|exact HR2].
    - apply oks_bind; [eapply Hv; [reflexivity|exact HR1]|]. intros x. apply IH.
  Qed.
  Lemma pv_oks_all v : pv_oks v /\ forall l, v = JA l -> Forall pv_oks l.
  Proof.
    induction v as [s|l IH|d IH] using jv_ind'.
    - split; [|discriminate]. intros d Q; discriminate Q.
    - split; [intros d Q; discriminate Q|]. intros l' [= <-]. eapply Forall_impl; [|exact IH]. intros v [H _]. exact H.
    - split; [|discriminate]. intros d' [= <-] HR r parent row ids top s. apply regular_JO in HR. cbn [parse_value]. unfold dict.
      rewrite (geo_off O NW). apply oks_bind; [apply oks_ret|]. intros g. destruct g as [[[skip row1] s1]|]; [|apply oks_ret].
      destruct (filtered_out O parent d); [apply oks_ret|]. apply oks_bind; [destruct top; [apply add_parent_ids_oks|apply oks_ret]|].
      intros x. destruct (own_ids O r d parent ids (fst x)) as [ids' s3]. apply oks_bind; [apply entries_oks; assumption|].
      intros y. destruct row1; [apply oks_ret|]. destruct (sheet_at r (fst y)); [|apply oks_ret]. destruct (append_line _ _ _). apply oks_ret.
  Qed.
  Lemma parse_list_oks l : Forall (fun v => match v with JO _ => regular v | _ => True end) l -> forall num s, oks (parse_list O num l s).
  Proof.
    induction 1 as [|v l Hv _ IH]; intros num s; cbn [parse_list]; [apply oks_ret|].
    assert (G : oks (bind (warn1 (FNotObject num)) (fun _ => parse_list O (num + 1)%N l s))).
    { apply oks_bind; [eexists _, _; reflexivity|]. intros _. apply IH. }
    destruct v as [[]|l0|d]; try exact G; [apply IH|]. apply oks_bind; [|intros x; apply IH].
    eapply (proj1 (pv_oks_all (JO d))); [reflexivity|exact Hv].
  Qed.
  Theorem flatten_oks drop pi l : Forall (fun v => match v with JO _ => regular v | _ => True end) l -> exists s w, flatten O drop pi l = Ok s w.
  Proof.
    intros H. unfold flatten. apply oks_bind; [apply parse_list_oks; exact H|]. intros s. apply oks_bind; [|intros _; apply oks_ret].
    destruct (filter _ pi); eexists _, _; reflexivity.
  Qed.
End Total.

(** columns of distinct arrays are distinct *)
Lemma shape_app p q : shape (p ++ q) = shape p ++ shape q.
Proof. apply map_app. Qed.
Lemma shape_down ks : shape (down ks) = map (fun k => (k, false)) ks.
Proof. unfold shape, down. rewrite map_map. reflexivity. Qed.
Lemma last_true (a b : list (str * bool)) x y ks1 ks2 : a ++ [(x, true)] ++ map (fun k => (k, false)) ks1 = b ++ [(y, true)] ++ map (fun k => (k, false)) ks2 ->
  a = b /\ x = y /\ ks1 = ks2.
Proof.
  revert ks2. induction ks1 as [|k1 ks1 IH] using rev_ind; intros ks2; destruct ks2 as [|k2 ks2 _] using rev_ind; intros E.
  - cbn [map app] in E. apply app_inj_tail in E as [-> E]. injection E as ->. auto.
  - exfalso. rewrite map_app in E. cbn [map app] in E. rewrite app_comm_cons, app_assoc in E. apply app_inj_tail in E as [_ E]. discriminate E.
  - exfalso. rewrite map_app in E. cbn [map app] in E. rewrite app_comm_cons, app_assoc in E. apply app_inj_tail in E as [_ E]. discriminate E.
  - rewrite !map_app in E. cbn [map] in E. rewrite !app_assoc in E. apply app_inj_tail in E as [E E2]. injection E2 as ->.
    rewrite <- !app_assoc in E. destruct (IH ks2 E) as (-> & -> & ->). auto.
Qed.
Theorem array_columns q1 k1 i1 ks1 x1 q2 k2 i2 ks2 x2 :
  (forall st, In st (q1 ++ (k1, Some i1) :: q2 ++ (k2, Some i2) :: down ks1 ++ down ks2) -> key_ok (fst st) /\ fst st <> u "0") -> key_ok x1 -> key_ok x2 ->
  pre (q1 ++ [(k1, Some i1)]) ++ pre (down ks1) ++ x1 = pre (q2 ++ [(k2, Some i2)]) ++ pre (down ks2) ++ x2 ->
  shape q1 = shape q2 /\ k1 = k2 /\ ks1 = ks2 /\ x1 = x2.
Proof.
  intros H K1 K2 E. rewrite !app_assoc, <- !pre_app in E.
  assert (H1 : forall st, In st ((q1 ++ [(k1, Some i1)]) ++ down ks1) -> key_ok (fst st) /\ fst st <> u "0").
  { intros st Hin. apply H. rewrite <- app_assoc, in_app_iff in Hin. cbn [app In] in Hin. rewrite !in_app_iff. cbn [In]. rewrite !in_app_iff. cbn [In]. rewrite !in_app_iff. tauto. }
  assert (H2 : forall st, In st ((q2 ++ [(k2, Some i2)]) ++ down ks2) -> key_ok (fst st) /\ fst st <> u "0").
  { intros st Hin. apply H. rewrite <- app_assoc, in_app_iff in Hin. cbn [app In] in Hin. rewrite !in_app_iff. cbn [In]. rewrite !in_app_iff. cbn [In]. rewrite !in_app_iff. tauto. }
  assert (OK : forall q, (forall st : jstep, In st q -> key_ok (fst st) /\ fst st <> u "0") -> path_ok q /\ Forall (fun st : jstep => fst st <> u "0") q).
  { intros q Hq. split; apply Forall_forall; intros st Hst; apply (Hq st Hst). }
  destruct (OK _ H1) as [A1 B1], (OK _ H2) as [A2 B2]. apply pre_inj in E as [E ->]; [|assumption..].
  apply segs_shape in E; [|assumption..]. rewrite !shape_app, !shape_down, <- !app_assoc in E.
  change (shape [(k1, Some i1)]) with [(k1, true)] in E. change (shape [(k2, Some i2)]) with [(k2, true)] in E.
  destruct (last_true _ _ _ _ _ _ E) as (Ea & Eb & Ec). auto.
Qed.
