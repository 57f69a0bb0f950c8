(** Flattening as a sequence of elementary changes of the sheets. *)
From Verif.Base Require Import PyStr PyNum PyVal PyDict Outcome.
From Verif.Model Require Import Flatten.
From Verif.Proofs Require Import JvInd.

Definition hdr (r : sref) (s : pst) : list str := match sheet_at r s with Some x => header x | None => [] end.
Definition add_row (r : sref) (x : sheet) (row : frow) (s : pst) : pst :=
  let (x', st) := append_line row x (p_store s) in put_store st (put_sheet r x' s).
Definition keys_in (row : frow) (h : list str) : Prop := NoDup (map fst row) /\ forall k v, In (k, v) row -> In k h.
Lemma keys_in_nil h : keys_in [] h.
Proof. split; [constructor|intros ? ? []]. Qed.

Section Trace.
  Variable O : popts.

  Inductive trace (s : pst) : pst -> Prop :=
  | t_nil : trace s s
  | t_see p s1 : trace s s1 -> trace s (see_path p s1)
  | t_key r k s1 : trace s s1 -> trace s (snd (use_key O r k s1))
  | t_sub n s1 : trace s s1 -> trace s (ensure_sub n s1)
  | t_line r x row s1 : trace s s1 -> sheet_at r s1 = Some x -> keys_in row (header x) -> trace s (add_row r x row s1).

  Lemma trace_trans s s1 s2 : trace s s1 -> trace s1 s2 -> trace s s2.
  Proof. intros H H2. induction H2; [exact H|..]; econstructor; eauto. Qed.

  (** ** sheets under elementary changes *)
  Lemma sheet_at_put r r' x s : sheet_at r (put_sheet r' x s) =
    if oname_eqb r r' then Some x else sheet_at r s.
  Proof.
    destruct r as [n|], r' as [m|]; simpl; try reflexivity.
    destruct (str_eqb_spec n m) as [-> |Hn]; [apply sget_sset_eq|apply sget_sset_neq; exact Hn].
  Qed.
  Lemma oname_eqb_refl r : oname_eqb r r = true.
  Proof. destruct r; [apply str_eqb_refl|reflexivity]. Qed.
  Lemma oname_eqb_eq r r' : oname_eqb r r' = true <-> r = r'.
  Proof.
    destruct r as [n|], r' as [m|]; simpl; split; intros H; try discriminate; try reflexivity.
    - apply str_eqb_eq in H. congruence.
    - injection H as ->. apply str_eqb_refl.
  Qed.
  Lemma sheet_at_store r t s : sheet_at r (put_store t s) = sheet_at r s.
  Proof. destruct r; reflexivity. Qed.
  Lemma sheet_at_see r p s : sheet_at r (see_path p s) = sheet_at r s.
  Proof. destruct r; reflexivity. Qed.

  (** [later x y]: the sheet [y] is [x] with columns (and lines) added *)
  Definition later (x y : sheet) : Prop :=
    sh_root y = sh_root x /\ sh_idcols y = sh_idcols x /\ sh_titles y = sh_titles x /\ (exists e, sh_cols y = sh_cols x ++ e) /\
    match sh_lines x, sh_lines y with
    | LMem l, LMem m => exists e, m = l ++ e
    | LStore n i, LStore m j => n = m /\ (i <= j)%N
    | _, _ => False
    end.
  Lemma later_refl x : later x x.
  Proof.
    unfold later. repeat split; try reflexivity; [exists []; rewrite app_nil_r; reflexivity|].
    destruct (sh_lines x); [exists []; rewrite app_nil_r; reflexivity|split; [reflexivity|lia]].
  Qed.
  Lemma later_trans x y z : later x y -> later y z -> later x z.
  Proof.
    intros (A1 & A2 & A3 & (e & A4) & A5) (B1 & B2 & B3 & (f & B4) & B5). unfold later.
    repeat split; try congruence; [exists (e ++ f); rewrite B4, A4, app_assoc; reflexivity|].
    destruct (sh_lines x), (sh_lines y), (sh_lines z); try contradiction.
    - destruct A5 as (e1 & ->), B5 as (e2 & ->). exists (e1 ++ e2). rewrite app_assoc. reflexivity.
    - destruct A5, B5. split; [congruence|lia].
  Qed.
  Lemma later_header x y : later x y -> exists e, header y = header x ++ e.
  Proof. intros (A1 & A2 & _ & (e & A4) & _). exists e. unfold header. rewrite A1, A2, A4, !app_assoc. reflexivity. Qed.
  Lemma later_add_col k x : later x (add_col k x).
  Proof.
    unfold add_col. destruct (str_mem k (sh_cols x)); [apply later_refl|].
    unfold later; simpl. repeat split; try reflexivity; [exists [k]; reflexivity|].
    destruct (sh_lines x); [exists []; rewrite app_nil_r; reflexivity|split; [reflexivity|lia]].
  Qed.
  Lemma sheet_key_later k x : later x (snd (sheet_key (po_titles O) k x)).
  Proof. unfold sheet_key. simpl. destruct (str_mem _ _); [apply later_refl|apply later_add_col]. Qed.
  Lemma sheet_key_in k x : In (fst (sheet_key (po_titles O) k x)) (header (snd (sheet_key (po_titles O) k x))).
  Proof.
    unfold sheet_key. simpl. set (n := if po_titles O then _ else _). destruct (str_mem n (header x)) eqn:M; [apply str_mem_In; exact M|].
    unfold add_col. destruct (str_mem n (sh_cols x)) eqn:M2.
    - apply str_mem_In in M2. unfold header. apply in_or_app. right. apply in_or_app. right. exact M2.
    - unfold header. simpl. apply in_or_app. right. apply in_or_app. right. apply in_or_app. right. left. reflexivity.
  Qed.

  Lemma trace_later s s' : trace s s' -> forall r x, sheet_at r s = Some x -> exists y, sheet_at r s' = Some y /\ later x y.
  Proof.
    intros H r x Hx. induction H as [|p s1 H IH|r1 k s1 H IH|n s1 H IH|r1 x1 row s1 H IH Hx1 Hk].
    - exists x. split; [exact Hx|apply later_refl].
    - rewrite sheet_at_see. exact IH.
    - destruct IH as (y & Hy & L). unfold use_key. destruct (sheet_at r1 s1) as [z|] eqn:Ez; [|exists y; auto].
      destruct (sheet_key (po_titles O) k z) as [k' z'] eqn:Ek. cbn [snd]. rewrite sheet_at_put. destruct (oname_eqb r r1) eqn:Er; [|exists y; auto].
      apply oname_eqb_eq in Er as ->. exists z'. split; [reflexivity|]. rewrite Hy in Ez. injection Ez as ->.
      eapply later_trans; [exact L|]. pose proof (sheet_key_later k z) as Q. rewrite Ek in Q. exact Q.
    - destruct IH as (y & Hy & L). exists y. split; [|exact L]. unfold ensure_sub. destruct (sget n (p_subs s1)) eqn:En; [exact Hy|].
      simpl. destruct r as [m|]; [|exact Hy]. simpl in *. rewrite sget_sset_neq; [exact Hy|]. congruence.
    - destruct IH as (y & Hy & L). unfold add_row. destruct (append_line row x1 (p_store s1)) as [x1' st] eqn:Ea.
      rewrite sheet_at_store, sheet_at_put. destruct (oname_eqb r r1) eqn:Er; [|exists y; auto].
      apply oname_eqb_eq in Er as ->. exists x1'. split; [reflexivity|]. rewrite Hy in Hx1. injection Hx1 as ->.
      eapply later_trans; [exact L|]. unfold append_line in Ea. unfold later. destruct (sh_lines x1) eqn:El; injection Ea as <- <-; simpl.
      + repeat split; try reflexivity; [exists []; rewrite app_nil_r; reflexivity|exists [row]; reflexivity].
      + repeat split; try reflexivity; [exists []; rewrite app_nil_r; reflexivity|lia].
  Qed.
  Lemma trace_hdr s s' : trace s s' -> forall r k, In k (hdr r s) -> In k (hdr r s').
  Proof.
    intros H r k. unfold hdr. destruct (sheet_at r s) as [x|] eqn:E; [|contradiction].
    destruct (trace_later _ _ H r x E) as (y & -> & L). destruct (later_header _ _ L) as (e & ->). intros Hk. apply in_or_app; left; exact Hk.
  Qed.
  Lemma trace_keys_in s s' r row : trace s s' -> keys_in row (hdr r s) -> keys_in row (hdr r s').
  Proof. intros H [Hn Hk]. split; [exact Hn|]. intros k v Hin. eapply trace_hdr; [exact H|]. eapply Hk; exact Hin. Qed.
  Lemma trace_exists s s' r : trace s s' -> sheet_at r s <> None -> sheet_at r s' <> None.
  Proof.
    intros H Hx. destruct (sheet_at r s) as [x|] eqn:E; [|congruence]. destruct (trace_later _ _ H r x E) as (y & -> & _). discriminate.
  Qed.

  (** ** use_key, set_cell *)
  Lemma use_key_in r k s : sheet_at r s <> None -> In (fst (use_key O r k s)) (hdr r (snd (use_key O r k s))).
  Proof.
    intros Hx. unfold use_key, hdr. destruct (sheet_at r s) as [x|] eqn:E; [|congruence].
    pose proof (sheet_key_in k x) as Q. destruct (sheet_key (po_titles O) k x) as [k' x'] eqn:Ek. cbn [fst snd] in *.
    rewrite sheet_at_put, oname_eqb_refl. exact Q.
  Qed.
  Lemma set_cell_trace r k v row s s' row' : set_cell O r k v row s = (s', row') -> sheet_at r s <> None -> keys_in row (hdr r s) ->
    trace s s' /\ keys_in row' (hdr r s').
  Proof.
    unfold set_cell. destruct (use_key O r k s) as [k' s1] eqn:E. intros [= <- <-] Hx Hk.
    assert (T : trace s s1) by (pose proof (t_key s r k s (t_nil s)) as Q; rewrite E in Q; exact Q).
    split; [exact T|]. split; [apply sset_NoDup, Hk|]. intros k0 v0 Hin. apply sset_In in Hin as [Q|Hin].
    - injection Q as -> ->. pose proof (use_key_in r k s Hx) as Q. rewrite E in Q. exact Q.
    - exact (proj2 (trace_keys_in _ _ _ _ T Hk) _ _ Hin).
  Qed.
  Lemma add_parent_ids_trace r ids : forall row s s' row' w, add_parent_ids O r ids row s = Ok (s', row') w -> sheet_at r s <> None ->
    keys_in row (hdr r s) -> trace s s' /\ keys_in row' (hdr r s').
  Proof.
    induction ids as [|[k v] ids IH]; intros row s s' row' w H Hx Hk; cbn [add_parent_ids] in H.
    - injection H as <- <- _. split; [constructor|exact Hk].
    - destruct (use_key O r k s) as [k' s1] eqn:E. apply bind_ok in H as (v' & w1 & w2 & _ & H & _).
      assert (T : trace s s1) by (pose proof (t_key s r k s (t_nil s)) as Q; rewrite E in Q; exact Q).
      apply IH in H as [T2 K2].
      + split; [eapply trace_trans; eassumption|exact K2].
      + eapply trace_exists; eassumption.
      + split; [apply sset_NoDup, Hk|]. intros k0 v0 Hin. apply sset_In in Hin as [Q|Hin].
        * injection Q as -> ->. pose proof (use_key_in r k s Hx) as Q. rewrite E in Q. exact Q.
        * exact (proj2 (trace_keys_in _ _ _ _ T Hk) _ _ Hin).
  Qed.
  Lemma own_ids_trace r d parent ids s ids' s' : own_ids O r d parent ids s = (ids', s') -> trace s s'.
  Proof.
    unfold own_ids. intros H.
    assert (T : forall k s0, trace s s0 -> trace s (snd (use_key O r k s0))) by (intros; constructor; assumption).
    destruct (po_root_id O) as [|c rid].
    - destruct (sget (po_id_name O) d); [|injection H as _ <-; constructor].
      specialize (T (parent ++ po_id_name O) s (t_nil s)). destruct (use_key O r (parent ++ po_id_name O) s). injection H as _ <-. exact T.
    - destruct (sget (c :: rid) d).
      + pose proof (T (c :: rid) s (t_nil s)) as T1. destruct (use_key O r (c :: rid) s) as [k1 s1].
        destruct (sget (po_id_name O) d); [|injection H as _ <-; exact T1].
        specialize (T (parent ++ po_id_name O) s1 T1). destruct (use_key O r (parent ++ po_id_name O) s1). injection H as _ <-. exact T.
      + destruct (sget (po_id_name O) d); [|injection H as _ <-; constructor].
        specialize (T (parent ++ po_id_name O) s (t_nil s)). destruct (use_key O r (parent ++ po_id_name O) s). injection H as _ <-. exact T.
  Qed.
  Lemma roll_single_trace r key item : forall row s s' row' w, roll_single O r key item row s = Ok (s', row') w -> sheet_at r s <> None ->
    keys_in row (hdr r s) -> trace s s' /\ keys_in row' (hdr r s').
  Proof.
    induction item as [|[k v] item IH]; intros row s s' row' w H Hx Hk; cbn [roll_single] in H.
    - injection H as <- <- _. split; [constructor|exact Hk].
    - destruct (roll_dropped O key k); [eapply IH; eassumption|]. destruct (negb (jbasic v)); [discriminate|].
      destruct (roll_column O key k) as [col|]; [|eapply IH; eassumption].
      destruct (set_cell O r col v row s) as [s1 row1] eqn:E. destruct (set_cell_trace _ _ _ _ _ _ _ E Hx Hk) as [T1 K1].
      apply IH in H as [T2 K2]; [|eapply trace_exists; eassumption|exact K1]. split; [eapply trace_trans; eassumption|exact K2].
  Qed.
  Lemma roll_many_trace r key ks : forall row s s' row' w, roll_many O r key ks row s = Ok (s', row') w -> sheet_at r s <> None ->
    keys_in row (hdr r s) -> trace s s' /\ keys_in row' (hdr r s').
  Proof.
    induction ks as [|k ks IH]; intros row s s' row' w H Hx Hk; cbn [roll_many] in H.
    - injection H as <- <- _. split; [constructor|exact Hk].
    - destruct (roll_dropped O key k); [eapply IH; eassumption|]. destruct (roll_many_wanted O key k); [|eapply IH; eassumption].
      apply bind_ok in H as (t & w1 & w2 & _ & H & _).
      destruct (set_cell O r (roll_path key k) (JS (SStr rollup_text)) row s) as [s1 row1] eqn:E. destruct (set_cell_trace _ _ _ _ _ _ _ E Hx Hk) as [T1 K1].
      apply IH in H as [T2 K2]; [|eapply trace_exists; eassumption|exact K1]. split; [eapply trace_trans; eassumption|exact K2].
  Qed.
  Lemma rollup_trace r parent key l row s s' row' w : rollup O r parent key l row s = Ok (s', row') w -> sheet_at r s <> None ->
    keys_in row (hdr r s) -> trace s s' /\ keys_in row' (hdr r s').
  Proof.
    unfold rollup. intros H Hx Hk.
    destruct (po_rollup O); [injection H as <- <- _; split; [constructor|exact Hk]|].
    destruct parent; [|injection H as <- <- _; split; [constructor|exact Hk]].
    apply bind_ok in H as (t & w1 & w2 & _ & H & _).
    destruct l as [|v [|v2 l]]; [injection H as <- <- _; split; [constructor|exact Hk]| |].
    - destruct v; try discriminate. eapply roll_single_trace; eassumption.
    - apply bind_ok in H as (ks & w3 & w4 & _ & H & _). eapply roll_many_trace; eassumption.
  Qed.
  Lemma ensure_sub_at n s : sheet_at (Some n) (ensure_sub n s) <> None.
  Proof.
    unfold ensure_sub. destruct (sget n (p_subs s)) eqn:E; simpl; [congruence|]. rewrite sget_sset_eq. discriminate.
  Qed.

  Definition pv_ok (v : jv) : Prop := forall r parent row ids top s s' row' w,
    parse_value O v r parent row ids top s = Ok (s', row') w -> sheet_at r s <> None ->
    (forall x, row = Some x -> keys_in x (hdr r s)) ->
    trace s s' /\ (row <> None -> keys_in row' (hdr r s')).

  Lemma items_trace name path ids l : Forall pv_ok l -> forall s s' w, items (parse_value O) name path ids l s = Ok s' w ->
    sheet_at (Some name) s <> None -> trace s s'.
  Proof.
    intros HF. induction HF as [|v l Hv _ IH]; intros s s' w H Hx; cbn [items] in H.
    - injection H as <- _. constructor.
    - assert (G : bind (parse_value O v (Some name) path None ids true s) (fun r => items (parse_value O) name path ids l (fst r)) = Ok s' w -> trace s s').
      { intros G. apply bind_ok in G as ([s1 row1] & w1 & w2 & H1 & H2 & _).
        destruct (Hv _ _ _ _ _ _ _ _ _ H1 Hx) as [T1 _]; [intros x Q; discriminate Q|].
        apply IH in H2; [eapply trace_trans; eassumption|eapply trace_exists; eassumption]. }
      destruct v as [[]| |]; try exact (G H). eapply IH; eassumption.
  Qed.

  Lemma entries_trace r skip ids d : Forall (fun kv => pv_ok (snd kv) /\ forall l, snd kv = JA l -> Forall pv_ok l) d ->
    forall parent row s s' row' w, entries O (parse_value O) r skip ids d parent row s = Ok (s', row') w -> sheet_at r s <> None ->
    keys_in row (hdr r s) -> trace s s' /\ keys_in row' (hdr r s').
  Proof.
    intros HF. induction HF as [|[key value] d [Hv Ha] _ IH]; intros parent row s s' row' w H Hx Hk; cbn [entries] in H.
    - injection H as <- <- _. split; [constructor|exact Hk].
    - destruct (skip && _); [eapply IH; eassumption|].
      set (s0 := see_path _ s) in *.
      assert (T0 : trace s s0) by (apply t_see; constructor).
      assert (Hx0 : sheet_at r s0 <> None) by (eapply trace_exists; eassumption).
      assert (Hk0 : keys_in row (hdr r s0)) by (eapply trace_keys_in; eassumption).
      assert (G : (trace s0 s' /\ keys_in row' (hdr r s')) -> trace s s' /\ keys_in row' (hdr r s')).
      { intros [T K]. split; [eapply trace_trans; eassumption|exact K]. }
      apply G. clear G. destruct (preserve_skips _ _ _); [eapply IH; eassumption|].
      assert (C : forall col v p, (let (s2, row2) := set_cell O r col v row s0 in entries O (parse_value O) r skip ids d p row2 s2) = Ok (s', row') w ->
        trace s0 s' /\ keys_in row' (hdr r s')).
      { intros col v p Hc. destruct (set_cell O r col v row s0) as [s1 row1] eqn:E. destruct (set_cell_trace _ _ _ _ _ _ _ E Hx0 Hk0) as [T1 K1].
        apply IH in Hc as [T2 K2]; [|eapply trace_exists; eassumption|exact K1]. split; [eapply trace_trans; eassumption|exact K2]. }
      destruct value as [v|l|o].
      + destruct (basic v); [|discriminate]. destruct (po_xml O && _); eapply C; exact H.
      + destruct (forallb jbasic l); [eapply C; exact H|]. destruct (forallb inner_array l); [eapply C; exact H|].
        apply bind_ok in H as ([s1 row1] & w1 & w2 & H1 & H & _). destruct (rollup_trace _ _ _ _ _ _ _ _ _ H1 Hx0 Hk0) as [T1 K1].
        apply bind_ok in H as (s2 & w3 & w4 & H2 & H & _). cbn [fst snd] in *.
        assert (T2 : trace s0 (ensure_sub (sub_sheet_name O parent key) s1)) by (apply t_sub; exact T1).
        apply items_trace in H2; [|apply Ha; reflexivity|apply ensure_sub_at].
        assert (T3 : trace s0 s2) by (eapply trace_trans; eassumption).
        apply IH in H as [T4 K4]; [split; [eapply trace_trans; eassumption|exact K4]|eapply trace_exists; eassumption|].
        eapply trace_keys_in; [|exact K1]. eapply trace_trans; [|exact H2]. apply t_sub. constructor.
      + apply bind_ok in H as ([s1 row1] & w1 & w2 & H1 & H & _). cbn [fst snd] in *.
        destruct (Hv _ _ _ _ _ _ _ _ _ H1 Hx0) as [T1 K1]; [intros x [= <-]; exact Hk0|].
        apply IH in H as [T2 K2]; [split; [eapply trace_trans; eassumption|exact K2]|eapply trace_exists; eassumption|].
        apply K1. discriminate.
  Qed.

  Lemma dict_trace d : Forall (fun kv => pv_ok (snd kv) /\ forall l, snd kv = JA l -> Forall pv_ok l) d ->
    forall r parent row ids top s s' row' w, dict O (parse_value O) d r parent row ids top s = Ok (s', row') w -> sheet_at r s <> None ->
    (forall x, row = Some x -> keys_in x (hdr r s)) -> trace s s' /\ (row <> None -> keys_in row' (hdr r s')).
  Proof.
    intros HF r parent row ids top s s' row' w H Hx Hk. unfold dict in H.
    apply bind_ok in H as (g & w1 & w2 & Hg & H & _).
    assert (Hg' : match g with
      | inr (s1, x1) => trace s s1 /\ (row <> None -> keys_in x1 (hdr r s1))
      | inl (_, row1, s1) => trace s s1 /\ (row1 = None <-> row = None) /\ (forall x, row1 = Some x -> keys_in x (hdr r s1))
      end).
    { unfold geo in Hg. destruct (po_wkt O && shas (u "type") d && shas (u "coordinates") d).
      - destruct (po_shape O) as [shape|].
        + destruct (use_key O r (strip_slash parent) s) as [k s1] eqn:E.
          assert (T : trace s s1) by (pose proof (t_key s r (strip_slash parent) s (t_nil s)) as Q; rewrite E in Q; exact Q).
          destruct (shape d) as [wkt|].
          * destruct row as [x|]; [|discriminate]. injection Hg as <- _. split; [exact T|]. split; [split; discriminate|].
            intros x0 [= <-]. split; [apply sset_NoDup, (Hk _ eq_refl)|]. intros k0 v0 Hin. apply sset_In in Hin as [Q|Hin].
            -- injection Q as -> ->. pose proof (use_key_in r (strip_slash parent) s Hx) as Q. rewrite E in Q. exact Q.
            -- exact (proj2 (trace_keys_in _ _ _ _ T (Hk _ eq_refl)) _ _ Hin).
          * injection Hg as <- _. split; [exact T|]. intros Hr. destruct row as [x|]; [|congruence]. eapply trace_keys_in; [exact T|apply Hk; reflexivity].
        + injection Hg as <- _. split; [constructor|]. split; [tauto|]. exact Hk.
      - injection Hg as <- _. split; [constructor|]. split; [tauto|]. exact Hk. }
    destruct g as [[[skip row1] s1]|[s1 x1]]; [|injection H as <- <- _; exact Hg'].
    destruct Hg' as (T1 & Hr & K1). set (row2 := match row1 with Some x => x | None => [] end) in *.
    assert (K2 : keys_in row2 (hdr r s1)).
    { unfold row2. destruct row1 as [x|]; [apply K1; reflexivity|apply keys_in_nil]. }
    destruct (filtered_out O parent d); [injection H as <- <- _; split; [exact T1|intros _; exact K2]|].
    assert (Hx1 : sheet_at r s1 <> None) by (eapply trace_exists; eassumption).
    apply bind_ok in H as ([s2 x2] & w3 & w4 & H2 & H & _). cbn [fst snd] in H.
    assert (T2 : trace s1 s2 /\ keys_in x2 (hdr r s2)).
    { destruct top; [eapply add_parent_ids_trace; eassumption|injection H2 as <- <- _; split; [constructor|exact K2]]. }
    destruct T2 as [T2 K3]. destruct (own_ids O r d parent ids s2) as [ids' s3] eqn:Eo.
    pose proof (own_ids_trace _ _ _ _ _ _ _ Eo) as T3.
    assert (T03 : trace s s3) by (eapply trace_trans; [eapply trace_trans; eassumption|exact T3]).
    apply bind_ok in H as ([s4 x4] & w5 & w6 & H4 & H & _).
    apply (entries_trace r skip ids' d HF) in H4 as [T4 K4]; [|exact (trace_exists _ _ _ T03 Hx)|exact (trace_keys_in _ _ _ _ T3 K3)].
    assert (T04 : trace s s4) by (eapply trace_trans; eassumption).
    destruct row1 as [x|].
    - injection H as <- <- _. split; [exact T04|intros _; exact K4].
    - cbn [fst snd] in H. pose proof (trace_exists _ _ _ T04 Hx) as Hx4. destruct (sheet_at r s4) as [sh|] eqn:Es; [|congruence].
      assert (T5 : trace s (add_row r sh x4 s4)).
      { apply t_line; [exact T04|exact Es|]. unfold hdr in K4. rewrite Es in K4. exact K4. }
      unfold add_row in T5. destruct (append_line x4 sh (p_store s4)) as [sh' st]. injection H as <- <- _. split; [exact T5|].
      intros Hne. exfalso. apply Hne. apply Hr. reflexivity.
  Qed.

  Lemma pv_ok_all v : pv_ok v /\ forall l, v = JA l -> Forall pv_ok l.
  Proof.
    induction v as [s|l IH|d IH] using jv_ind'.
    - split; [|discriminate]. intros r parent row ids top s0 s' row' w H. discriminate H.
    - split; [intros r parent row ids top s0 s' row' w H; discriminate H|].
      intros l' [= <-]. eapply Forall_impl; [|exact IH]. intros v [H _]. exact H.
    - split; [|discriminate]. intros r parent row ids top s0 s' row' w H. cbn [parse_value] in H. eapply dict_trace; [|exact H]. exact IH.
  Qed.
  Lemma parse_list_trace l : forall num s s' w, parse_list O num l s = Ok s' w -> trace s s'.
  Proof.
    induction l as [|v l IH]; intros num s s' w H; cbn [parse_list] in H.
    - injection H as <- _. constructor.
    - assert (G : forall w0, bind (warn1 w0) (fun _ => parse_list O (num + 1)%N l s) = Ok s' w -> trace s s').
      { intros w0 G. apply bind_ok in G as (t & w1 & w2 & _ & G & _). eapply IH; exact G. }
      destruct v as [[]|l0|d]; try exact (G _ H); [eapply IH; exact H|].
      apply bind_ok in H as ([s1 x1] & w1 & w2 & H1 & H & _). cbn [fst] in H.
      destruct (proj1 (pv_ok_all (JO d)) _ _ _ _ _ _ _ _ _ H1) as [T _]; [discriminate|intros x Q; discriminate Q|].
      eapply trace_trans; [exact T|]. eapply IH; exact H.
  Qed.
End Trace.
