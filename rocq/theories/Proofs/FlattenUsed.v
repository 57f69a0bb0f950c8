(** Every column that flattening adds is used by a row. *)
From Verif.Base Require Import PyStr PyNum PyVal PyDict Outcome.
From Verif.Model Require Import Flatten.
From Verif.Spec Require Import Flat Sites Paths RoundTrip.
From Verif.Proofs Require Import JvInd FlattenTrace FlattenRows FlattenRun FlattenPlain FlattenPaths.

Section Used.
  Variable O : popts.
  Hypothesis W : whole O.
  Lemma P : simple O. Proof. exact (proj1 W). Qed.

  (** the columns that are added *)
  Definition cols (s : pst) (K : sref -> str -> Prop) (s' : pst) : Prop := forall r k, In k (hdr r s') -> In k (hdr r s) \/ K r k.
  Lemma cols_refl s K : cols s K s. Proof. intros r k H. left. exact H. Qed.
  Lemma cols_trans s1 s2 s3 (K1 K2 K : sref -> str -> Prop) : cols s1 K1 s2 -> cols s2 K2 s3 -> (forall r k, K1 r k -> K r k) -> (forall r k, K2 r k -> K r k) -> cols s1 K s3.
  Proof. intros A B HA HB r k H. apply B in H as [H|H]; [apply A in H as [H|H]|]; auto. Qed.
  Lemma cols_weak s (K K' : sref -> str -> Prop) s' : cols s K s' -> (forall r k, K r k -> K' r k) -> cols s K' s'.
  Proof. intros A H r k Hk. apply A in Hk as [|Hk]; auto. Qed.
  Lemma cols_see p s K : cols s K (see_path p s).
  Proof. intros r k H. left. unfold hdr in *. rewrite sheet_at_see in H. exact H. Qed.
  Lemma cols_key r0 k0 s : cols s (fun r k => r = r0 /\ k = k0) (snd (use_key O r0 k0 s)).
  Proof.
    intros r k H. unfold use_key in H. destruct (sheet_at r0 s) as [x|] eqn:E; [|left; exact H]. unfold hdr in *.
    destruct (sheet_key (po_titles O) k0 x) as [k1 x1] eqn:Ek. cbn [snd] in H. rewrite sheet_at_put in H. destruct (oname_spec r r0) as [->|]; [|left; exact H].
    rewrite E. unfold sheet_key in Ek. destruct P as (_ & Et & _). rewrite Et in Ek. injection Ek as <- <-. destruct (str_mem k0 (header x)); [left; exact H|].
    unfold add_col in H. destruct (str_mem k0 (sh_cols x)); [left; exact H|]. unfold header in H. cbn in H. rewrite !app_assoc in H. apply in_app_or in H as [H|[<-|[]]]; [|right; auto].
    left. unfold header. rewrite !app_assoc. exact H.
  Qed.
  Lemma cols_sub n s K : cols s K (ensure_sub n s).
  Proof.
    intros r k H. unfold hdr in *. destruct (sget n (p_subs s)) eqn:E; [unfold ensure_sub in H; rewrite E in H; left; exact H|].
    rewrite (ensure_sheet n s E) in H. destruct (oname_eqb r (Some n)); [destruct H|left; exact H].
  Qed.
  Lemma cols_line r0 x row s K : sheet_at r0 s = Some x -> cols s K (add_row r0 x row s).
  Proof.
    intros E r k H. left. unfold hdr in *. rewrite add_row_sheet in H. destruct (oname_spec r r0) as [->|]; [|exact H]. rewrite E. rewrite append_same in H. exact H.
  Qed.

  Definition on (r0 : sref) (cs : list (str * jv)) (r : sref) (k : str) : Prop := r = r0 /\ In k (map fst cs).
  Definition in_sites (l : list site) (r : sref) (k : str) : Prop := exists x, In x l /\ si_sheet x = r /\ In k (map fst (row_of O x)).
  Lemma in_sites_app a b r k : in_sites (a ++ b) r k <-> in_sites a r k \/ in_sites b r k.
  Proof.
    unfold in_sites. split.
    - intros (x & Hx & H). apply in_app_or in Hx as [Hx|Hx]; [left|right]; eauto.
    - intros [(x & Hx & H)|(x & Hx & H)]; exists x; (split; [apply in_or_app; auto|exact H]).
  Qed.
  Lemma fill_keys l : forall row k, In k (map fst (fill l row)) <-> In k (map fst row) \/ In k (map fst l).
  Proof.
    induction l as [|[k0 v0] l IH]; intros row k; [cbn; tauto|]. change (fill ((k0, v0) :: l) row) with (fill l (sset k0 v0 row)). rewrite IH. cbn [map In fst].
    rewrite sset_keys_gen. destruct (sget k0 row) eqn:E; [|rewrite in_app_iff; cbn; tauto]. apply sget_In in E. apply (in_map fst) in E. cbn in E. intuition (subst; auto).
  Qed.
  Lemma row_keys x k : In k (map fst (row_of O x)) <-> In k (map fst (si_ids x)) \/ In k (map fst (cells O (si_prefix x) (JO (si_obj x)))).
  Proof. unfold row_of. rewrite !fill_keys. cbn. tauto. Qed.

  (** ids are values, the field of the root id is used at the top only *)
  Notation idn := (po_id_name O).
  Notation rid := (po_root_id O).
  Fixpoint ids_ok (top : bool) (v : jv) : Prop :=
    match v with
    | JS _ => True
    | JA l => (fix all (l : list jv) : Prop := match l with [] => True | y :: l' => match y with JA _ => True | _ => ids_ok false y end /\ all l' end) l
    | JO d => (forall x, sget idn d = Some x -> leaf_cell O x <> None) /\
              (rid <> [] -> forall x, sget rid d = Some x -> top = true /\ leaf_cell O x <> None) /\
              (fix all (d : jobj) : Prop := match d with [] => True | (_, x) :: d' => ids_ok false x /\ all d' end) d
    end.
  Definition items_ok (l : list jv) : Prop := Forall (fun y => match y with JA _ => True | _ => ids_ok false y end) l.
  Lemma ids_ok_JA l : ids_ok false (JA l) -> items_ok l.
  Proof. cbn [ids_ok]. induction l as [|y l IH]; intros H; [constructor|]. destruct H as [H1 H2]. constructor; [exact H1|apply IH; exact H2]. Qed.
  Lemma ids_ok_JO top d : ids_ok top (JO d) -> (forall x, sget idn d = Some x -> leaf_cell O x <> None) /\
    (rid <> [] -> forall x, sget rid d = Some x -> top = true /\ leaf_cell O x <> None) /\ Forall (fun kv => ids_ok false (snd kv)) d.
  Proof.
    cbn [ids_ok]. intros (A & B & C). split; [exact A|]. split; [exact B|]. clear A B. induction d as [|[k x] d IH]; [constructor|]. destruct C as [C1 C2]. constructor; [exact C1|apply IH; exact C2].
  Qed.

  Lemma kept_all p k : kept O p k = true.
  Proof. unfold kept. destruct W as (_ & _ & _ & E). rewrite E. reflexivity. Qed.
  Lemma cell_here p d k x : sget k d = Some x -> leaf_cell O x <> None -> In (p ++ k) (map fst (cells_of O p d)).
  Proof.
    induction d as [|[k1 x1] d IH]; [discriminate|]. unfold sget, aget. cbn [cells_of]. rewrite kept_all, map_app, in_app_iff. destruct (str_eqb_spec k k1) as [->|Hk].
    - intros [= ->] Hl. left. destruct x as [s|l|e]; [left; reflexivity|destruct (leaf_cell O (JA l)); [left; reflexivity|contradiction]|contradiction].
    - intros Hs Hl. right. apply IH; assumption.
  Qed.
  Lemma own_ids_cols r0 d parent ids s ids' s' : sheet_at r0 s <> None -> own_ids O r0 d parent ids s = (ids', s') ->
    cols s (fun r k => r = r0 /\ ((rid <> [] /\ sget rid d <> None /\ k = rid) \/ (sget idn d <> None /\ k = parent ++ idn))) s'.
  Proof.
    intros Hx. unfold own_ids.
    assert (G : forall ids1 s1, cols s (fun r k => r = r0 /\ (rid <> [] /\ sget rid d <> None /\ k = rid)) s1 ->
      match sget idn d with
      | Some v => let (k, s2) := use_key O r0 (parent ++ idn) s1 in (sset k v ids1, s2)
      | None => (ids1, s1)
      end = (ids', s') -> cols s (fun r k => r = r0 /\ ((rid <> [] /\ sget rid d <> None /\ k = rid) \/ (sget idn d <> None /\ k = parent ++ idn))) s').
    { intros ids1 s1 H1 H. destruct (sget idn d); [|injection H as _ <-; eapply cols_weak; [exact H1|]; intros r k (A & B); auto].
      pose proof (cols_key r0 (parent ++ idn) s1) as K. destruct (use_key O r0 (parent ++ idn) s1) as [k' s2]. injection H as _ <-.
      eapply cols_trans; [exact H1|exact K| |]; [intros r k (A & B); auto|intros r k (A & B); split; [exact A|right; split; [discriminate|exact B]]]. }
    destruct rid as [|c rr] eqn:Er; [intros H; apply (G ids s); [apply cols_refl|exact H]|].
    destruct (sget (c :: rr) d) eqn:Es; [|intros H; apply (G ids s); [apply cols_refl|exact H]].
    pose proof (cols_key r0 (c :: rr) s) as K. destruct (use_key O r0 (c :: rr) s) as [k' s2]. intros H. apply (G (sset k' j ids) s2); [|exact H].
    eapply cols_weak; [exact K|]. intros r k (A & B). split; [exact A|]. split; [discriminate|]. split; [discriminate|exact B].
  Qed.
  Lemma parent_ids_cols r0 ids : forall row s s' row' w, add_parent_ids O r0 ids row s = Ok (s', row') w -> cols s (on r0 ids) s'.
  Proof.
    induction ids as [|[k0 v0] ids IH]; intros row s s' row' w H; cbn [add_parent_ids] in H; [injection H as <- _ _; apply cols_refl|].
    pose proof (cols_key r0 k0 s) as K. destruct (use_key O r0 k0 s) as [k' s1]. apply bind_ok in H as (v' & w1 & w2 & _ & H & _). apply IH in H.
    eapply cols_trans; [exact K|exact H| |]; unfold on; cbn; intros r k (A & B); auto.
  Qed.

  Definition pv_cols (v : jv) : Prop := forall d, v = JO d -> forall r0 parent ids top s s' row' w, sheet_at r0 s <> None ->
    (forall row, parse_value O v r0 parent (Some row) ids false s = Ok (s', row') w -> ids_ok false v -> keys_in row (hdr r0 s) ->
       cols s (fun r k => on r0 (cells O parent v) r k \/ in_sites (inner_sites O parent ids v) r k) s') /\
    (parse_value O v r0 parent None ids top s = Ok (s', row') w -> forall b, (b = true -> parent = []) -> ids_ok b v ->
       cols s (fun r k => on r0 (cells O parent v) r k \/ (top = true /\ on r0 ids r k) \/ in_sites (inner_sites O parent ids v) r k) s').

  Lemma items_cols p k0 ids l : Forall pv_cols l -> items_ok l -> forall s s' w, items (parse_value O) (sub_sheet_name O p k0) (p ++ k0 ++ u "/0/") ids l s = Ok s' w ->
    sheet_at (Some (sub_sheet_name O p k0)) s <> None -> cols s (in_sites (item_sites O p k0 ids l)) s'.
  Proof.
    intros HF. induction HF as [|v l Hv _ IH]; intros HI s s' w H Hx; cbn [items] in H; cbn [item_sites]; [injection H as <- _; apply cols_refl|].
    inversion HI as [|? ? HI1 HI2]; subst.
    assert (Bad : (forall d, v <> JO d) -> bind (parse_value O v (Some (sub_sheet_name O p k0)) (p ++ k0 ++ u "/0/") None ids true s)
        (fun r => items (parse_value O) (sub_sheet_name O p k0) (p ++ k0 ++ u "/0/") ids l (fst r)) = Ok s' w -> False).
    { intros Hn Hb. destruct v; cbn [parse_value bind] in Hb; try discriminate. eapply Hn; reflexivity. }
    destruct v as [sc|la|d].
    - destruct sc; try (exfalso; apply Bad in H; [exact H|discriminate]). cbn [app]. eapply IH; eassumption.
    - exfalso. apply Bad in H; [exact H|discriminate].
    - clear Bad. apply bind_ok in H as ([s1 row1] & w1 & w2 & H1 & H & _). cbn [fst] in H.
      pose proof (proj1 (pv_ok_all O (JO d)) _ _ _ _ _ _ _ _ _ H1) as T. destruct T as [T _]; [exact Hx|discriminate|].
      destruct (Hv d eq_refl (Some (sub_sheet_name O p k0)) (p ++ k0 ++ u "/0/") ids true s s1 row1 w1 Hx) as [_ B].
      apply (fun X => B X false ltac:(discriminate) HI1) in H1. apply IH in H; [|exact HI2|eapply trace_exists; eassumption].
      eapply cols_trans; [exact H1|exact H| |].
      + intros r k Hk. apply in_sites_app. left. apply in_sites_app.
        destruct Hk as [[-> Hk]|[[_ [-> Hk]]|Hk]]; [right|right|left; exact Hk]; (eexists; split; [left; reflexivity|]; split; [reflexivity|]; apply row_keys; cbn [si_ids si_prefix si_obj]; auto).
      + intros r k Hk. apply in_sites_app. right. exact Hk.
  Qed.

  Lemma entries_cols r0 ids d : Forall (fun kv => pv_cols (snd kv) /\ forall l, snd kv = JA l -> Forall pv_cols l) d -> Forall (fun kv => ids_ok false (snd kv)) d ->
    forall parent row s s' row' w, entries O (parse_value O) r0 false ids d parent row s = Ok (s', row') w -> sheet_at r0 s <> None -> keys_in row (hdr r0 s) ->
    cols s (fun r k => on r0 (cells_of O parent d) r k \/ in_sites (sites_of O parent ids d) r k) s'.
  Proof.
    intros HF. induction HF as [|[key value] d [Hv Ha] _ IH]; intros HI parent row s s' row' w H Hx Hk; cbn [entries] in H; [injection H as <- _ _; apply cols_refl|].
    inversion HI as [|? ? HI1 HI2]; subst. specialize (IH HI2). cbn [snd] in *.
    cbn [andb] in H. set (s0 := see_path _ s) in *.
    assert (T0 : trace O s s0) by (apply t_see, t_nil).
    assert (Hx0 : sheet_at r0 s0 <> None) by (eapply trace_exists; eassumption).
    assert (Hk0 : keys_in row (hdr r0 s0)) by (eapply trace_keys_in; eassumption).
    assert (C0 : cols s (fun _ _ => False) s0) by apply cols_see.
    assert (Ep : preserve_skips O (replace (u "/0") [] parent) (replace (u "/0") [] parent ++ key) = false).
    { unfold preserve_skips. destruct W as (_ & _ & _ & E). rewrite E. reflexivity. }
    rewrite Ep in H. destruct P as (_ & _ & Ex & _). rewrite Ex in H. cbn [andb] in H. clear Ep Ex.
    cbn [cells_of sites_of]. rewrite kept_all.
    assert (C : forall v, (let (s2, row2) := set_cell O r0 (parent ++ key) v row s0 in entries O (parse_value O) r0 false ids d parent row2 s2) = Ok (s', row') w ->
      forall cs ss, In (parent ++ key) (map fst cs) ->
      cols s (fun r k => on r0 (cs ++ cells_of O parent d) r k \/ in_sites (ss ++ sites_of O parent ids d) r k) s').
    { intros v Hc cs ss Hin. destruct (set_cell O r0 (parent ++ key) v row s0) as [s1 row1] eqn:E.
      destruct (set_cell_trace O _ _ _ _ _ _ _ E Hx0 Hk0) as [T1 K1]. rewrite (set_cell_plain O P) in E by exact Hx0. injection E as <- <-.
      apply IH in Hc; [|eapply trace_exists; [exact T1|exact Hx0]|exact K1].
      eapply (cols_trans _ _ _ (fun r k => r = r0 /\ k = parent ++ key)); [eapply cols_trans; [exact C0|apply cols_key|intros ? ? []|intros r k A; exact A]|exact Hc| |].
      - intros r k [-> ->]. left. split; [reflexivity|]. rewrite map_app. apply in_or_app. left. exact Hin.
      - intros r k [[-> Q]|Q]; [left; split; [reflexivity|]; rewrite map_app; apply in_or_app; auto|right; apply in_sites_app; auto]. }
    destruct value as [v|l|d0].
    - destruct (basic v); [|discriminate]. apply (C (JS v) H [(parent ++ key, JS v)] []). left. reflexivity.
    - destruct (forallb jbasic l) eqn:E1; [rewrite (leaf_basic O l E1); apply (C _ H _ []); left; reflexivity|].
      destruct (forallb inner_array l) eqn:E2; [rewrite (leaf_arrays O l E1 E2); apply (C _ H _ []); left; reflexivity|]. clear C.
      assert (El : leaf_cell O (JA l) = None) by (unfold leaf_cell; rewrite E1, E2; reflexivity). rewrite El.
      apply bind_ok in H as ([sr rowr] & wr1 & wr2 & Hr & H & _). cbn [fst snd] in H.
      assert (Q : sr = s0 /\ rowr = row). { unfold rollup in Hr. destruct W as (_ & E & _). rewrite E in Hr. injection Hr as <- <- _. auto. }
      destruct Q as [-> ->]. clear Hr. apply bind_ok in H as (s1 & w3 & w4 & H1 & H2 & _).
      assert (T1 : trace O (ensure_sub (sub_sheet_name O parent key) s0) s1).
      { eapply items_trace; [|exact H1|apply ensure_sub_at]. apply Forall_forall. intros y _. apply (pv_ok_all O). }
      assert (T2 : trace O s0 s1) by (eapply trace_trans; [apply t_sub, t_nil|exact T1]).
      apply (items_cols parent key ids l (Ha l eq_refl) (ids_ok_JA _ HI1)) in H1; [|apply ensure_sub_at].
      apply IH in H2; [|eapply trace_exists; eassumption|eapply trace_keys_in; eassumption].
      eapply (cols_trans _ _ _ (fun r k => in_sites (item_sites O parent key ids l) r k)); [|exact H2| |].
      + eapply cols_trans; [exact C0| |intros ? ? []|intros r k A; exact A]. eapply cols_trans; [apply (cols_sub (sub_sheet_name O parent key) s0 (fun _ _ => False))|exact H1|intros ? ? []|intros r k A; exact A].
      + intros r k A. right. apply in_sites_app. left. exact A.
      + intros r k [[-> A]|A]; [left; split; [reflexivity|]; rewrite map_app; apply in_or_app; auto|right; apply in_sites_app; auto].
    - clear C. apply bind_ok in H as ([s1 row1] & w1 & w2 & H1 & H & _). cbn [fst snd] in *.
      destruct (proj1 (pv_ok_all O (JO d0)) _ _ _ _ _ _ _ _ _ H1) as [T1 K]; [exact Hx0|intros x [= <-]; exact Hk0|]. specialize (K ltac:(discriminate)).
      destruct (Hv d0 eq_refl r0 (parent ++ key ++ [slash_c]) ids false s0 s1 row1 w1 Hx0) as [A _]. apply A in H1; [|exact HI1|exact Hk0].
      apply IH in H; [|eapply trace_exists; eassumption|exact K].
      eapply cols_trans; [eapply cols_trans; [exact C0|exact H1|intros ? ? []|intros r k B; exact B]|exact H| |].
      + intros r k [[-> B]|B]; [left; split; [reflexivity|]; rewrite map_app; apply in_or_app; left; exact B|right; apply in_sites_app; left; exact B].
      + intros r k [[-> B]|B]; [left; split; [reflexivity|]; rewrite map_app; apply in_or_app; right; exact B|right; apply in_sites_app; right; exact B].
  Qed.
  Lemma own_covered r0 d parent b r k : ids_ok b (JO d) -> (b = true -> parent = []) ->
    r = r0 /\ ((rid <> [] /\ sget rid d <> None /\ k = rid) \/ (sget idn d <> None /\ k = parent ++ idn)) -> on r0 (cells_of O parent d) r k.
  Proof.
    intros HI Hb (-> & H). apply ids_ok_JO in HI as (A & B & _). split; [reflexivity|]. destruct H as [(N & Q & ->)|(Q & ->)].
    - destruct (sget rid d) as [x|] eqn:E; [|contradiction]. destruct (B N x eq_refl) as [Hbt Hl]. rewrite (Hb Hbt). apply (cell_here [] d rid x E Hl).
    - destruct (sget idn d) as [x|] eqn:E; [|contradiction]. apply (cell_here parent d idn x E (A x eq_refl)).
  Qed.
  Lemma dict_cols d : Forall (fun kv => pv_cols (snd kv) /\ forall l, snd kv = JA l -> Forall pv_cols l) d -> pv_cols (JO d).
  Proof.
    intros HF d' [= <-] r0 parent ids top s s' row' w Hx. split.
    - intros row H HI Hk. cbn [parse_value] in H. unfold dict in H. rewrite (geo_plain O P) in H. unfold bind at 1, ret at 1 in H.
      assert (Ef : filtered_out O parent d = false) by (unfold filtered_out; destruct W as (_ & _ & E & _); rewrite E; destruct parent; reflexivity).
      rewrite Ef in H. unfold bind at 1, ret at 1 in H. cbn [fst snd] in H.
      destruct (own_ids O r0 d parent ids s) as [ids' s1] eqn:E. pose proof (own_ids_cols _ _ _ _ _ _ _ Hx E) as C1.
      pose proof (own_ids_trace O _ _ _ _ _ _ _ E) as T1. apply (own_ids_plain O P) in E as [-> _]; [|exact Hx].
      destruct (entries O (parse_value O) r0 false (scope O parent d ids) d parent row s1) as [[s2 row2] w2|] eqn:E2; [|discriminate].
      cbn in H. injection H as <- _ _. rewrite cells_JO, sites_JO.
      apply (entries_cols r0 _ d HF (proj2 (proj2 (ids_ok_JO _ _ HI)))) in E2; [|eapply trace_exists; eassumption|eapply trace_keys_in; eassumption].
      eapply cols_trans; [exact C1|exact E2| |intros r k A; exact A]. intros r k A. left. apply (own_covered r0 d parent false); [exact HI|discriminate|exact A].
    - intros H b Hb HI. cbn [parse_value] in H. unfold dict in H. rewrite (geo_plain O P) in H. unfold bind at 1, ret at 1 in H.
      assert (Ef : filtered_out O parent d = false) by (unfold filtered_out; destruct W as (_ & _ & E & _); rewrite E; destruct parent; reflexivity).
      rewrite Ef in H. destruct (bind _ _) as [[sa rowa] wa|] eqn:H1 in H; [|discriminate]. injection H as <- _ _.
      apply bind_ok in H1 as ([s0 row0] & w1 & w2 & H0 & H & _). cbn [fst snd] in H.
      assert (G0 : trace O s s0 /\ keys_in row0 (hdr r0 s0) /\ cols s (fun r k => top = true /\ on r0 ids r k) s0).
      { destruct top.
        - destruct (add_parent_ids_trace O _ _ _ _ _ _ _ H0 Hx (keys_in_nil _)) as [T K]. split; [exact T|]. split; [exact K|]. eapply cols_weak; [eapply parent_ids_cols; exact H0|auto].
        - injection H0 as <- <- _. split; [constructor|]. split; [apply keys_in_nil|apply cols_refl]. }
      destruct G0 as (T0 & K0 & C0). assert (Hx0 : sheet_at r0 s0 <> None) by (eapply trace_exists; eassumption).
      destruct (own_ids O r0 d parent ids s0) as [ids' s1] eqn:E. pose proof (own_ids_cols _ _ _ _ _ _ _ Hx0 E) as C1.
      pose proof (own_ids_trace O _ _ _ _ _ _ _ E) as T1. apply (own_ids_plain O P) in E as [-> _]; [|exact Hx0].
      apply bind_ok in H as ([s2 row2] & w3 & w4 & H2 & H & _). cbn [fst snd] in H.
      assert (Hx1 : sheet_at r0 s1 <> None) by (eapply trace_exists; eassumption).
      assert (K1 : keys_in row0 (hdr r0 s1)) by (eapply trace_keys_in; eassumption).
      assert (HF' : Forall (fun kv : str * jv => pv_ok O (snd kv) /\ forall l, snd kv = JA l -> Forall (pv_ok O) l) d).
      { apply Forall_forall. intros kv _. apply (pv_ok_all O). }
      destruct (entries_trace O r0 false _ d HF' _ _ _ _ _ _ H2 Hx1 K1) as [T2 K2].
      apply (entries_cols r0 _ d HF (proj2 (proj2 (ids_ok_JO _ _ HI)))) in H2; [|exact Hx1|exact K1].
      assert (Hx2 : sheet_at r0 s2 <> None) by (eapply trace_exists; eassumption).
      destruct (sheet_at r0 s2) as [sh|] eqn:Es; [|congruence].
      pose proof (cols_line r0 sh row2 s2 (fun _ _ => False) Es) as C3. unfold add_row in C3. destruct (append_line row2 sh (p_store s2)) as [sh' st]. injection H as <- _ _.
      rewrite cells_JO, sites_JO.
      eapply cols_trans; [exact C0| |intros r k A; right; left; exact A|intros r k A; exact A].
      eapply cols_trans; [exact C1| |intros r k A; left; exact (own_covered r0 d parent b r k HI Hb A)|intros r k A; exact A].
      eapply cols_trans; [exact H2|exact C3| |intros ? ? []]. intros r k [A|A]; auto.
  Qed.
  Lemma pv_cols_all v : pv_cols v /\ forall l, v = JA l -> Forall pv_cols l.
  Proof.
    induction v as [s|l IH|d IH] using jv_ind'.
    - split; [|discriminate]. intros d Q; discriminate Q.
    - split; [intros d Q; discriminate Q|]. intros l' [= <-]. eapply Forall_impl; [|exact IH]. intros v [H _]. exact H.
    - split; [|discriminate]. apply dict_cols. exact IH.
  Qed.
  Lemma parse_list_cols l : forall num s s' w, parse_list O num l s = Ok s' w -> Forall (ids_ok true) l -> cols s (in_sites (sites O l)) s'.
  Proof.
    induction l as [|v l IH]; intros num s s' w H HI; cbn [parse_list] in H; [injection H as <- _; apply cols_refl|].
    inversion HI as [|? ? HI1 HI2]; subst. change (sites O (v :: l)) with (record_sites O v ++ sites O l).
    assert (G : forall num s s' w, parse_list O num l s = Ok s' w -> cols s (in_sites (record_sites O v ++ sites O l)) s').
    { intros n1 s1 s2 w1 H1. eapply cols_weak; [eapply IH; eassumption|]. intros r k A. apply in_sites_app. right. exact A. }
    assert (G' : forall w0, bind (warn1 w0) (fun _ => parse_list O (num + 1)%N l s) = Ok s' w -> cols s (in_sites (record_sites O v ++ sites O l)) s').
    { intros w0 A. apply bind_ok in A as (t & w1 & w2 & _ & A & _). eapply G; exact A. }
    destruct v as [[]|l0|d]; try exact (G' _ H); [eapply G; exact H|].
    apply bind_ok in H as ([s1 x1] & w1 & w2 & H1 & H & _). cbn [fst] in H.
    destruct (proj1 (pv_cols_all (JO d)) d eq_refl None [] [] false s s1 x1 w1) as [_ B]; [discriminate|]. apply (fun X => B X true ltac:(reflexivity) HI1) in H1.
    eapply cols_trans; [exact H1|eapply G; exact H| |intros r k A; exact A].
    intros r k A. apply in_sites_app. left. unfold record_sites. apply in_sites_app. destruct A as [[-> A]|[[Q _]|A]]; [right|discriminate|left; exact A].
    eexists. split; [left; reflexivity|]. split; [reflexivity|]. apply row_keys. right. exact A.
  Qed.
  (** the columns a sheet starts with *)
  Theorem flatten_used drop pi l s w : flatten O drop pi l = Ok s w -> name_free O s -> Forall (ids_ok true) l ->
    forall t k, In t (tables s) -> In k (tb_header t) ->
      (exists row, In row (tb_rows t) /\ In k (map fst row)) \/ exists sc, po_schema O = Some sc /\ (In k (header (sci_main sc)) \/ exists n x, In (n, x) (sci_subs sc) /\ In k (header x)).
  Proof.
    intros H HF HI t k Ht Hk. destruct (flatten_inv _ _ _ _ _ _ H) as (s0 & w0 & H0 & ->). pose proof (simple_ready O P) as SR.
    pose proof (parse_list_trace O _ _ _ _ _ H0) as T. pose proof (trace_names O _ _ T (start_names O drop SR)) as Hn.
    pose proof (parse_list_cols l _ _ _ _ H0 HI) as C.
    destruct (table_sheet _ t (drop_names drop _ Hn) Ht) as (r & x & Hx & Et). pose proof (drop_sheet drop r s0 x Hn Hx) as Hx0.
    assert (Hr : sheet_ref (drop_empty drop s0) t r).
    { destruct r as [n|]; cbn [sheet_ref]; [|subst t; cbn in Hx; injection Hx as <-; reflexivity]. subst t. split; [|reflexivity]. unfold sub_tables. apply in_map_iff. exists (n, x). split; [reflexivity|]. apply sget_In. exact Hx. }
    pose proof (flatten_sites O P drop pi l _ w (proj1 (proj2 (proj2 W))) H HF r t Hr) as Er.
    destruct (C r k) as [A|(y & Hy & Ey & A)].
    - unfold hdr. rewrite Hx0. subst t. exact Hk.
    - right. unfold hdr, start in A. cbn [new_persistent] in A. destruct (po_schema O) as [sc|]; [|destruct r; destruct A]. exists sc. split; [reflexivity|]. destruct r as [n|]; cbn in A.
      + rewrite smap_get in A. destruct (sget n (sci_subs sc)) as [z|] eqn:E; [|destruct A]. cbn in A. right. exists n, z. split; [apply sget_In; exact E|].
        destruct (drop_header drop z) as (e & Eh). rewrite Eh. apply in_or_app. left. exact A.
      + left. destruct drop; cbn in A; [|exact A]. unfold header in *. cbn in A. rewrite app_nil_r in A. apply in_app_or in A as [A|A]; apply in_or_app; [left; exact A|right; apply in_or_app; left; exact A].
    - left. exists (row_of O y). split; [|exact A]. rewrite Er. apply in_map. apply filter_In. split; [exact Hy|]. rewrite Ey. apply oname_eqb_refl.
  Qed.
  Lemma ids_ok_at v : clean v -> ids_are_values O v -> (forall d, v = JO d -> ids_ok true v).
  Proof.
    assert (G : forall v, clean v -> forall b, (forall Q d, at_path v Q = Some (JO d) -> (forall x, sget idn d = Some x -> leaf_cell O x <> None) /\ (rid <> [] -> forall x, sget rid d = Some x -> b = true /\ Q = [] /\ leaf_cell O x <> None)) ->
      (forall l, v = JA l -> forall y Q d, In y l -> at_path y Q = Some (JO d) -> (forall x, sget idn d = Some x -> leaf_cell O x <> None) /\ (rid <> [] -> forall x, sget rid d = Some x -> False)) -> ids_ok b v).
    { clear v. induction v as [s|l IH|d IH] using jv_ind'; intros Hc b H1 H2; [exact I| |].
      - cbn [ids_ok]. specialize (H2 l eq_refl). clear H1. cbn [clean] in Hc. induction IH as [|y l Hy _ IHl]; [exact I|]. destruct Hc as [Hc1 Hc2]. split.
        + assert (Q : ids_ok false y \/ exists z, y = JA z).
          { destruct y as [|z|]; [left; exact I|right; eauto|left]. apply Hy; [exact Hc1| |discriminate]. intros Q e Hat. destruct (H2 _ Q e (or_introl eq_refl) Hat) as [A B]. split; [exact A|]. intros N x Hx. destruct (B N x Hx). }
          destruct y; [exact I|exact I|]. destruct Q as [Q|(z & Q)]; [exact Q|discriminate].
        + apply IHl; [exact Hc2|]. intros y' Q d Hin. apply H2. right. exact Hin.
      - cbn [ids_ok]. destruct (H1 [] d eq_refl) as [A B]. split; [exact A|]. split; [intros N x Hx; destruct (B N x Hx) as (? & ? & ?); auto|]. clear A B H2. cbn [clean] in Hc. destruct Hc as [Hn Hc].
        assert (H1' : forall k x, In (k, x) d -> forall o Q e, at_path (JO [(k, x)]) ((k, o) :: Q) = Some (JO e) -> (forall z, sget idn e = Some z -> leaf_cell O z <> None) /\ (rid <> [] -> forall z, sget rid e = Some z -> False)).
        { intros k x Hin o Q e Hat. destruct (H1 ((k, o) :: Q) e) as [A B].
          - cbn [at_path] in *. rewrite (In_sget k x d Hn Hin). unfold sget, aget in Hat. rewrite str_eqb_refl in Hat. exact Hat.
          - split; [exact A|]. intros N z Hz. destruct (B N z Hz) as (_ & Q0 & _). discriminate. }
        clear H1 Hn. induction IH as [|[k x] d Hx _ IHd]; [exact I|]. destruct Hc as (_ & Hcx & Hc). split; [|apply IHd; [exact Hc|intros k' x' Hin; apply H1'; right; exact Hin]].
        specialize (H1' k x (or_introl eq_refl)). apply Hx; [exact Hcx| |].
        + intros Q e Hat. destruct (H1' None Q e) as [A B]; [cbn [at_path]; unfold sget, aget; rewrite str_eqb_refl; exact Hat|]. split; [exact A|]. intros N z Hz. destruct (B N z Hz).
        + intros l El y Q e Hin Hat. cbn [snd] in El. subst x. apply In_nth_error in Hin as (i & Hi). apply (H1' (Some i) Q e). cbn [at_path]. unfold sget, aget. rewrite str_eqb_refl, Hi. exact Hat. }
    intros Hc H d ->. apply G; [exact Hc| |discriminate]. intros Q e Hat. destruct (H Q e Hat) as [A B]. split; [exact A|]. intros N x Hx. destruct (B N x Hx). auto.
  Qed.
  (** columns of records *)
  Theorem columns_used drop pi docs s w : flatten O drop pi (map JO docs) = Ok s w -> name_free O s -> Forall (fun d => clean (JO d) /\ ids_are_values O (JO d)) docs ->
    forall t k, In t (tables s) -> In k (tb_header t) ->
      (exists row, In row (tb_rows t) /\ In k (map fst row)) \/ exists sc, po_schema O = Some sc /\ (In k (header (sci_main sc)) \/ exists n x, In (n, x) (sci_subs sc) /\ In k (header x)).
  Proof.
    intros H HF HI. apply (flatten_used drop pi (map JO docs) s w H HF). apply Forall_map. eapply Forall_impl; [|exact HI]. intros d [A B]. eapply ids_ok_at; [exact A|exact B|reflexivity].
  Qed.
End Used.
