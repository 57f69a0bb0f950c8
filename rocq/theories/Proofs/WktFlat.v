(** Flattening with WKT conversion is flattening of the document with the geometries as text. *)
From Coq Require Import Permutation.
From Verif.Base Require Import PyStr PyVal PyDict Outcome.
From Verif.Model Require Import Flatten.
From Verif.Spec Require Import Wkt.
From Verif.Proofs Require Import TreeInd Erase JvInd FlattenTrace.

Section W.
  Variable O : popts.
  Variable shape : jobj -> option str.
  Hypothesis HW : po_wkt O = true.
  Hypothesis HS : po_shape O = Some shape.
  Hypothesis HR : po_rollup O = [].
  Hypothesis HX : po_xml O = false.
  Hypothesis Hid : ~ In (po_id_name O) [u "type"; u "coordinates"].
  Hypothesis Hrid : ~ In (po_root_id O) [u "type"; u "coordinates"].
  Notation O' := (without_wkt O).
  Notation conv := (in_wkt shape).
  Notation dr := (drawable shape (keep_of O)).
  Definition cd (d : jobj) : jobj := map (fun kv => (fst kv, conv (snd kv))) d.

  Lemma sget_cd k d : sget k (cd d) = option_map conv (sget k d).
  Proof. induction d as [|[k' v] d IH]; [reflexivity|]. unfold sget, cd in *. cbn [map aget fst snd]. destruct (str_eqb k k'); [reflexivity|exact IH]. Qed.
  Lemma shas_cd k d : shas k (cd d) = shas k d.
  Proof. unfold shas, ahas. change (aget str_eqb k (cd d)) with (sget k (cd d)). rewrite sget_cd. unfold sget. destruct (aget str_eqb k d); reflexivity. Qed.
  Lemma geometry_cd d : geometry (cd d) = geometry d.
  Proof. unfold geometry. rewrite !shas_cd. reflexivity. Qed.

  (** not a geometry itself *)
  Definition plain (v : jv) : Prop := match v with JO d => geometry d = false | _ => True end.
  Lemma dr_false v : dr false v -> plain v.
  Proof. inversion 1; subst; simpl; auto. Qed.
  Lemma two_keys d : Permutation (map fst d) [u "type"; u "coordinates"] -> geometry d = true.
  Proof.
    intros H. unfold geometry, shas, ahas. apply andb_true_intro. split.
    - assert (Hin : In (u "type") (map fst d)) by (eapply Permutation_in; [apply Permutation_sym; exact H|left; reflexivity]).
      change (aget str_eqb (u "type") d) with (sget (u "type") d). destruct (sget (u "type") d) eqn:E; [reflexivity|]. apply sget_None in E. contradiction.
    - assert (Hin : In (u "coordinates") (map fst d)) by (eapply Permutation_in; [apply Permutation_sym; exact H|right; left; reflexivity]).
      change (aget str_eqb (u "coordinates") d) with (sget (u "coordinates") d). destruct (sget (u "coordinates") d) eqn:E; [reflexivity|]. apply sget_None in E. contradiction.
  Qed.
  Lemma conv_plain d : geometry d = false -> conv (JO d) = JO (cd d).
  Proof. intros H. cbn [in_wkt]. rewrite H. reflexivity. Qed.

  Lemma jbasic_conv v : plain v -> jbasic (conv v) = jbasic v.
  Proof. destruct v as [s|l|d]; try reflexivity. intros H. rewrite conv_plain by exact H. reflexivity. Qed.
  Lemma all_basic_conv l : (forall v, In v l -> plain v) -> forallb jbasic (map conv l) = forallb jbasic l.
  Proof. induction l as [|v l IH]; intros H; [reflexivity|]. cbn [map forallb]. rewrite jbasic_conv by (apply H; left; reflexivity). rewrite IH by (intros; apply H; right; assumption). reflexivity. Qed.
  Lemma basic_same v : jbasic v = true -> conv v = v.
  Proof. destruct v as [s|l|d]; try reflexivity; discriminate. Qed.
  Lemma all_basic_same l : forallb jbasic l = true -> map conv l = l.
  Proof. induction l as [|v l IH]; [reflexivity|]. cbn [forallb map]. intros H. apply andb_prop in H as [H1 H2]. rewrite basic_same, IH by assumption. reflexivity. Qed.
  Lemma inner_conv v : dr false v -> inner_array (conv v) = inner_array v.
  Proof.
    intros H. pose proof (dr_false _ H) as Hp. destruct v as [s|l|d]; try reflexivity; [|rewrite conv_plain by exact Hp; reflexivity].
    cbn [in_wkt inner_array]. apply all_basic_conv. inversion H as [|? ? Hl| |]; subst. intros v Hv. apply dr_false, Hl, Hv.
  Qed.
  Lemma all_inner_conv l : (forall v, In v l -> dr false v) -> forallb inner_array (map conv l) = forallb inner_array l.
  Proof. induction l as [|v l IH]; intros H; [reflexivity|]. cbn [map forallb]. rewrite inner_conv by (apply H; left; reflexivity). rewrite IH by (intros; apply H; right; assumption). reflexivity. Qed.
  Lemma all_inner_same l : forallb inner_array l = true -> map conv l = l.
  Proof.
    induction l as [|v l IH]; [reflexivity|]. cbn [forallb map]. intros H. apply andb_prop in H as [H1 H2]. rewrite IH by exact H2. f_equal.
    destruct v as [s|m|d]; try reflexivity; [|discriminate H1]. cbn [in_wkt]. cbn [inner_array] in H1. rewrite all_basic_same by exact H1. reflexivity.
  Qed.

  (** texts that do not begin with a slash *)
  Definition unslashed (p : str) : Prop := match p with [] => True | c :: _ => c <> 47%N end.
  Lemma head_ok p k q : unslashed p -> k <> [] -> ~ In 47%N k -> exists c r, p ++ k ++ q = c :: r /\ c <> 47%N.
  Proof.
    intros Hp Hk Hn. destruct p as [|c p]; [|exists c; eexists; split; [reflexivity|exact Hp]]. destruct k as [|c k]; [congruence|].
    exists c. eexists. split; [reflexivity|]. intros ->. apply Hn. left. reflexivity.
  Qed.
  Lemma strip_parent p k : unslashed p -> k <> [] -> ~ In 47%N k -> strip_slash (p ++ k ++ [slash_c]) = p ++ k.
  Proof.
    intros Hp Hk Hn. unfold strip_slash, strip.
    destruct (head_ok p k [slash_c] Hp Hk Hn) as (c & r & E & Hc).
    assert (Hl : lstrip is_slash (p ++ k ++ [slash_c]) = p ++ k ++ [slash_c]).
    { rewrite E. cbn [lstrip]. unfold is_slash. destruct (N.eqb_spec c slash_c); [contradiction|reflexivity]. }
    rewrite Hl.
    assert (Hr : forall x, x <> [] -> last x 0%N <> 47%N -> rstrip is_slash (x ++ [slash_c]) = x).
    { intros x Hx Hlast. unfold rstrip. rewrite rev_app_distr. cbn [rev app lstrip]. change (is_slash slash_c) with true. cbv iota.
      destruct (rev x) as [|c0 r0] eqn:E0; [apply (f_equal (@rev N)) in E0; rewrite rev_involutive in E0; contradiction|].
      assert (Ec : last x 0%N = c0). { apply (f_equal (@rev N)) in E0. rewrite rev_involutive in E0. cbn [rev] in E0. rewrite E0. apply last_last. }
      cbn [lstrip]. unfold is_slash. destruct (N.eqb_spec c0 slash_c) as [->|]; [exfalso; apply Hlast; exact Ec|].
      apply (f_equal (@rev N)) in E0. rewrite rev_involutive in E0. symmetry. exact E0. }
    rewrite app_assoc.
    assert (Hx : p ++ k <> []) by (intros Q; apply app_eq_nil in Q as [_ Q]; contradiction).
    assert (Hlast : last (p ++ k) 0%N <> 47%N).
    { destruct (exists_last Hk) as (k0 & c0 & ->). rewrite app_assoc, last_last. intros ->. apply Hn. apply in_or_app. right. left. reflexivity. }
    exact (Hr _ Hx Hlast).
  Qed.
  Lemma unslashed_app p k : unslashed p -> k <> [] -> ~ In 47%N k -> forall q, unslashed (p ++ k ++ q).
  Proof.
    intros Hp Hk Hn q. destruct p as [|c p]; [|exact Hp]. destruct k as [|c k]; [congruence|]. simpl. intros ->. apply Hn. left. reflexivity.
  Qed.

  (** a geometry as the value of a field *)
  Lemma entries_geo rec r ids d parent row s : (forall k, In k (map fst d) -> In k [u "type"; u "coordinates"]) ->
    entries O rec r true ids d parent row s = ret (s, row).
  Proof.
    induction d as [|[k v] d IH]; intros H; [reflexivity|]. cbn [entries].
    assert (E : true && (str_eqb k (u "type") || str_eqb k (u "coordinates")) = true).
    { destruct (H k (or_introl eq_refl)) as [<-|[<-|[]]]; reflexivity. }
    rewrite E. apply IH. intros k' Hk. apply H. right. exact Hk.
  Qed.
  Lemma geometry_value d t r parent key row ids s :
    Permutation (map fst d) [u "type"; u "coordinates"] -> shape d = Some t -> unslashed parent -> key <> [] -> ~ In 47%N key ->
    parse_value O (JO d) r (parent ++ key ++ [slash_c]) (Some row) ids false s = ret (set_cell O r (parent ++ key) (JS (SStr t)) row s).
  Proof.
    intros Hd Ht Hp Hk Hn. cbn [parse_value]. unfold dict, geo. rewrite HW, HS. pose proof (two_keys _ Hd) as Hg. unfold geometry in Hg.
    apply andb_prop in Hg as [G1 G2]. rewrite G1, G2. cbn [andb]. rewrite (strip_parent _ _ Hp Hk Hn). rewrite Ht. unfold set_cell.
    destruct (use_key O r (parent ++ key) s) as [k s']. rewrite bind_ret_l. cbv zeta iota beta.
    assert (Ef : filtered_out O (parent ++ key ++ [slash_c]) d = false).
    { unfold filtered_out. destruct (head_ok _ _ [slash_c] Hp Hk Hn) as (c & q & -> & _). reflexivity. }
    rewrite Ef, bind_ret_l. cbn [fst snd].
    assert (Hno : forall x, ~ In x [u "type"; u "coordinates"] -> sget x d = None).
    { intros x Hx. apply sget_None. intros Q. apply Hx. eapply Permutation_in; [exact Hd|exact Q]. }
    assert (Eo : own_ids O r d (parent ++ key ++ [slash_c]) ids s' = (ids, s')).
    { unfold own_ids. rewrite (Hno _ Hid). pose proof (Hno _ Hrid) as Hr. destruct (po_root_id O) as [|c q]; [reflexivity|]. rewrite Hr. reflexivity. }
    rewrite Eo. rewrite entries_geo; [apply bind_ret_l|]. intros x Hx. eapply Permutation_in; [exact Hd|exact Hx].
  Qed.

  Definition pv_eq (v : jv) : Prop := dr false v -> forall r parent row ids top s, unslashed parent ->
    parse_value O v r parent row ids top s = parse_value O' (conv v) r parent row ids top s.
  Lemma items_eq name path ids l : Forall pv_eq l -> (forall v, In v l -> dr false v) -> unslashed path -> forall s,
    items (parse_value O) name path ids l s = items (parse_value O') name path ids (map conv l) s.
  Proof.
    intros HF Hl Hp. induction HF as [|v l Hv HF IH]; intros s; [reflexivity|].
    assert (Hd : dr false v) by (apply Hl; left; reflexivity). specialize (Hv Hd).
    assert (IH' := IH (fun v' Hv' => Hl v' (or_intror Hv'))).
    pose proof (dr_false _ Hd) as Hpl. destruct v as [sc|m|d].
    - destruct sc; cbn [map in_wkt items]; try apply IH'; rewrite Hv by exact Hp; cbn [in_wkt]; apply bind_ext; intros a; apply IH'.
    - cbn [map items]. rewrite Hv by exact Hp. cbn [in_wkt]. cbn [items]. apply bind_ext; intros a; apply IH'.
    - cbn [map items]. rewrite Hv by exact Hp. rewrite conv_plain by exact Hpl. cbn [items]. apply bind_ext; intros a; apply IH'.
  Qed.
  Lemma rollup_none O0 r parent key l row s : po_rollup O0 = [] -> rollup O0 r parent key l row s = ret (s, row).
  Proof. intros H. unfold rollup. rewrite H. reflexivity. Qed.
  Lemma entries_eq r ids d : Forall (fun kv => pv_eq (snd kv) /\ forall l, snd kv = JA l -> Forall pv_eq l) d ->
    (forall k v, In (k, v) d -> k <> [] /\ ~ In 47%N k /\ dr true v) -> forall parent row s, unslashed parent ->
    entries O (parse_value O) r false ids d parent row s = entries O' (parse_value O') r false ids (cd d) parent row s.
  Proof.
    intros HF Hd parent row s Hp. revert row s. induction HF as [|[k v] d [Hv Hl] HF IH]; intros row s; [reflexivity|].
    assert (IH' := IH (fun k' v' Hv' => Hd k' v' (or_intror Hv'))). clear IH.
    destruct (Hd k v (or_introl eq_refl)) as (Hk & Hn & Hv'). cbn [snd] in Hv, Hl.
    change (cd ((k, v) :: d)) with ((k, conv v) :: cd d). cbn [entries andb]. cbv zeta.
    change (po_preserve O') with (po_preserve O). change (preserve_skips O') with (preserve_skips O). 
    set (s1 := see_path _ s). match goal with |- (if ?b then _ else _) = _ => destruct b end; [apply IH'|].
    change (po_xml O') with (po_xml O). rewrite HX. cbn [andb].
    inversion Hv' as [b sc Eb Es|b l Hl' Eb Es|d0 Hper Hs Eb|b d0 Hg Hd0 Eb Es]; subst.
    - cbn [in_wkt]. destruct (basic sc); [|reflexivity]. change (set_cell O') with (set_cell O). destruct (set_cell O r (parent ++ k) (JS sc) row s1) as [s2 row2]. apply IH'.
    - cbn [in_wkt]. rewrite all_basic_conv by (intros x Hx; apply dr_false, Hl', Hx). destruct (forallb jbasic l) eqn:Eb.
      { rewrite all_basic_same by exact Eb. change (join_basic O') with (join_basic O). change (set_cell O') with (set_cell O).
        destruct (set_cell O r (parent ++ k) (JS (SStr (join_basic O l))) row s1) as [s2 row2]. apply IH'. }
      rewrite all_inner_conv by exact Hl'. destruct (forallb inner_array l) eqn:Ei.
      { rewrite all_inner_same by exact Ei. change (join_arrays O') with (join_arrays O). change (set_cell O') with (set_cell O).
        destruct (set_cell O r (parent ++ k) (JS (SStr (join_arrays O l))) row s1) as [s2 row2]. apply IH'. }
      rewrite !rollup_none by exact HR. rewrite !bind_ret_l. cbn [fst snd]. change (sub_sheet_name O' parent k) with (sub_sheet_name O parent k).
      rewrite items_eq; [|apply Hl; reflexivity|exact Hl'|apply unslashed_app; assumption]. apply bind_ext. intros s2. apply IH'.
    - destruct (shape d0) as [t|] eqn:Et; [|congruence]. rewrite (geometry_value d0 t) by assumption. cbn [in_wkt]. rewrite (two_keys _ Hper), Et.
      cbn [basic]. change (set_cell O') with (set_cell O). destruct (set_cell O r (parent ++ k) (JS (SStr t)) row s1) as [s2 row2]. rewrite bind_ret_l. apply IH'.
    - rewrite Hv; [|apply dr_object; assumption|apply unslashed_app; assumption]. rewrite conv_plain by exact Hg. apply bind_ext. intros [s2 row2]. apply IH'.
  Qed.
  Lemma add_ids_eq r ids : forall row s, add_parent_ids O r ids row s = add_parent_ids O' r ids row s.
  Proof. induction ids as [|[k v] ids IH]; intros row s; [reflexivity|]. cbn [add_parent_ids]. change (use_key O') with (use_key O). change (po_xml O') with (po_xml O). destruct (use_key O r k s) as [k' s']. apply bind_ext. intros a. apply IH. Qed.
  Lemma kept_same d k : (forall k v, In (k, v) d -> k <> [] /\ ~ In 47%N k /\ dr true v /\ (In k (keep_of O) -> conv v = v)) ->
    In k (keep_of O) -> sget k (cd d) = sget k d.
  Proof. intros H Hk. rewrite sget_cd. destruct (sget k d) as [v|] eqn:E; [|reflexivity]. apply sget_In in E. cbn [option_map]. f_equal. exact (proj2 (proj2 (proj2 (H _ _ E))) Hk). Qed.
  Lemma pv_all v : pv_eq v /\ forall l, v = JA l -> Forall pv_eq l.
  Proof.
    induction v as [sc|l IH|d IH] using jv_ind'.
    - split; [|discriminate]. intros _ r parent row ids top s _. reflexivity.
    - split; [|intros l' [= <-]; eapply Forall_impl; [|exact IH]; intros v [H _]; exact H].
      intros H r parent row ids top s _. cbn [parse_value in_wkt]. f_equal. unfold not_a_dict.
      assert (E : forall x, existsb (fun y => match y with JS (SStr t) => str_eqb t x | _ => false end) (map conv l) =
                            existsb (fun y => match y with JS (SStr t) => str_eqb t x | _ => false end) l).
      { intros x. inversion H as [|b l' Hl| |]; subst. clear H IH. induction l as [|v l IHl]; [reflexivity|]. cbn [map existsb]. rewrite IHl by (intros v' Hv'; apply Hl; right; exact Hv').
        f_equal. pose proof (dr_false _ (Hl v (or_introl eq_refl))) as Hpl. destruct v as [s0|m|d0]; try reflexivity. rewrite conv_plain by exact Hpl. reflexivity. }
      rewrite !E. reflexivity.
    - split; [|discriminate]. intros H r parent row ids top s Hp. pose proof (dr_false _ H) as Hg. rewrite conv_plain by exact Hg. cbn [plain] in Hg.
      inversion H as [| | |b d0 _ Hd]; subst. cbn [parse_value]. unfold dict, geo. change (po_wkt O') with false. cbn [andb].
      unfold geometry in Hg. rewrite <- andb_assoc, Hg, andb_false_r. rewrite !bind_ret_l.
      assert (Ef : filtered_out O' parent (cd d) = filtered_out O parent d).
      { unfold filtered_out. change (po_filter O') with (po_filter O). destruct parent; [|reflexivity]. destruct (po_filter O) as [[f x]|] eqn:E; [|reflexivity].
        rewrite (kept_same d f Hd); [reflexivity|]. unfold keep_of. rewrite E. right. right. left. reflexivity. }
      rewrite Ef. destruct (filtered_out O parent d); [reflexivity|].
      assert (Ea : (if top then add_parent_ids O' r ids match row with Some x => x | None => [] end s else ret (s, match row with Some x => x | None => [] end)) =
                   (if top then add_parent_ids O r ids match row with Some x => x | None => [] end s else ret (s, match row with Some x => x | None => [] end))).
      { destruct top; [rewrite add_ids_eq|]; reflexivity. }
      rewrite Ea. apply bind_ext. intros [s2 row2]. cbn [fst snd].
      assert (Eo : own_ids O' r (cd d) parent ids s2 = own_ids O r d parent ids s2).
      { unfold own_ids. change (po_root_id O') with (po_root_id O). change (po_id_name O') with (po_id_name O). change (use_key O') with (use_key O).
        rewrite (kept_same d (po_id_name O) Hd) by (left; reflexivity). pose proof (kept_same d (po_root_id O) Hd (or_intror (or_introl eq_refl))) as Er. destruct (po_root_id O) as [|c q]; [reflexivity|]. rewrite Er. reflexivity. }
      rewrite Eo. destruct (own_ids O r d parent ids s2) as [ids' s3].
      rewrite (entries_eq r ids' d IH); [reflexivity| |exact Hp]. intros k v Hkv. destruct (Hd k v Hkv) as (A & B & C & _). auto.
  Qed.
  Lemma parse_list_eq l : (forall v, In v l -> dr false v) -> forall num s, parse_list O num l s = parse_list O' num (map conv l) s.
  Proof.
    induction l as [|v l IH]; intros Hl num s; [reflexivity|].
    assert (IH' := IH (fun v' Hv' => Hl v' (or_intror Hv'))). assert (Hv := Hl v (or_introl eq_refl)). pose proof (dr_false _ Hv) as Hpl.
    destruct v as [sc|m|d].
    - destruct sc; cbn [map in_wkt parse_list]; try apply IH'; apply bind_ext; intros a; apply IH'.
    - cbn [map in_wkt parse_list]. apply bind_ext; intros a; apply IH'.
    - cbn [map]. assert (E := proj1 (pv_all (JO d)) Hv None [] None [] false s I). rewrite conv_plain in * by exact Hpl. cbn [parse_list]. rewrite E. apply bind_ext; intros a; apply IH'.
  Qed.
  Lemma flatten_wkt drop pi l : (forall v, In v l -> dr false v) -> flatten O drop pi l = flatten O' drop pi (map conv l).
  Proof. intros H. unfold flatten. change (start O' drop) with (start O drop). rewrite parse_list_eq by exact H. reflexivity. Qed.
End W.
