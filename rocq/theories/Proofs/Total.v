(** Without a schema unflatten never fails on readable tables. *)
From Verif.Base Require Import PyStr PyNum PyVal PyDict Outcome.
From Verif.Model Require Import Warn Lib Convert Input.
From Verif.Spec Require Import Plain.
From Verif.Proofs Require Import TreeInd RowWf.

Definition ok {A} (m : R A) : Prop := exists a w, m = Ok a w.
Lemma ok_bind {A B} (m : R A) (f : A -> R B) : ok m -> (forall a w, m = Ok a w -> ok (f a)) -> ok (bind m f).
Proof. intros (a & w & ->) H. destruct (H a w eq_refl) as (b & w' & E). exists b, (w ++ w'). simpl. rewrite E. reflexivity. Qed.
Lemma ok_ret {A} (a : A) : ok (ret a).
Proof. exists a, []. reflexivity. Qed.

(** ** merge *)
Lemma merge_item_ok dbg v : forall k base, ok (merge_item dbg k v base).
Proof.
  induction v as [c|d IH|data nk IHd IHn] using tnode_ind'; intros k base; cbn [merge_item].
  - destruct (sget k base) as [b|]; [|apply ok_ret]. destruct (c_val c); destruct b as [bc|bd|bt bn]; try destruct (cv_eqb _ _); eexists; eexists; reflexivity.
  - destruct (sget k base) as [b|]; [|apply ok_ret]. destruct b as [bc|bd|bt bn]; try (eexists; eexists; reflexivity).
    apply ok_bind; [|intros; apply ok_ret]. revert bd. induction IH as [|[k' n] d' Hn _ IH]; intros bd; cbn [merge_list]; [apply ok_ret|].
    apply ok_bind; [apply Hn|]. intros. apply IH.
  - destruct (sget k base) as [b|]; [|apply ok_ret]. destruct b as [bc|bd|bt bn]; try (eexists; eexists; reflexivity).
    apply ok_bind; [|intros; apply ok_ret].
    assert (Hl : forall d b, Pd (fun v => forall k base, ok (merge_item dbg k v base)) d -> ok (merge_list (merge_item dbg) d b)).
    { intros d b HF. revert b. induction HF as [|[k' n] d' Hn _ IH]; intros bd; cbn [merge_list]; [apply ok_ret|].
      apply ok_bind; [apply Hn|]. intros. apply IH. }
    revert bt. induction IHd as [|[k' d] data' Hd _ IH]; intros bt; cbn [merge_data]; [apply ok_ret|].
    destruct (@kget tdict k' bt) as [b0|]; [|exact (IH (kset k' d bt))]. apply ok_bind; [apply Hl; exact Hd|]. intros. apply IH.
Qed.
Lemma merge_ok dbg a b : ok (merge dbg a b).
Proof.
  unfold merge. revert a. induction b as [|[k n] b IH]; intros a; cbn [merge_list]; [apply ok_ret|].
  apply ok_bind; [apply merge_item_ok|]. intros. apply IH.
Qed.

Section Row.
  Variable E : conv_env.
  Variable types : str -> str.
  Variable idn : str.
  Hypothesis untyped : forall p, types p = [].

  Inductive rsimple : rnode -> Prop :=
  | rs_cell c : hashable (c_val c) = true -> rsimple (RCell c)
  | rs_dict d : (forall k n, In (k, n) d -> rsimple n) -> (forall n, In (idn, n) d -> exists c, n = RCell c) -> rsimple (RDict d)
  | rs_lad l : (forall i d k n, In (i, d) l -> In (k, n) d -> rsimple n) ->
      (forall i d n, In (i, d) l -> In (idn, n) d -> exists c, n = RCell c) -> rsimple (RLad l).
  Definition rsd (d : rdict) : Prop := (forall k n, In (k, n) d -> rsimple n) /\ (forall n, In (idn, n) d -> exists c, n = RCell c).
  Lemma rs_dict_iff d : rsimple (RDict d) <-> rsd d.
  Proof. split; [inversion 1; split; assumption|intros []; constructor; assumption]. Qed.
  Lemma rs_lad_iff l : rsimple (RLad l) <-> forall i d, In (i, d) l -> rsd d.
  Proof.
    split.
    - inversion 1; subst. intros i d Hi. split; [intros k n Hn; eauto|intros n Hn; eauto].
    - intros H. constructor; intros i d; [intros k n Hi Hn; destruct (H i d Hi); eauto|intros n Hi Hn; destruct (H i d Hi); eauto].
  Qed.
  Lemma rsd_nil : rsd [].
  Proof. split; intros; contradiction. Qed.
  Lemma rsd_sset k n d : rsd d -> rsimple n -> (k = idn -> exists c, n = RCell c) -> rsd (sset k n d).
  Proof.
    intros [H1 H2] Hn Hk. split.
    - intros k' n' Hin. apply sset_In in Hin as [Q|Hin]; [injection Q as -> ->; exact Hn|eauto].
    - intros n' Hin. apply sset_In in Hin as [Q|Hin]; [injection Q as <- ->; auto|eauto].
  Qed.

  (** values a path walk can meet *)
  Definition okv (v : cellval) : Prop := match v with CV s => no_inf s | _ => False end.
  Lemma convert_nil s : blank s = false -> convert_type E [] (CV s) =
    match s with
    | SDt d => ret (CV (SStr (dt_local_iso E d)))
    | SFlt (FFin n m e) => if py_eqb (SInt (flt_trunc n m e)) s then ret (CV (SInt (flt_trunc n m e))) else ret (CV (SStr (py_str E s)))
    | SFlt (FInf _) => Raise EOverflowError []
    | SFlt FNan => Raise EValueError []
    | SInt z => ret (CV (SInt z))
    | _ => ret (CV (SStr (py_str E s)))
    end.
  Proof.
    intros Hb. unfold convert_type. cbn [cv_blank]. rewrite Hb.
    repeat match goal with
           | |- context [str_eqb [] (u ?b)] => change (str_eqb [] (u b)) with false
           | |- context [str_mem [] ?l] => change (str_mem [] l) with false
           end. rewrite andb_false_r. cbv iota. destruct s as [|b|z|d|[]|t|n]; reflexivity.
  Qed.
  Lemma convert_untyped v : okv v -> exists s, convert_type E [] v = Ok (CV s) [] /\ hashable (CV s) = true /\ no_inf s.
  Proof.
    destruct v as [s|l|l|g]; try contradiction. intros Hi. change (no_inf s) in Hi.
    destruct (blank s) eqn:Hb; [exists SNone; unfold convert_type; cbn [cv_blank]; rewrite Hb; repeat split; exact I|].
    rewrite (convert_nil s Hb).
    destruct s as [|b|z|d|f|t|n]; try (eexists; split; [reflexivity|split; [reflexivity|exact I]]).
    destruct f as [n m e|n|]; try contradiction.
    destruct (py_eqb _ _); eexists; (split; [reflexivity|split; [reflexivity|exact I]]).
  Qed.

  Lemma walk_total h loc0 rest : forall seen v cur, id_is_leaf idn rest -> okv v -> rsd cur ->
    exists cur' w, walk E types false h loc0 seen rest v cur = Ok cur' w /\ rsd cur'.
  Proof.
    induction rest as [|item rest IH]; intros seen v cur Hid Hv Hcur; cbn [walk].
    - exists cur, []. auto.
    - assert (Hid' : id_is_leaf idn rest) by (simpl in Hid; destruct rest; [exact I|exact (proj2 Hid)]).
      destruct (isint item).
      { destruct (IH (seen ++ [item]) v cur Hid' Hv Hcur) as (cur' & w & H & Hc). destruct seen; unfold warn1, ret; cbv beta iota delta [bind]; rewrite H; (eexists; eexists; split; [reflexivity|assumption]). }
      cbn [andb negb orb]. rewrite untyped. cbn [is_empty andb negb orb str_eqb].
      set (next := match rest with [] => [] | n :: _ => n end).
      assert (Hnext : next <> [] -> item <> idn).
      { intros Hn ->. simpl in Hid. unfold next in Hn. destruct rest as [|b rest']; [congruence|]. destruct Hid as [Hb _]. exact (Hn (Hb eq_refl)). }
      destruct (parse_int next) as [idx|] eqn:En.
      { assert (Hne : next <> []) by (intros Q; rewrite Q in En; discriminate). specialize (Hnext Hne).
        destruct (match sget item cur with None => Some [] | Some (RLad l) => Some l | Some _ => None end) as [l|] eqn:El.
        2:{ exists cur. eexists. split; [reflexivity|exact Hcur]. }
        assert (Hl : forall i d, In (i, d) l -> rsd d).
        { destruct (sget item cur) as [[c|d|l']|] eqn:Eg; try discriminate El; injection El as <-; [|intros i d []].
          apply sget_In in Eg. destruct Hcur as [Hc _]. specialize (Hc _ _ Eg). apply rs_lad_iff. exact Hc. }
        assert (Hsub : rsd (match zget idx l with Some d => d | None => [] end)).
        { destruct (zget idx l) eqn:Ez; [apply zget_In in Ez as (j & Hj); eapply Hl; exact Hj|apply rsd_nil]. }
        destruct (IH (seen ++ [item]) v _ Hid' Hv Hsub) as (sub' & w & H & Hs). 
        exists (sset item (RLad (zset idx sub' l)) cur), (w ++ []).
        split; [exact (f_equal (fun r => bind r (fun s => ret (sset item (RLad (zset idx s l)) cur))) H)|]. apply rsd_sset; [exact Hcur| |congruence].
        apply rs_lad_iff. intros i d Hin. apply aset_In in Hin as [Q|Hin]; [simpl in Q; subst; exact Hs|eapply Hl; exact Hin]. }
      change (str_eqb [] (u "array")) with false. change (str_eqb [] (u "object")) with false. cbn [orb].
      destruct (is_empty next) eqn:Enx; cbn [negb].
      2:{ assert (Hne : next <> []) by (intros Q; rewrite Q in Enx; discriminate). specialize (Hnext Hne).
        destruct (match sget item cur with None => Some [] | Some (RDict d) => Some d | Some _ => None end) as [sub|] eqn:El.
        2:{ exists cur. eexists. split; [reflexivity|exact Hcur]. }
        assert (Hsub : rsd sub).
        { destruct (sget item cur) as [[c|d|l']|] eqn:Eg; try discriminate El; injection El as <-; [|apply rsd_nil].
          apply sget_In in Eg. destruct Hcur as [Hc _]. apply rs_dict_iff. eapply Hc; exact Eg. }
        destruct (IH (seen ++ [item]) v _ Hid' Hv Hsub) as (sub' & w & H & Hs). rewrite H. simpl.
        eexists. eexists. split; [reflexivity|]. apply rsd_sset; [exact Hcur|apply rs_dict_iff; exact Hs|congruence]. }
      assert (Hleaf : exists cur' w, bind (convert_type E [] v) (fun conv =>
          bind (if cv_blank conv then ret cur else ret (sset item (RCell (mk_cell conv loc0)) cur))
            (fun cur' => walk E types false h loc0 (seen ++ [item]) rest conv cur')) = Ok cur' w /\ rsd cur').
      { destruct (convert_untyped v Hv) as (s & -> & Hh & Hi). simpl.
        assert (Hcur1 : rsd (sset item (RCell (mk_cell (CV s) loc0)) cur)).
        { apply rsd_sset; [exact Hcur|constructor; exact Hh|eauto]. }
        destruct (blank s); simpl.
        - destruct (IH (seen ++ [item]) (CV s) cur Hid' Hi Hcur) as (cur' & w & H & Hs). rewrite H. eauto.
        - destruct (IH (seen ++ [item]) (CV s) _ Hid' Hi Hcur1) as (cur' & w & H & Hs). rewrite H. eauto. }
      destruct (sget item cur) as [[c|d|l]|]; try exact Hleaf;
        (destruct (IH (seen ++ [item]) v cur Hid' Hv Hcur) as (cur' & w & H & Hs); unfold warn1, ret; cbv beta iota delta [bind]; rewrite H; (eexists; eexists; split; [reflexivity|assumption])).
  Qed.

  Definition good_line (line : list (scalar * cell)) : Prop :=
    forall h c, In (h, c) line -> okv (c_val c) /\ id_is_leaf idn (path_items E h).
  Lemma build_row_total line : forall cur, good_line line -> rsd cur ->
    exists cur' w, build_row E types false line cur = Ok cur' w /\ rsd cur'.
  Proof.
    induction line as [|[h c] line IH]; intros cur Hg Hcur; cbn [build_row]; [exists cur, []; auto|].
    assert (Hg' : good_line line) by (intros h' c' Hin; apply Hg; right; exact Hin).
    destruct (cv_blank (c_val c)); [apply IH; assumption|].
    destruct (Hg h c (or_introl eq_refl)) as [Hv Hh].
    destruct (walk_total h (c_loc c) (path_items E h) [] (c_val c) cur Hh Hv Hcur) as (cur1 & w1 & -> & H1). simpl.
    destruct (IH cur1 Hg' H1) as (cur2 & w2 & -> & H2). eauto.
  Qed.

  (** ** finishing *)
  Inductive tsimple : tnode -> Prop :=
  | ts_cell c : hashable (c_val c) = true -> tsimple (TCell c)
  | ts_other n : match n with TCell _ => False | _ => True end -> tsimple n.
  Definition id_cell (d : tdict) : Prop := forall n, In (idn, n) d -> exists c, n = TCell c /\ hashable (c_val c) = true.

  Lemma item_key_ok d : id_cell d -> ok (item_key false idn d).
  Proof.
    intros H. unfold item_key. destruct (sget idn d) as [n|] eqn:Eg; [|apply ok_ret].
    apply sget_In in Eg. destruct (H n Eg) as (c & -> & Hh). destruct (c_val c); try discriminate. rewrite Hh. apply ok_ret.
  Qed.
  Lemma temp_append_ok t d : id_cell d -> ok (temp_append false idn t d).
  Proof.
    intros H. unfold temp_append. destruct t as [data nk]. apply ok_bind; [apply item_key_ok; exact H|].
    intros k w _. destruct k as [k|]; [|apply ok_ret]. destruct (kget k data); apply ok_ret.
  Qed.
  Lemma temp_of_list_ok l : forall t, (forall d, In d l -> id_cell d) -> ok (temp_of_list false idn t l).
  Proof.
    induction l as [|d l IH]; intros t H; cbn [temp_of_list]; [apply ok_ret|].
    apply ok_bind; [apply temp_append_ok; apply H; left; reflexivity|]. intros. apply IH. intros; apply H; right; assumption.
  Qed.

  Definition fin_total (n : rnode) : Prop := rsimple n ->
    exists n' w, fin false idn n = Ok n' w /\ (forall c, n = RCell c -> n' = TCell c).
  Lemma fin_dict_total d : Forall (fun kv => fin_total (snd kv)) d -> rsd d ->
    exists d' w, fin_dict (fin false idn) d = Ok d' w /\ id_cell d'.
  Proof.
    intros HF. induction HF as [|[k n] d Hn _ IH]; intros [H1 H2]; cbn [fin_dict].
    - exists [], []. split; [reflexivity|intros n []].
    - assert (Hd : rsd d) by (split; [intros; eapply H1; right; eassumption|intros; eapply H2; right; eassumption]).
      destruct (IH Hd) as (d' & w & E1 & Hid).
      assert (Hr : rsimple n) by (eapply H1; left; reflexivity).
      destruct (Hn Hr) as (n' & w' & E2 & Hc). simpl in E2.
      assert (G : exists d2 w2, bind (fin false idn n) (fun n' => bind (fin_dict (fin false idn) d) (fun r => ret ((k, n') :: r))) = Ok d2 w2 /\ id_cell d2).
      { rewrite E2. simpl. rewrite E1. simpl. eexists. eexists. split; [reflexivity|].
        intros m [Q|Hin]; [|apply Hid; exact Hin]. injection Q as -> ->. destruct (H2 n (or_introl eq_refl)) as (c & ->).
        exists c. split; [apply Hc; reflexivity|]. inversion Hr; assumption. }
      destruct n as [c|[|e0 e]|l]; try exact G. exists d', w. auto.
  Qed.
  Lemma fin_items_total l : Forall (fun kd : Z * rdict => Forall (fun kv => fin_total (snd kv)) (snd kd)) l ->
    (forall i d, In (i, d) l -> rsd d) ->
    exists l' w, fin_items (fin false idn) l = Ok l' w /\ forall i d, In (i, d) l' -> id_cell d.
  Proof.
    intros HF. induction HF as [|[i d] l Hd _ IH]; intros Hall; cbn [fin_items].
    - exists [], []. split; [reflexivity|intros ? ? []].
    - destruct IH as (l' & w & E1 & Hl); [intros; eapply Hall; right; eassumption|].
      destruct d as [|e0 e]; [exists l', w; auto|].
      destruct (fin_dict_total (e0 :: e) Hd (Hall _ _ (or_introl eq_refl))) as (d' & w' & E2 & Hid). rewrite E2. simpl. rewrite E1. simpl.
      eexists. eexists. split; [reflexivity|]. intros j d [Q|Hin]; [injection Q as _ <-; exact Hid|eapply Hl; exact Hin].
  Qed.
  Lemma fin_tot n : fin_total n.
  Proof.
    induction n as [c|d IH|l IH] using rnode_ind'; intros Hr; cbn [fin].
    - exists (TCell c), []. split; [reflexivity|]. intros c' [= ->]. reflexivity.
    - apply rs_dict_iff in Hr. destruct (fin_dict_total d IH Hr) as (d' & w & -> & _). simpl. eexists. eexists. split; [reflexivity|]. discriminate.
    - pose proof (proj1 (rs_lad_iff l) Hr) as Hl. destruct (fin_items_total l IH Hl) as (l' & w & -> & Hid). simpl.
      destruct (temp_of_list_ok (map snd (sort_z l')) ([], [])) as (t & w' & Et).
      { intros d Hin. apply in_map_iff in Hin as ([i d0] & <- & Hin). eapply Hid. eapply Permutation.Permutation_in; [apply sort_z_perm|exact Hin]. }
      rewrite Et. simpl. eexists. eexists. split; [reflexivity|]. discriminate.
  Qed.
  Lemma unflatten_row_total line : good_line line -> exists d w, unflatten_row E types false idn line = Ok d w /\ id_cell d.
  Proof.
    intros Hg. unfold unflatten_row. destruct (build_row_total line [] Hg rsd_nil) as (r & w & -> & Hr). simpl.
    destruct (fin_dict_total r) as (d & w' & -> & Hd); [apply Forall_forall; intros; apply fin_tot|exact Hr|]. eauto.
  Qed.
End Row.

Section Run.
  Variable O : opts.
  Hypothesis untyped : forall p, o_types O p = [].
  Hypothesis noxml : o_xml O = false.

  Lemma line_cells_ok sheet hs j line : forall k, (forall l, hs = Some l -> N.to_nat k + length line <= length l) ->
    exists cells w, line_cells O sheet hs j k line = Ok cells w /\
      forall h c, In (h, c) cells -> exists v, In (h, v) line /\ c_val c = CV v.
  Proof.
    induction line as [|[h v] line IH]; intros k Hk; cbn [line_cells].
    - exists [], []. split; [reflexivity|intros ? ? []].
    - assert (Hh : exists x, match hs with None => ret h | Some hs => match nth_error hs (N.to_nat k) with Some x => ret x | None => Raise EIndexError [] end end = @Ok warning scalar x []).
      { destruct hs as [l|]; [|eexists; reflexivity]. destruct (nth_error l (N.to_nat k)) as [x|] eqn:En; [eexists; reflexivity|].
        exfalso. apply nth_error_None in En. specialize (Hk l eq_refl). simpl in Hk. lia. }
      destruct Hh as (x & ->). simpl. destruct (IH (k + 1)%N) as (cells & w & -> & Hc).
      { intros l El. specialize (Hk l El). simpl in Hk. lia. }
      simpl. eexists. eexists. split; [reflexivity|]. intros h' c [Q|Hin].
      + injection Q as <- <-. exists v. split; [left; reflexivity|reflexivity].
      + destruct (Hc h' c Hin) as (v' & Hv & Hcv). exists v'. split; [right; exact Hv|exact Hcv].
  Qed.
  Lemma place_ok sheet root d st : id_cell (o_id_name O) d -> ok (place O sheet root d st).
  Proof.
    intros Hid. unfold place. apply ok_bind.
    - unfold main_id. destruct (sget (o_id_name O) d) as [n|] eqn:Eg; [|apply ok_ret].
      apply sget_In in Eg. destruct (Hid n Eg) as (c & -> & Hh). destruct (c_val c); try discriminate. rewrite Hh. apply ok_ret.
    - intros k w _. destruct (match k with Some k0 => _ | None => _ end) as [[k0 old]|].
      + apply ok_bind; [apply merge_ok|intros; apply ok_ret].
      + apply ok_bind; [rewrite noxml; apply temp_append_ok; exact Hid|intros; apply ok_ret].
  Qed.
  Lemma do_line_ok sheet hs j line st : (forall l, hs = Some l -> length line <= length l) ->
    (forall h v, In (h, v) line -> no_inf v /\ id_is_leaf (o_id_name O) (path_items (o_conv O) h)) -> ok (do_line O sheet hs j line st).
  Proof.
    intros Hl Hg. unfold do_line. destruct (forallb _ _); [apply ok_ret|].
    destruct (line_cells_ok sheet hs j line 0%N) as (cells & w & Ec & Hc); [intros l El; specialize (Hl l El); simpl; lia|]. rewrite Ec.
    apply ok_bind; [eexists; eexists; reflexivity|]. intros a w' [= <- <-].
    rewrite noxml. destruct (unflatten_row_total (o_conv O) (o_types O) (o_id_name O) untyped cells) as (d & w2 & Ed & Hid).
    { intros h c Hin. destruct (Hc h c Hin) as (v & Hv & Ev). destruct (Hg h v Hv) as [G1 G2]. rewrite Ev. split; [exact G1|exact G2]. }
    apply ok_bind; [eexists; eexists; exact Ed|]. intros a w' Ea. rewrite Ed in Ea. injection Ea as <- _. apply place_ok. exact Hid.
  Qed.
  Lemma do_lines_ok sheet hs lines : forall j st,
    (forall line, In line lines -> (forall l, hs = Some l -> length line <= length l) /\
      forall h v, In (h, v) line -> no_inf v /\ id_is_leaf (o_id_name O) (path_items (o_conv O) h)) -> ok (do_lines O sheet hs j lines st).
  Proof.
    induction lines as [|line lines IH]; intros j st H; cbn [do_lines]; [apply ok_ret|].
    destruct (H line (or_introl eq_refl)) as [H1 H2]. apply ok_bind; [apply do_line_ok; assumption|].
    intros. apply IH. intros; apply H; right; assumption.
  Qed.
  Theorem unflatten_total sheets : (forall s, In s sheets -> readable O s) -> exists r w, unflatten O sheets = Ok r w.
  Proof.
    intros H. unfold unflatten. apply ok_bind; [|intros; apply ok_ret]. unfold do_unflatten. apply ok_bind; [|intros; apply ok_ret].
    generalize (@nil (scalar * ttemp)). revert H. induction sheets as [|s sheets IH]; intros H st; cbn [do_sheets]; [apply ok_ret|].
    apply ok_bind.
    - specialize (H s (or_introl eq_refl)). unfold readable in H. unfold do_sheet. destruct (si_headings s) as [[|h hs]|] eqn:Eh; [apply ok_ret| |].
      + apply ok_bind; [eexists; eexists; reflexivity|]. intros. apply do_lines_ok. exact H.
      + apply do_lines_ok. exact H.
    - intros. apply IH. intros; apply H; right; assumption.
  Qed.
End Run.
