(** Whole runs of flattening. *)
From Verif.Base Require Import PyStr PyNum PyVal PyDict Outcome.
From Verif.Model Require Import Flatten.
From Verif.Spec Require Import Flat.
From Verif.Proofs Require Import JvInd FlattenTrace FlattenRows.

Definition main_place (O : popts) : option str := match po_schema O with None => Some [] | Some _ => None end.

Lemma smap_get {V W} (f : V -> W) k d : sget k (map (fun nx : str * V => (fst nx, f (snd nx))) d) = option_map f (sget k d).
Proof.
  induction d as [|[k' v] d IH]; unfold sget in *; simpl; [reflexivity|]. destruct (str_eqb k k'); [reflexivity|exact IH].
Qed.
Lemma drop_header drop x : exists e, header x = header (drop_cols drop x) ++ e.
Proof.
  destruct drop; simpl; [|exists []; rewrite app_nil_r; reflexivity]. exists (sh_cols x).
  unfold header. simpl. rewrite app_nil_r. rewrite <- app_assoc. reflexivity.
Qed.
Lemma NoDup_prefix {A} (l e : list A) : NoDup (l ++ e) -> NoDup l.
Proof.
  induction l as [|x l IH]; intros H; [constructor|]. inversion H as [|? ? Hn H']; subst. constructor; [|apply IH; exact H'].
  intros Hin. apply Hn. apply in_or_app. left. exact Hin.
Qed.
Lemma drop_nodup drop x : NoDup (header x) -> NoDup (header (drop_cols drop x)).
Proof. intros H. destruct (drop_header drop x) as (e & E). rewrite E in H. eapply NoDup_prefix; exact H. Qed.

Section Start.
  Variables (O : popts) (drop : bool).
  Hypothesis SR : schema_ready O.

  Lemma start_ok : stored_ok (main_place O) (start O drop).
  Proof.
    unfold start, main_place, schema_ready in *. cbn [new_persistent]. destruct (po_schema O) as [sc|].
    - destruct SR as (_ & _ & HF). intros r x Hx. destruct r as [n|]; simpl in Hx.
      + rewrite smap_get in Hx. destruct (sget n (sci_subs sc)) as [y|] eqn:E; [|discriminate]. injection Hx as <-.
        apply sget_In in E. rewrite Forall_forall in HF. destruct (HF _ E) as [Hl _]. simpl in Hl.
        assert (El : sh_lines (drop_cols drop y) = LMem []) by (destruct drop; exact Hl). rewrite El. discriminate.
      + injection Hx as <-. unfold drop_cols. destruct drop; simpl; (split; [reflexivity|]; exists []; split; reflexivity).
    - intros r x Hx. destruct r as [n|]; simpl in Hx; [discriminate|]. injection Hx as <-. simpl. split; [reflexivity|]. exists []. split; reflexivity.
  Qed.
  Lemma start_rows r : rows r (start O drop) = [].
  Proof.
    unfold rows, start, schema_ready in *. cbn [new_persistent]. destruct (po_schema O) as [sc|].
    - destruct SR as (_ & _ & HF). destruct r as [n|]; simpl.
      + rewrite smap_get. destruct (sget n (sci_subs sc)) as [y|] eqn:E; [|reflexivity]. simpl.
        apply sget_In in E. rewrite Forall_forall in HF. destruct (HF _ E) as [Hl _]. simpl in Hl.
        unfold lines_of. assert (El : sh_lines (drop_cols drop y) = LMem []) by (destruct drop; exact Hl). rewrite El. reflexivity.
      + unfold drop_cols, lines_of. destruct drop; reflexivity.
    - destruct r as [n|]; reflexivity.
  Qed.
  Lemma start_covered : covered (start O drop).
  Proof. intros r row. rewrite start_rows. intros []. Qed.
  Lemma start_distinct : distinct (start O drop).
  Proof.
    unfold distinct, hdr, start, schema_ready in *. cbn [new_persistent]. destruct (po_schema O) as [sc|]; intros r.
    - destruct SR as (_ & Hm & HF). destruct r as [n|]; simpl.
      + rewrite smap_get. destruct (sget n (sci_subs sc)) as [y|] eqn:E; [|constructor]. simpl.
        apply sget_In in E. rewrite Forall_forall in HF. destruct (HF _ E) as [_ Hd]. apply drop_nodup. exact Hd.
      + apply drop_nodup. exact Hm.
    - destruct r as [n|]; simpl; constructor.
  Qed.
  Lemma start_names : NoDup (map fst (p_subs (start O drop))).
  Proof.
    unfold start, schema_ready in *. cbn [new_persistent]. destruct (po_schema O) as [sc|]; simpl; [|constructor].
    destruct SR as (Hn & _). rewrite map_map. exact Hn.
  Qed.
End Start.

Lemma filter_names f (d : list (str * sheet)) : NoDup (map fst d) -> NoDup (map fst (filter f d)).
Proof.
  induction d as [|[k x] d IH]; simpl; intros H; [constructor|]. inversion H as [|? ? Hn H']; subst. specialize (IH H').
  destruct (f (k, x)); [|exact IH]. simpl. constructor; [|exact IH]. intros Hin. apply Hn.
  apply in_map_iff in Hin as (kx & E & Hin). apply filter_In in Hin as [Hin _]. apply in_map_iff. exists kx. auto.
Qed.
Lemma drop_sheet drop r s x : NoDup (map fst (p_subs s)) -> sheet_at r (drop_empty drop s) = Some x -> sheet_at r s = Some x.
Proof.
  intros Hn. unfold drop_empty. destruct drop; [|auto]. destruct r as [n|]; simpl; [|auto]. intros H. apply sget_In in H. apply filter_In in H as [H _].
  apply In_sget; assumption.
Qed.
Lemma drop_store drop s : p_store (drop_empty drop s) = p_store s.
Proof. destruct drop; reflexivity. Qed.
Lemma drop_main drop s : p_main (drop_empty drop s) = p_main s.
Proof. destruct drop; reflexivity. Qed.
(** a dropped sub-sheet has no rows *)
Lemma drop_gone drop n s x : NoDup (map fst (p_subs s)) -> sget n (p_subs s) = Some x -> sget n (p_subs (drop_empty drop s)) = None -> sh_lines x = LMem [].
Proof.
  intros Hn H. unfold drop_empty. destruct drop; [|congruence]. simpl. intros G. apply sget_None in G.
  apply sget_In in H. destruct (sh_lines x) as [[|r l]|] eqn:E; [reflexivity|exfalso|exfalso]; apply G; apply in_map_iff; exists (n, x); (split; [reflexivity|]; apply filter_In; split; [exact H|]; simpl; rewrite E; reflexivity).
Qed.
Lemma drop_names drop s : NoDup (map fst (p_subs s)) -> NoDup (map fst (p_subs (drop_empty drop s))).
Proof. intros H. unfold drop_empty. destruct drop; [apply filter_names; exact H|exact H]. Qed.

Lemma flatten_inv O drop pi l s w : flatten O drop pi l = Ok s w ->
  exists s0 w0, parse_list O 0%N l (start O drop) = Ok s0 w0 /\ s = drop_empty drop s0.
Proof.
  unfold flatten. intros H. apply bind_ok in H as (s0 & w1 & w2 & H1 & H & _). apply bind_ok in H as (t & w3 & w4 & _ & H & _).
  injection H as <- _. exists s0, w1. auto.
Qed.

(** the tables of a state, by sheet *)
Lemma table_sheet s t : NoDup (map fst (p_subs s)) -> In t (tables s) ->
  exists r x, sheet_at r s = Some x /\ t = table_of (p_store s) (match r with None => [] | Some n => n end) x.
Proof.
  intros Hn [<-|H].
  - exists None, (p_main s). split; reflexivity.
  - unfold sub_tables in H. apply in_map_iff in H as ([n x] & <- & Hin). exists (Some n), x. split; [|reflexivity].
    simpl. apply In_sget; assumption.
Qed.
Lemma name_free_nocol O s : name_free O s -> nocol (main_place O) s.
Proof.
  unfold name_free, nocol, main_place. intros H k Hk. destruct (po_schema O); [discriminate|]. injection Hk as <-.
  apply sget_None. specialize (H eq_refl). unfold sub_tables in H. rewrite map_map in H. exact H.
Qed.
(** dropping sheets never hides a collision: without a schema nothing is dropped *)
Lemma name_free_drop O drop l s w : parse_list O 0%N l (start O drop) = Ok s w -> schema_ready O -> name_free O (drop_empty drop s) -> nocol (main_place O) s.
Proof.
  intros H SR HF. apply name_free_nocol in HF. intros k Hk. specialize (HF k Hk).
  destruct (sget k (p_subs s)) as [x|] eqn:E; [exfalso|reflexivity].
  pose proof (parse_list_trace O _ _ _ _ _ H) as T.
  pose proof (trace_names O _ _ T (start_names O drop SR)) as Hn.
  pose proof (drop_gone drop k s x Hn E HF) as El.
  (* without a schema every sub-sheet is stored *)
  unfold main_place in Hk. destruct (po_schema O) as [sc|] eqn:Es; [discriminate|].
  assert (G : forall s s', trace O s s' -> (forall n y, sget n (p_subs s) = Some y -> sh_lines y <> LMem []) -> forall n y, sget n (p_subs s') = Some y -> sh_lines y <> LMem []).
  { clear. intros s s' T. induction T as [|p s1 H IH|r1 k s1 H IH|n s1 H IH|r1 x1 row1 s1 H IH Hx1 Hk]; intros H0; [exact H0|..]; specialize (IH H0); intros m y Hy.
    - exact (IH m y Hy).
    - destruct (use_key_sheet O r1 k s1 (Some m) y Hy) as (z & Hz & ->). exact (IH m z Hz).
    - destruct (sget n (p_subs s1)) eqn:E; [unfold ensure_sub in Hy; rewrite E in Hy; exact (IH m y Hy)|].
      pose proof (ensure_sheet n s1 E (Some m)) as Q. simpl in Q. rewrite Q in Hy. destruct (str_eqb m n); [injection Hy as <-; discriminate|exact (IH m y Hy)].
    - pose proof (add_row_sheet r1 x1 row1 s1 (Some m)) as Q. simpl in Q. rewrite Q in Hy. destruct r1 as [n|]; [|exact (IH m y Hy)].
      destruct (str_eqb_spec m n) as [-> |]; [|exact (IH m y Hy)]. injection Hy as <-. unfold append_line. destruct (sh_lines x1); simpl; [|discriminate].
      destruct l; discriminate. }
  assert (S0 : forall n y, sget n (p_subs (start O drop)) = Some y -> sh_lines y <> LMem []).
  { unfold start. rewrite Es. cbn [new_persistent p_subs]. intros n y Hy. discriminate Hy. }
  exact (G _ _ T S0 k x E El).
Qed.

Section Run.
  Variables (O : popts) (drop : bool) (pi : list str).
  Hypothesis SR : schema_ready O.

  Theorem flatten_covered l s w : flatten O drop pi l = Ok s w -> name_free O s ->
    forall t row k v, In t (tables s) -> In row (tb_rows t) -> In (k, v) row -> In k (tb_header t).
  Proof.
    intros H HF t row k v Ht Hr Hk. apply flatten_inv in H as (s0 & w0 & H & ->).
    pose proof (parse_list_trace O _ _ _ _ _ H) as T. pose proof (trace_names O _ _ T (start_names O drop SR)) as Hn.
    pose proof (name_free_drop O drop l s0 w0 H SR HF) as HM.
    pose proof (trace_covered O _ _ _ T HM (start_ok O drop SR) (start_covered O drop SR)) as C.
    apply table_sheet in Ht as (r & x & Hx & ->); [|apply drop_names; exact Hn]. apply drop_sheet in Hx; [|exact Hn].
    cbn [table_of tb_rows tb_header] in *. rewrite drop_store in Hr. specialize (C r row). unfold rows, hdr in C. rewrite Hx in C.
    exact (proj2 (C Hr) k v Hk).
  Qed.
  Theorem flatten_keys l s w : flatten O drop pi l = Ok s w -> name_free O s -> forall t row, In t (tables s) -> In row (tb_rows t) -> NoDup (map fst row).
  Proof.
    intros H HF t row Ht Hr. apply flatten_inv in H as (s0 & w0 & H & ->).
    pose proof (parse_list_trace O _ _ _ _ _ H) as T. pose proof (trace_names O _ _ T (start_names O drop SR)) as Hn.
    pose proof (name_free_drop O drop l s0 w0 H SR HF) as HM.
    pose proof (trace_covered O _ _ _ T HM (start_ok O drop SR) (start_covered O drop SR)) as C.
    apply table_sheet in Ht as (r & x & Hx & ->); [|apply drop_names; exact Hn]. apply drop_sheet in Hx; [|exact Hn].
    cbn [table_of tb_rows tb_header] in *. rewrite drop_store in Hr. specialize (C r row). unfold rows, hdr in C. rewrite Hx in C.
    exact (proj1 (C Hr)).
  Qed.
  Theorem flatten_distinct l s w : flatten O drop pi l = Ok s w -> forall t, In t (tables s) -> NoDup (tb_header t).
  Proof.
    intros H t Ht. apply flatten_inv in H as (s0 & w0 & H & ->).
    pose proof (parse_list_trace O _ _ _ _ _ H) as T. pose proof (trace_names O _ _ T (start_names O drop SR)) as Hn.
    pose proof (trace_distinct O _ _ T (start_distinct O drop SR)) as D.
    apply table_sheet in Ht as (r & x & Hx & ->); [|apply drop_names; exact Hn]. apply drop_sheet in Hx; [|exact Hn].
    specialize (D r). unfold hdr in D. rewrite Hx in D. exact D.
  Qed.
  Theorem flatten_names l s w : flatten O drop pi l = Ok s w -> NoDup (map tb_name (sub_tables s)).
  Proof.
    intros H. apply flatten_inv in H as (s0 & w0 & H & ->).
    pose proof (parse_list_trace O _ _ _ _ _ H) as T. pose proof (trace_names O _ _ T (start_names O drop SR)) as Hn.
    unfold sub_tables. rewrite map_map. apply (drop_names drop) in Hn. exact Hn.
  Qed.

  Lemma parse_list_app l1 l2 : forall num s s' w, parse_list O num (l1 ++ l2) s = Ok s' w ->
    exists s1 w1 w2, parse_list O num l1 s = Ok s1 w1 /\ parse_list O (num + N.of_nat (length l1)) l2 s1 = Ok s' w2 /\ w = w1 ++ w2.
  Proof.
    induction l1 as [|v l1 IH]; intros num s s' w H; cbn [app parse_list length] in *.
    - exists s, [], w. rewrite N.add_0_r. auto.
    - replace (num + N.of_nat (Datatypes.S (length l1)))%N with (num + 1 + N.of_nat (length l1))%N by lia.
      assert (G : forall (m : FR pst), bind m (fun s => parse_list O (num + 1) (l1 ++ l2) s) = Ok s' w ->
        exists s1 w1 w2, bind m (fun s => parse_list O (num + 1) l1 s) = Ok s1 w1 /\ parse_list O (num + 1 + N.of_nat (length l1)) l2 s1 = Ok s' w2 /\ w = w1 ++ w2).
      { intros m G. apply bind_ok in G as (x & w1 & w2 & Hm & G & ->). apply IH in G as (s1 & w3 & w4 & G1 & G2 & ->).
        exists s1, (w1 ++ w3), w4. rewrite Hm. simpl. rewrite G1. split; [reflexivity|]. split; [exact G2|]. apply app_assoc. }
      destruct v as [[]|l0|d]; try exact (G (bind (warn1 (FNotObject num)) (fun _ => ret s)) H).
      + exact (IH _ _ _ _ H).
      + apply bind_ok in H as (x & w1 & w2 & Hm & H & ->). apply IH in H as (s1 & w3 & w4 & G1 & G2 & ->).
        exists s1, (w1 ++ w3), w4. rewrite Hm. simpl. rewrite G1. split; [reflexivity|]. split; [exact G2|]. apply app_assoc.
  Qed.

  (** more data only adds columns and rows at the end *)
  Theorem flatten_grows l1 l2 s2 w2 : flatten O drop pi (l1 ++ l2) = Ok s2 w2 -> name_free O s2 ->
    exists s1 w1, flatten O drop pi l1 = Ok s1 w1 /\
      forall t, In t (tables s1) -> exists t', In t' (tables s2) /\ extends t t'.
  Proof.
    intros H HF. apply flatten_inv in H as (s' & w' & H & ->). apply parse_list_app in H as (s1 & v1 & v2 & H1 & H2 & ->).
    assert (HM : nocol (main_place O) s').
    { eapply (name_free_drop O drop (l1 ++ l2)); [|exact SR|exact HF]. instantiate (1 := v1 ++ v2).
      clear - H1 H2. revert H1 H2. generalize (start O drop) as s0. generalize 0%N as num. revert v1. induction l1 as [|v l IH]; intros v1 num s0 H1 H2; cbn [app parse_list length] in *.
      - injection H1 as <- <-. rewrite N.add_0_r in H2. exact H2.
      - replace (num + N.of_nat (Datatypes.S (length l)))%N with (num + 1 + N.of_nat (length l))%N in H2 by lia.
        destruct v as [[]|l0|d]; try (apply bind_ok in H1 as (t & w1 & w2 & Hm & H1 & ->); rewrite Hm; simpl; rewrite (IH _ _ _ H1 H2); rewrite <- app_assoc; reflexivity).
        exact (IH _ _ _ H1 H2). }
    exists (drop_empty drop s1). pose proof (parse_list_trace O _ _ _ _ _ H1) as T1. pose proof (parse_list_trace O _ _ _ _ _ H2) as T2.
    pose proof (trace_nocol O _ _ _ T2 HM) as HM1.
    pose proof (trace_names O _ _ T1 (start_names O drop SR)) as Hn1. pose proof (trace_names O _ _ T2 Hn1) as Hn2.
    assert (F1 : exists w1, flatten O drop pi l1 = Ok (drop_empty drop s1) w1).
    { unfold flatten. rewrite H1. cbv beta iota delta [bind].
      destruct (filter _ pi); unfold warn1, ret; eexists; reflexivity. }
    destruct F1 as (w1 & F1). exists w1. split; [exact F1|].
    intros t Ht. apply table_sheet in Ht as (r & x & Hx & ->); [|apply drop_names; exact Hn1].
    pose proof (drop_sheet _ _ _ _ Hn1 Hx) as Hx1. destruct (trace_later O _ _ T2 r x Hx1) as (y & Hy & L).
    assert (Hy' : sheet_at r (drop_empty drop s') = Some y).
    { destruct r as [n|]; [|simpl; rewrite drop_main; exact Hy]. simpl in *. destruct (sget n (p_subs (drop_empty drop s'))) as [z|] eqn:Ez.
      - pose proof (drop_sheet drop (Some n) s' z Hn2 Ez) as Q. simpl in Q. congruence.
      - exfalso. pose proof (drop_gone drop n s' y Hn2 Hy Ez) as El.
        assert (Ex : sh_lines x = LMem []).
        { destruct L as (_ & _ & _ & _ & L). rewrite El in L. destruct (sh_lines x) as [l|]; [|contradiction]. destruct L as (e & E). destruct l; [reflexivity|discriminate]. }
        destruct drop; [|simpl in Ez; congruence]. simpl in Hx. apply sget_In in Hx. apply filter_In in Hx as [_ Hx]. simpl in Hx. rewrite Ex in Hx. discriminate. }
    exists (table_of (p_store (drop_empty drop s')) (match r with None => [] | Some n => n end) y). split.
    { destruct r as [n|]; [right|left].
      - unfold sub_tables. apply in_map_iff. exists (n, y). split; [reflexivity|]. apply sget_In. exact Hy'.
      - simpl in Hy'. injection Hy' as <-. reflexivity. }
    split; [reflexivity|]. cbn [table_of tb_header tb_rows]. split; [apply later_header; exact L|].
    rewrite !drop_store. pose proof (trace_rows O _ _ _ T2 HM (trace_ok O _ _ _ T1 HM1 (start_ok O drop SR)) r) as (e & E).
    unfold rows in E. rewrite Hx1, Hy in E. exists e. exact E.
  Qed.
End Run.

(** ** filtering *)
Section Filter.
  Variable O : popts.
  Notation O' := (without_filter O).

  Lemma filtered_inner p d : p <> [] -> filtered_out O p d = false.
  Proof. destruct p; [congruence|]. reflexivity. Qed.
  Lemma filtered_off p d : filtered_out O' p d = false.
  Proof. destruct p; reflexivity. Qed.

  Lemma app_ne (p k : str) c : p ++ k ++ [c] <> [].
  Proof. intros E. apply (f_equal (@length N)) in E. rewrite !app_length in E. simpl in E. lia. Qed.
  Lemma app_ne0 (p k : str) : p ++ k ++ u "/0/" <> [].
  Proof. destruct p; [destruct k|]; discriminate. Qed.

  Definition same_pv (v : jv) : Prop := forall r parent row ids top s, parent <> [] ->
    parse_value O v r parent row ids top s = parse_value O' v r parent row ids top s.
  Lemma items_same name path ids l : path <> [] -> Forall same_pv l -> forall s, items (parse_value O) name path ids l s = items (parse_value O') name path ids l s.
  Proof.
    intros Hp HF. induction HF as [|v l Hv _ IH]; intros s; [reflexivity|]. cbn [items].
    rewrite Hv by exact Hp. destruct v as [[]| |]; try apply IH; destruct (parse_value O' _ _ _ _ _ _ _) as [[s1 x]|]; simpl; try reflexivity; rewrite IH; reflexivity.
  Qed.
  Lemma entries_same r skip ids d : Forall (fun kv => same_pv (snd kv) /\ forall l, snd kv = JA l -> Forall same_pv l) d ->
    forall parent row s, entries O (parse_value O) r skip ids d parent row s = entries O' (parse_value O') r skip ids d parent row s.
  Proof.
    intros HF. induction HF as [|[key value] d [Hv Ha] _ IH]; intros parent row s; cbn [entries]; [reflexivity|].
    destruct (skip && _); [apply IH|].
    change (preserve_skips O') with (preserve_skips O). destruct (preserve_skips _ _ _); [apply IH|].
    destruct value as [v|l|d0].
    - destruct (basic v); [|reflexivity]. change (po_xml O') with (po_xml O). change (set_cell O') with (set_cell O).
      destruct (po_xml O && _); destruct (set_cell _ _ _ _ _ _); apply IH.
    - change (set_cell O') with (set_cell O). change (join_basic O') with (join_basic O). change (join_arrays O') with (join_arrays O).
      change (rollup O') with (rollup O). change (sub_sheet_name O') with (sub_sheet_name O).
      destruct (forallb jbasic l); [destruct (set_cell _ _ _ _ _ _); apply IH|].
      destruct (forallb inner_array l); [destruct (set_cell _ _ _ _ _ _); apply IH|].
      destruct (rollup _ _ _ _ _ _ _) as [x w|]; [|reflexivity]. unfold bind at 1 3. 
      rewrite (items_same _ _ _ _ (app_ne0 _ _) (Ha _ eq_refl)).
      destruct (items _ _ _ _ _ _) as [s1|]; simpl; [rewrite IH; reflexivity|reflexivity].
    - simpl in Hv. rewrite Hv by apply app_ne. destruct (parse_value O' _ _ _ _ _ _ _) as [x|]; simpl; [rewrite IH; reflexivity|reflexivity].
  Qed.
  Lemma dict_same d : Forall (fun kv => same_pv (snd kv) /\ forall l, snd kv = JA l -> Forall same_pv l) d ->
    forall r parent row ids top s, filtered_out O parent d = false -> dict O (parse_value O) d r parent row ids top s = dict O' (parse_value O') d r parent row ids top s.
  Proof.
    intros HF r parent row ids top s Hp. unfold dict. change (geo O') with (geo O). destruct (geo O r d parent row s) as [g w|]; [|reflexivity].
    cbv beta iota delta [bind]. destruct g as [[[skip row1] s1]|]; [|reflexivity]. rewrite Hp, filtered_off.
    change (add_parent_ids O') with (add_parent_ids O). change (own_ids O') with (own_ids O).
    destruct (if top then _ else _) as [[s2 x2] w2|]; [|reflexivity]. cbn [fst snd]. destruct (own_ids O r d parent ids s2) as [ids' s3].
    rewrite (entries_same _ _ _ _ HF). reflexivity.
  Qed.
  Lemma same_pv_all v : same_pv v /\ (forall l, v = JA l -> Forall same_pv l) /\
    (forall d, v = JO d -> Forall (fun kv => same_pv (snd kv) /\ forall l, snd kv = JA l -> Forall same_pv l) d).
  Proof.
    induction v as [s|l IH|d IH] using jv_ind'.
    - split; [|split; discriminate]. intros r parent row ids top s0 _. reflexivity.
    - split; [intros r parent row ids top s0 _; reflexivity|]. split; [|discriminate].
      intros l' [= <-]. eapply Forall_impl; [|exact IH]. intros v [H _]. exact H.
    - assert (HF : Forall (fun kv : str * jv => same_pv (snd kv) /\ forall l, snd kv = JA l -> Forall same_pv l) d).
      { eapply Forall_impl; [|exact IH]. intros kv (A & B & _). auto. }
      split; [|split; [discriminate|intros d' [= <-]; exact HF]].
      intros r parent row ids top s0 Hp. cbn [parse_value]. apply dict_same; [exact HF|apply filtered_inner; exact Hp].
  Qed.

  Hypothesis NW : po_wkt O = false.
  Lemma geo_off r d parent row s : geo O r d parent row s = ret (inl (false, row, s)).
  Proof. unfold geo. rewrite NW. reflexivity. Qed.

  Lemma outcome_bind_eq {W A B} (m : res W A) (f g : A -> res W B) : (forall a, outcome (f a) = outcome (g a)) -> outcome (bind m f) = outcome (bind m g).
  Proof.
    intros H. destruct m as [a w|]; [|reflexivity]. simpl. specialize (H a). destruct (f a), (g a); simpl in *; congruence.
  Qed.
  Lemma outcome_bind_m {W A B} (m m' : res W A) (f : A -> res W B) : outcome m = outcome m' -> outcome (bind m f) = outcome (bind m' f).
  Proof.
    destruct m as [a w|], m' as [a' w'|]; simpl; try discriminate; [intros [= <-]|intros [= <-]; reflexivity]. destruct (f a); reflexivity.
  Qed.
  Lemma outcome_warn {W A} (w : W) (m : res W A) : outcome (bind (warn1 w) (fun _ => m)) = outcome m.
  Proof. unfold warn1. simpl. destruct m; reflexivity. Qed.

  Lemma parse_list_filter field value l : po_filter O = Some (field, value) -> forall num num' s,
    outcome (parse_list O num l s) = outcome (parse_list O' num' (filter (passes field value) l) s).
  Proof.
    intros HF. induction l as [|v l IH]; intros num num' s; cbn [filter parse_list]; [reflexivity|].
    destruct v as [sc|la|d].
    - cbn [passes]. destruct sc; try (rewrite outcome_warn); apply IH.
    - cbn [passes]. rewrite outcome_warn. apply IH.
    - destruct (passes field value (JO d)) eqn:P.
      + cbn [parse_list]. assert (E : parse_value O (JO d) None [] None [] false s = parse_value O' (JO d) None [] None [] false s).
        { cbn [parse_value]. destruct (same_pv_all (JO d)) as (_ & _ & Q). apply dict_same; [apply Q; reflexivity|].
          cbn [passes] in P. unfold filtered_out. rewrite HF. destruct (sget field d) as [[[]| |]|]; try discriminate. rewrite P. reflexivity. }
        rewrite E. apply outcome_bind_eq. intros a. apply IH.
      + rewrite <- (IH (num + 1)%N num' s). cbn [parse_value]. unfold dict. rewrite geo_off.
        assert (E : filtered_out O [] d = true).
        { cbn [passes] in P. unfold filtered_out. rewrite HF. destruct (sget field d) as [[[]| |]|]; try reflexivity. rewrite P. reflexivity. }
        cbv beta iota delta [bind ret]. rewrite E. cbn [fst]. destruct (parse_list O (num + 1) l s); reflexivity.
  Qed.
  Theorem flatten_filter field value drop pi l : po_filter O = Some (field, value) ->
    outcome (flatten O drop pi l) = outcome (flatten O' drop pi (filter (passes field value) l)).
  Proof.
    intros HF. unfold flatten. change (start O' drop) with (start O drop). apply outcome_bind_m. apply parse_list_filter. exact HF.
  Qed.
End Filter.

(** ** the row store *)
Definition op_ok (made : list (option str)) (done : list store_op) (st : sheets_by_name * store) : Prop :=
  (forall n, In n made <-> aget oname_eqb n (fst st) <> None) /\
  forall n x, aget oname_eqb n (fst st) = Some x ->
    sh_lines x = LStore n (N.of_nat (length (added n done))) /\ st_get n (snd st) = numbered 0 (added n done).
Lemma aget_aset_eq {V} n (v : V) d : aget oname_eqb n (aset oname_eqb n v d) = Some v.
Proof.
  induction d as [|[m w] d IH]; simpl; [rewrite oname_eqb_refl; reflexivity|]. destruct (oname_eqb n m) eqn:E; simpl; rewrite E; [reflexivity|exact IH].
Qed.
Lemma aget_aset_neq {V} n m (v : V) d : n <> m -> aget oname_eqb n (aset oname_eqb m v d) = aget oname_eqb n d.
Proof.
  intros H. induction d as [|[k w] d IH]; simpl.
  - destruct (oname_spec n m); [congruence|reflexivity].
  - destruct (oname_spec m k) as [<-|Hk]; simpl; [destruct (oname_spec n m); [congruence|reflexivity]|]. destruct (oname_spec n k); [reflexivity|exact IH].
Qed.
Lemma added_snoc n l o : added n (l ++ [o]) = added n l ++ added n [o].
Proof. unfold added. apply flat_map_app. Qed.
Lemma added_fresh n l made : proper made l -> ~ In n made -> (forall o, In o l -> o <> SNew n) -> added n l = [].
Proof.
  revert made. induction l as [|[m|m r] l IH]; intros made H Hn Ho; [reflexivity| |]; cbn [proper] in H.
  - change (added n (SNew m :: l)) with (added n l). apply (IH (m :: made)); [exact (proj2 H)| |intros o Hin; apply Ho; right; exact Hin].
    intros [-> |Hin]; [|auto]. eapply Ho; [left; reflexivity|reflexivity].
  - change (added n (SAdd m r :: l)) with ((if oname_eqb n m then [r] else []) ++ added n l).
    rewrite (IH made); [|exact (proj2 H)|exact Hn|intros o Hin; apply Ho; right; exact Hin].
    destruct (oname_spec n m) as [-> |]; [|reflexivity]. exfalso. apply Hn. exact (proj1 H).
Qed.
Lemma run_from l : forall made done st, proper made l -> op_ok made done st -> (forall n, ~ In n made -> added n done = []) ->
  exists made', (forall n, In n made' <-> In n made \/ In n (created l)) /\ op_ok made' (done ++ l) (fold_left do_op l st).
Proof.
  induction l as [|o l IH]; intros made done st Hp [H1 H2] Hf; cbn [fold_left].
  - exists made. rewrite app_nil_r. split; [intros n; simpl; tauto|split; assumption].
  - destruct o as [m|m r]; cbn [proper] in Hp; destruct Hp as [Hm Hp].
    + destruct (IH (m :: made) (done ++ [SNew m]) (do_op st (SNew m)) Hp) as (made' & Hmade & HO).
      * cbn [do_op new_persistent]. split; cbn [fst snd].
        -- intros n. destruct (oname_spec n m) as [-> |Hn]; [rewrite aget_aset_eq; split; [discriminate|left; reflexivity]|].
           rewrite aget_aset_neq by exact Hn. rewrite <- H1. split; [intros [-> |]; [congruence|assumption]|right; assumption].
        -- intros n x. destruct (oname_spec n m) as [-> |Hn].
           ++ rewrite aget_aset_eq. intros [= <-]. rewrite added_snoc, (Hf m Hm), st_get_set_eq. split; reflexivity.
           ++ rewrite aget_aset_neq by exact Hn. intros Hx. rewrite added_snoc. cbn [added flat_map app]. rewrite app_nil_r.
              rewrite st_get_set_neq by exact Hn. apply H2. exact Hx.
      * intros n Hn. rewrite added_snoc. cbn [added flat_map app]. rewrite app_nil_r. apply Hf. intros Hin. apply Hn. right. exact Hin.
      * exists made'. split; [|rewrite <- app_assoc in HO; exact HO]. intros n. rewrite Hmade. cbn [created flat_map app In]. fold (created l). tauto.
    + destruct (IH made (done ++ [SAdd m r]) (do_op st (SAdd m r)) Hp) as (made' & Hmade & HO).
      * pose proof Hm as Hm'. apply H1 in Hm'. cbn [do_op]. destruct (aget oname_eqb m (fst st)) as [x|] eqn:Ex; [|congruence].
        destruct (H2 m x Ex) as [Hl Ht]. unfold append_line. rewrite Hl. split; cbn [fst snd].
        -- intros n. destruct (oname_spec n m) as [-> |Hn]; [rewrite aget_aset_eq; split; [discriminate|intros _; exact Hm]|].
           rewrite aget_aset_neq by exact Hn. apply H1.
        -- intros n y. rewrite added_snoc. cbn [added flat_map app]. rewrite app_nil_r. destruct (oname_spec n m) as [-> |Hn].
           ++ rewrite aget_aset_eq. intros [= <-]. cbn [sh_lines]. rewrite st_get_set_eq, Ht, app_length. split; [f_equal; simpl; lia|].
              apply bt_set_end. reflexivity.
           ++ rewrite aget_aset_neq by exact Hn. rewrite app_nil_r. intros Hy. rewrite st_get_set_neq by exact Hn. apply H2. exact Hy.
      * intros n Hn. rewrite added_snoc, (Hf n Hn). cbn [added flat_map app]. destruct (oname_spec n m) as [-> |]; [contradiction|reflexivity].
      * exists made'. split; [|rewrite <- app_assoc in HO; exact HO]. intros n. rewrite Hmade. reflexivity.
Qed.
Theorem store_reads_back l n x : proper [] l -> aget oname_eqb n (fst (run_ops l)) = Some x ->
  lines_of (snd (run_ops l)) x = added n l.
Proof.
  intros H Hx. destruct (run_from l [] [] ([], []) H) as (made & _ & _ & H2).
  - split; [intros m; split; [intros []|intros Q; exfalso; apply Q; reflexivity]|]. intros m y Hy. discriminate Hy.
  - intros m _. reflexivity.
  - destruct (H2 n x Hx) as [Hl Ht]. unfold lines_of. rewrite Hl. unfold run_ops. rewrite Ht. apply numbered_snd.
Qed.
Theorem store_has l n : proper [] l -> In n (created l) -> exists x, aget oname_eqb n (fst (run_ops l)) = Some x.
Proof.
  intros H Hn. destruct (run_from l [] [] ([], []) H) as (made & Hm & H1 & _).
  - split; [intros m; split; [intros []|intros Q; exfalso; apply Q; reflexivity]|]. intros m y Hy. discriminate Hy.
  - intros m _. reflexivity.
  - assert (Q : In n made) by (apply Hm; right; exact Hn). apply H1 in Q. unfold run_ops.
    destruct (aget oname_eqb n (fst (fold_left do_op l ([], [])))) as [x|]; [exists x; reflexivity|congruence].
Qed.
