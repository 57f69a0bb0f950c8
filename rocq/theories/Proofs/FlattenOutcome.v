(** When flatten succeeds. *)
From Coq Require Import Lia.
From Verif.Base Require Import PyStr PyNum PyVal PyDict Outcome.
From Verif.Model Require Import Warn Lib Convert Input Json Readers Flatten Csv Ods Schema Output Commands.
From Verif.Spec Require Import Flat Paths Commands Trip FlattenRun Written FlattenOutcome.
From Verif.Proofs Require Import JvInd CommandFacts CommandRun CommandTotal FlattenTrace FlattenRows FlattenRun FlattenPlain FlattenPaths FlattenTotal OutputFacts TripRun FlattenCommand.
Local Open Scope res_scope.

(** ** roll-ups *)
Section Total.
  Variable O : popts.
  Hypothesis NX : po_xml O = false.

  Lemma ids_oks r ids : forall row s, oks (add_parent_ids O r ids row s).
  Proof.
    induction ids as [|[k v] ids IH]; intros row s; cbn [add_parent_ids]; [apply oks_ret|]. destruct (use_key O r k s). rewrite NX.
    apply oks_bind; [apply oks_ret|]. intros a. apply IH.
  Qed.
  Lemma rollup_below r parent key l row s : parent <> [] -> rollup O r parent key l row s = ret (s, row).
  Proof. intros H. unfold rollup. destruct parent; [contradiction|]. destruct (po_rollup O); reflexivity. Qed.
  Lemma dropped key k : po_preserve O <> [] -> ~ In (key ++ u "/" ++ k) (po_preserve O) -> roll_dropped O key k = true.
  Proof.
    intros H1 H2. unfold roll_dropped. change (u "/") with [slash_c] in H2. destruct (po_preserve O) as [|p l]; [contradiction|]. apply negb_true_iff.
    destruct (str_mem _ _) eqn:E; [|reflexivity]. apply str_mem_In in E. contradiction.
  Qed.
  Lemma roll_single_oks r key item : (forall k x, In (k, x) item -> jbasic x = true \/ (po_preserve O <> [] /\ ~ In (key ++ u "/" ++ k) (po_preserve O))) ->
    forall row s, oks (roll_single O r key item row s).
  Proof.
    induction item as [|[k v] item IH]; intros H row s; cbn [roll_single]; [apply oks_ret|]. specialize (IH (fun k x Hx => H k x (or_intror Hx))).
    destruct (roll_dropped O key k) eqn:D; [apply IH|]. destruct (H k v (or_introl eq_refl)) as [B|[B1 B2]]; [|rewrite (dropped key k B1 B2) in D; discriminate].
    rewrite B. cbn [negb]. destruct (roll_column O key k); [destruct (set_cell _ _ _ _ _ _)|]; apply IH.
  Qed.
  Lemma all_keys_oks l : (forall v, In v l -> exists o, v = JO o) -> oks (all_keys l).
  Proof.
    induction l as [|v l IH]; intros H; cbn [all_keys]; [apply oks_ret|]. destruct (H v (or_introl eq_refl)) as (o & ->).
    apply oks_bind; [apply IH; intros x Hx; apply H; right; exact Hx|]. intros a. apply oks_ret.
  Qed.
  Lemma roll_many_oks r key ks : forall row s, oks (roll_many O r key ks row s).
  Proof.
    induction ks as [|k ks IH]; intros row s; cbn [roll_many]; [apply oks_ret|]. destruct (roll_dropped O key k); [apply IH|]. destruct (roll_many_wanted O key k); [|apply IH].
    apply oks_bind; [eexists _, _; reflexivity|]. intros _. destruct (set_cell _ _ _ _ _ _). apply IH.
  Qed.
  Lemma rollup_oks r parent key l d : rollable O d -> In (key, JA l) d -> (exists o, In (JO o) l) -> forall row s, oks (rollup O r parent key l row s).
  Proof.
    intros HR Hin (o & Ho) row s. unfold rollup. destruct HR as [-> |[Ht H]]; [apply oks_ret|]. destruct (po_rollup O) as [|p ps]; [apply oks_ret|]. destruct parent as [|c parent]; [|apply oks_ret].
    destruct (H key l o Hin Ho) as [Ha H1]. apply oks_bind.
    { destruct (po_titles O); [|apply oks_ret]. destruct (po_schema O); [apply oks_ret|]. exfalso. apply Ht; reflexivity. }
    intros _. destruct l as [|v [|v2 l]].
    - apply oks_ret.
    - destruct (Ha v (or_introl eq_refl)) as (o' & ->). destruct Ho as [[= ->]|[]]. apply roll_single_oks. exact (H1 eq_refl).
    - apply oks_bind; [apply all_keys_oks; exact Ha|]. intros ks. apply roll_many_oks.
  Qed.

  (** ** geometries *)
  Definition calm (v : jv) : Prop := forall d, item_of v d -> ~ geometry O d.
  Lemma shas_keys (k : str) (d : jobj) : shas k d = true -> In k (map fst d).
  Proof.
    unfold shas, ahas. induction d as [|[k' v] d IH]; cbn [aget map fst]; [discriminate|]. destruct (str_eqb_spec k k') as [-> |_]; [left; reflexivity|]. intros H. right. apply IH. exact H.
  Qed.
  Lemma geo_oks r d parent row s : row <> None \/ ~ geometry O d -> oks (geo O r d parent row s).
  Proof.
    intros H. unfold geo. destruct (po_wkt O && shas (u "type") d && shas (u "coordinates") d) eqn:E; [|apply oks_ret].
    destruct (po_shape O) as [shape|] eqn:Es; [|apply oks_bind; [eexists _, _; reflexivity|intros _; apply oks_ret]].
    destruct (use_key O r (strip_slash parent) s). destruct (shape d) as [text|] eqn:Ed; [|apply oks_bind; [eexists _, _; reflexivity|intros _; apply oks_ret]].
    destruct row; [apply oks_ret|]. exfalso. destruct H as [H|H]; [congruence|]. apply H. apply andb_prop in E as [E E3]. apply andb_prop in E as [E1 E2].
    split; [exact E1|]. split; [apply shas_keys; exact E2|]. split; [apply shas_keys; exact E3|]. exists shape, text. auto.
  Qed.

  (** ** records *)
  Definition below (v : jv) : Prop := forall d, v = JO d -> regular v -> calm v -> forall r parent row ids top s, row <> None \/ ~ geometry O d -> parent <> [] -> oks (parse_value O v r parent row ids top s).
  Lemma items_below name path ids l : path <> [] -> Forall below l -> Forall regular l -> (forall v, In v l -> v = JS SNone \/ exists d, v = JO d) ->
    calm (JA l) -> forall s, oks (items (parse_value O) name path ids l s).
  Proof.
    intros Hp HF HR Hv HC. induction HF as [|v l H1 _ IH]; intros s; cbn [items]; [apply oks_ret|].
    assert (HC' : calm (JA l)).
    { intros d Hd. apply HC. inversion Hd; subst; [apply io_here; right; assumption|]. eapply io_array; [right; eassumption|assumption]. } apply Forall_cons_iff in HR as [HR1 HR].
    assert (Hv' : forall v, In v l -> v = JS SNone \/ exists d, v = JO d) by (intros x Hx; apply Hv; right; exact Hx).
    destruct (Hv v (or_introl eq_refl)) as [-> |(d & ->)]; [apply IH; assumption|].
    apply oks_bind; [eapply H1; [reflexivity|exact HR1| |right; apply HC, io_here; left; reflexivity|exact Hp]; intros e He; apply HC; eapply io_array; [left; reflexivity|exact He]|]. intros a. apply IH; assumption.
  Qed.
  Lemma an_object l : Forall regular l -> (forall v, In v l -> v = JS SNone \/ exists d, v = JO d) -> forallb jbasic l = false -> exists o, In (JO o) l.
  Proof.
    intros _ H. induction l as [|v l IH]; intros E; [discriminate|]. destruct (H v (or_introl eq_refl)) as [-> |(d & ->)]; [|exists d; left; reflexivity].
    cbn in E. destruct IH as (o & Ho); [intros x Hx; apply H; right; exact Hx|exact E|]. exists o. right. exact Ho.
  Qed.
  Lemma app_slash_ne (a b : str) : a ++ b ++ [slash_c] <> [].
  Proof. intros Q. apply app_eq_nil in Q as [_ Q]. apply app_eq_nil in Q as [_ Q]. discriminate. Qed.
  Lemma app_item_ne (a b : str) : a ++ b ++ u "/0/" <> [].
  Proof. intros Q. apply app_eq_nil in Q as [_ Q]. apply app_eq_nil in Q as [_ Q]. discriminate. Qed.
  Lemma entries_run r skip ids d0 d : (forall x, In x d -> In x d0) -> Forall (fun kv => below (snd kv) /\ forall l, snd kv = JA l -> Forall below l) d -> Forall (fun kv => regular (snd kv)) d ->
    (forall k v, In (k, v) d -> calm v) -> forall parent row s, parent <> [] \/ rollable O d0 -> oks (entries O (parse_value O) r skip ids d parent row s).
  Proof.
    intros Hsub HF HR HC. induction HF as [|[key value] d [Hv Ha] _ IH]; intros parent row s HP; cbn [entries]; [apply oks_ret|].
    apply Forall_cons_iff in HR as [HR1 HR]. cbn [snd] in *. specialize (IH (fun x Hx => Hsub x (or_intror Hx)) HR (fun k v Hx => HC k v (or_intror Hx))). specialize (HC key value (or_introl eq_refl)).
    destruct (skip && _); [apply IH; exact HP|]. cbv zeta. destruct (preserve_skips _ _ _); [apply IH; exact HP|].
    destruct value as [v|l|d1].
    - cbn [regular] in HR1. rewrite HR1. rewrite NX. cbn [andb]. destruct (set_cell _ _ _ _ _ _). apply IH. exact HP.
    - destruct (forallb jbasic l) eqn:E1; [destruct (set_cell _ _ _ _ _ _); apply IH; exact HP|].
      destruct (forallb inner_array l) eqn:E2; [destruct (set_cell _ _ _ _ _ _); apply IH; exact HP|].
      apply regular_array in HR1 as [HR1|[HR1|[HR1 HR2]]]; [congruence|congruence|].
      apply oks_bind.
      + destruct HP as [HP|HP]; [rewrite rollup_below by exact HP; apply oks_ret|]. eapply rollup_oks; [exact HP|apply Hsub; left; reflexivity|]. exact (an_object l HR1 HR2 E1).
      + intros x. apply oks_bind; [|intros s'; apply IH; exact HP]. apply items_below; [apply app_item_ne|apply Ha; reflexivity|exact HR1|exact HR2|exact HC].
    - apply oks_bind; [eapply Hv; [reflexivity|exact HR1|exact HC|left; discriminate|apply app_slash_ne]|]. intros x. apply IH. exact HP.
  Qed.
  Lemma dict_run d : Forall (fun kv => below (snd kv) /\ forall l, snd kv = JA l -> Forall below l) d -> regular (JO d) -> calm (JO d) ->
    forall r parent row ids top s, row <> None \/ ~ geometry O d -> parent <> [] \/ rollable O d -> oks (parse_value O (JO d) r parent row ids top s).
  Proof.
    intros IH HR HC r parent row ids top s HG HP. apply regular_JO in HR. cbn [parse_value]. unfold dict.
    apply oks_bind; [apply geo_oks; exact HG|]. intros g. destruct g as [[[skip row1] s1]|]; [|apply oks_ret].
    cbv zeta. destruct (filtered_out O parent d); [apply oks_ret|]. apply oks_bind; [destruct top; [apply ids_oks|apply oks_ret]|].
    intros x. destruct (own_ids O r d parent ids (fst x)) as [ids' s3]. apply oks_bind; [apply (entries_run _ _ _ d d); auto; intros k v Hk e He; apply HC; eapply io_object; eassumption|].
    intros y. destruct row1; [apply oks_ret|]. destruct (sheet_at r (fst y)); [|apply oks_ret]. destruct (append_line _ _ _). apply oks_ret.
  Qed.
  Lemma below_all v : (below v /\ forall l, v = JA l -> Forall below l) /\ (forall d, v = JO d -> Forall (fun kv => below (snd kv) /\ forall l, snd kv = JA l -> Forall below l) d).
  Proof.
    induction v as [s|l IH|d IH] using jv_ind'.
    - split; [split; [intros d Q; discriminate Q|discriminate]|discriminate].
    - split; [|discriminate]. split; [intros d Q; discriminate Q|]. intros l' [= <-]. eapply Forall_impl; [|exact IH]. intros v [[H _] _]. exact H.
    - assert (D : Forall (fun kv => below (snd kv) /\ forall l, snd kv = JA l -> Forall below l) d) by (eapply Forall_impl; [|exact IH]; intros kv [H _]; exact H).
      split; [split; [|discriminate]|intros d' [= <-]; exact D]. intros d' [= <-] HR HC r parent row ids top s HG HP. apply dict_run; auto.
  Qed.
  Lemma records_oks l : data_fits O l -> forall num s, oks (parse_list O num l s).
  Proof.
    intros [H HC]. induction l as [|v l IH]; intros num s; cbn [parse_list]; [apply oks_ret|]. specialize (IH (fun d Hd => H d (or_intror Hd))).
    assert (HC' : forall d, item_of (JA l) d -> ~ geometry O d).
    { intros d Hd. apply HC. inversion Hd; subst; [apply io_here; right; assumption|]. eapply io_array; [right; eassumption|assumption]. }
    specialize (IH HC').
    assert (G : oks (bind (warn1 (FNotObject num)) (fun _ => parse_list O (num + 1)%N l s))) by (apply oks_bind; [eexists _, _; reflexivity|intros _; apply IH]).
    destruct v as [[]|l0|d]; try exact G; [apply IH|]. apply oks_bind; [|intros x; apply IH].
    destruct (H d (or_introl eq_refl)) as [H1 H2]. apply dict_run; [apply (below_all (JO d)); reflexivity|exact H1| |right; apply HC, io_here; left; reflexivity|right; exact H2].
    intros e He. apply HC. eapply io_array; [left; reflexivity|exact He].
  Qed.
  Theorem data_flattened drop pi l : data_fits O l -> exists s w, flatten O drop pi l = Ok s w.
  Proof.
    intros H. unfold flatten. apply oks_bind; [apply records_oks; exact H|]. intros s. apply oks_bind; [|intros _; apply oks_ret].
    destruct (filter _ pi); eexists _, _; reflexivity.
  Qed.
End Total.

(** ** writing *)
Lemma map_o_oks {A B} (f : A -> OR B) l : (forall x, In x l -> oks (f x)) -> oks (map_o f l).
Proof.
  induction l as [|x l IH]; intros H; cbn [map_o]; [apply oks_ret|]. apply oks_bind; [apply H; left; reflexivity|]. intros y.
  apply oks_bind; [apply IH; intros z Hz; apply H; right; exact Hz|]. intros r. apply oks_ret.
Qed.
Lemma bind_run {W A B} (m : res W A) (f : A -> res W B) : oks m -> (forall a w, m = Ok a w -> oks (f a)) -> oks (bind m f).
Proof. intros (a & w & E) H. destruct (H a w E) as (b & w2 & E2). exists b, (w ++ w2). rewrite E. cbn [bind]. rewrite E2. reflexivity. Qed.
Lemma clean_oks v : oks (clean_value v).
Proof. destruct v as [[]| |]; try apply oks_ret. cbn [clean_value]. cbv zeta. apply oks_bind; [destruct (str_eqb _ _); eexists _, _; reflexivity|]. intros _. apply oks_ret. Qed.
Lemma named_row n x : tb_rows (named n x) = tb_rows x /\ tb_header (named n x) = tb_header x.
Proof. split; reflexivity. Qed.
Lemma xlsx_sheet_oks E W x : taken E W Xlsx x -> oks (xlsx_sheet W E x).
Proof.
  intros (Ht & Hh & Hv). unfold xlsx_sheet. cbv zeta. rewrite Ht. cbn [refuse]. apply oks_bind; [apply oks_ret|]. intros _. apply oks_bind.
  - apply map_o_oks. intros v Hin. apply in_map_iff in Hin as (h & <- & Hin). unfold xlsx_value. rewrite (Hh h Hin). apply oks_bind; [apply oks_ret|]. intros _. apply oks_ret.
  - intros hs. apply oks_bind; [|intros rows; apply oks_ret]. apply map_o_oks. intros row Hrow. unfold xlsx_out_row. apply bind_run.
    + apply map_o_oks. intros h _. apply clean_oks.
    + intros l w Hl. apply map_o_oks. intros v Hin. apply map_o_F in Hl. assert (exists h, In h (tb_header x) /\ exists w', clean_value (get_value row h) = Ok v w') as (h & Hin' & w' & Hc).
      { clear Hh Hv. induction Hl as [|h v' hs1 l Hc _ IH]; [destruct Hin|]. destruct Hin as [<-|Hin]; [exists h; split; [left; reflexivity|exact Hc]|]. destruct (IH Hin) as (h2 & A & B). exists h2. split; [right; exact A|exact B]. }
      apply clean_value_ok in Hc as [Hc _]. unfold xlsx_value. rewrite (Hv row h _ v Hrow Hin' (get_value_has row h) Hc). apply oks_bind; [apply oks_ret|]. intros _. apply oks_ret.
Qed.
Lemma make_cell_oks E v : ods_takes E v -> oks (make_cell E v).
Proof.
  intros H. unfold make_cell. destruct (jfalsy v) eqn:J; [apply oks_ret|]. destruct H as [H|(s & -> & H)]; [apply jfalsy_nothing in H; congruence|].
  destruct (we_float E s) as [f| |e] eqn:Ef; [apply oks_ret|apply oks_ret|]. exfalso. exact (H e eq_refl).
Qed.
Lemma ods_sheet_oks E W x : taken E W Ods x -> oks (ods_sheet W E x).
Proof.
  intros (Hh & Hv). unfold ods_sheet. apply oks_bind; [apply map_o_oks; intros h Hin; apply make_cell_oks; exact (Hh h Hin)|]. intros hs.
  apply oks_bind; [|intros rows; apply oks_ret]. apply map_o_oks. intros row Hrow. unfold ods_out_row. apply oks_bind; [|intros l; apply oks_ret].
  apply map_o_oks. intros h Hin. apply bind_run; [apply clean_oks|]. intros v w Hc. apply clean_value_ok in Hc as [Hc _]. apply make_cell_oks. exact (Hv row h _ v Hrow Hin (get_value_has row h) Hc).
Qed.
Lemma in_order_In W main subs x : In x (in_order W main subs) -> In x (named (w_main W) main :: subs).
Proof. destruct (in_order_spec W main subs) as (subs' & -> & P & _). intros [<-|H]; [left; reflexivity|right]. apply (Permutation.Permutation_in _ (Permutation.Permutation_sym P) H). Qed.
Lemma output_oks Wd ms prefix t main subs f name : (f = Csv -> forall x, In x (main :: subs) -> covered_rows x) ->
  (forall x, In x (named ms main :: subs) -> taken (wd_wenv Wd) {| w_main := ms; w_output := name; w_prefix := prefix; w_term := t |} f x) ->
  oks (spreadsheet_output Wd ms prefix t main subs f name).
Proof.
  intros Hc Ht. unfold spreadsheet_output. set (W := {| w_main := ms |}) in *.
  assert (Ht' : forall x, In x (in_order W main subs) -> taken (wd_wenv Wd) W f x) by (intros x Hx; apply Ht; exact (in_order_In W main subs x Hx)).
  assert (L : forall A (m : OR A), oks m -> oks (lift AOutput m)) by (intros A m (a & w & ->); eexists _, _; reflexivity).
  cbv zeta. destruct f.
  - apply oks_bind.
    + apply L. unfold write_csv_files. rewrite csv_sheets_total; [eexists _, _; reflexivity| |intros x Hx; exact (Ht' x Hx)].
      apply Forall_forall. intros x Hx. apply in_order_In in Hx as [<-|Hx]; [|exact (Hc eq_refl x (or_intror Hx))].
      pose proof (Hc eq_refl main (or_introl eq_refl)) as C. exact C.
    + intros fs. destruct (each_write fs) as (r & Hr). rewrite Hr. eexists _, _. reflexivity.
  - apply oks_bind; [apply L, map_o_oks; intros x Hx; apply xlsx_sheet_oks, Ht'; exact Hx|]. intros b. eexists _, _. reflexivity.
  - apply oks_bind; [apply L, map_o_oks; intros x Hx; apply ods_sheet_oks, Ht'; exact Hx|]. intros b. eexists _, _. reflexivity.
Qed.

(** ** reading the input *)
Lemma asked_truthy r : ~ asks r -> roll_truthy r = false.
Proof. intros H. destruct (roll_truthy r) eqn:E; [|reflexivity]. apply truthy_asks in E. contradiction. Qed.
Lemma resolve_runs Wd schema r l : rollups Wd (schema_rollups schema) r l -> oks (resolve_rollup Wd schema r).
Proof.
  intros H. unfold resolve_rollup. fold (schema_rollups schema). inversion H; subst.
  - rewrite asked_truthy by assumption. eexists _, _. reflexivity.
  - apply truthy_asks in H0. rewrite H0. destruct (schema_rollups schema) as [|p ps]; [contradiction|]. apply oks_bind; [|intros _; apply oks_ret].
    destruct r as [| |[|[|p0] [|y l']]]; eexists _, _; reflexivity.
  - rewrite H0. cbn [roll_truthy]. rewrite H1, H2. eexists _, _. reflexivity.
  - rewrite H0. cbn [roll_truthy]. rewrite H1. eexists _, _. reflexivity.
  - rewrite H0. destruct l as [|p1 [|p2 ps]]; cbn [length] in *; [lia|lia|]. eexists _, _. reflexivity.
Qed.
Lemma resolve_is Wd schema r l : rollups Wd (schema_rollups schema) r l -> exists w, resolve_rollup Wd schema r = Ok l w.
Proof.
  intros H. unfold resolve_rollup. fold (schema_rollups schema). inversion H; subst.
  - rewrite asked_truthy by assumption. eexists. reflexivity.
  - apply truthy_asks in H0. rewrite H0. destruct (schema_rollups schema) as [|p ps]; [contradiction|]. destruct r as [| |[|[|p0] [|y l']]]; eexists; reflexivity.
  - rewrite H0. cbn [roll_truthy]. rewrite H1, H2. eexists. reflexivity.
  - rewrite H0. cbn [roll_truthy]. rewrite H1. eexists. reflexivity.
  - rewrite H0. destruct l as [|p1 [|p2 ps]]; cbn [length] in *; [lia|lia|]. cbn [map roll_truthy]. eexists. change (RPath p1 :: RPath p2 :: map RPath ps) with (map RPath (p1 :: p2 :: ps)).
    rewrite roll_paths_map. reflexivity.
Qed.
Section Run.
  Variables (Wd : world) (F : flopts) (f : fmt) (t : term) (schema : option sps) (roll lines : list str) (recs : list jv).
  Hypothesis H : can_flatten Wd F f t schema roll lines recs.
  Lemma not_bad : ~ bad_flatten F.
  Proof.
    destruct H as (_ & Ht & _ & Hf & _). intros [B|[B|B]].
    - destruct B as [B1 B2]. apply B2. apply Hf. exact B1.
    - destruct B as [B1 B2]. apply B1. apply Hf. exact B2.
    - apply term_none in B. congruence.
  Qed.
  Lemma parse_is : exists w, flatten_parse Wd F = (x <- Ok tt w ;; lift AFlatten (flatten (run_opts Wd F schema roll lines) (f_drop F) (requests lines) recs)).
  Proof.
    destruct H as (Hx & Ht & Hf & _ & [(asked & Ha & Hs) Hr Hl Hd] & (v & ks & Hv & Hp)).
    assert (Q : asked = roll_truthy (f_roll F)).
    { destruct (roll_truthy (f_roll F)) eqn:E.
      - apply Ha. apply truthy_asks. exact E.
      - destruct asked; [|reflexivity]. pose proof (proj1 Ha eq_refl) as A. apply truthy_asks in A. congruence. }
    subst asked. destruct (schema_runs Wd _ _ _ _ Hs) as (ws & Es). unfold optional_schema, run_schema_opts in Es.
    destruct (resolve_is Wd schema _ _ Hr) as (wr & Er).
    assert (El : exists wl, preserve_lines Wd F = Ok lines wl).
    { unfold preserve_lines. destruct Hl as [[-> ->]|[N E]]; [eexists; reflexivity|]. destruct (f_preserve F); [contradiction|]. rewrite E. eexists. reflexivity. }
    destruct El as (wl & El). assert (Ew : exists wp, preserve_warning Wd schema lines (negb (is_nil (f_preserve F))) = Ok tt wp).
    { unfold preserve_warning. destruct schema; [|eexists; reflexivity]. destruct (negb _); eexists; reflexivity. }
    destruct Ew as (wp & Ew). unfold records_read in Hd. rewrite Hx in Hd. destruct Hd as (v' & Hv' & Hd). assert (v' = v) by congruence. subst v'.
    pose proof (records_there F v ks Hx Hp) as Rt. rewrite <- (Hd ks Hp) in Rt.
    assert (Es' : flatten_parse Wd F = (schema <- Ok schema ws ;; json_parser Wd F schema)) by (unfold flatten_parse; rewrite <- Es; destruct (f_schema F); reflexivity).
    rewrite Es'. unfold json_parser. rewrite Hx, El. unfold read_document. rewrite Hx, Hv. cbn [bind]. rewrite Er. cbn [bind]. rewrite Ew. cbn [bind open_file]. rewrite Rt. cbn [bind ret fst snd].
    rewrite opts_means. unfold requests. fold (preserve_fields_input lines).
    match goal with |- context [lift AFlatten ?m0] => generalize (lift AFlatten m0); intros m end.
    clear. exists (ws ++ wr ++ (wl ++ wp ++ [Opened (f_input F)] ++ [])). destruct m as [s w|e w]; cbn [bind ret]; rewrite ?app_nil_r, <- ?app_assoc; reflexivity.
  Qed.
  Theorem flatten_fails_with e w : flatten (run_opts Wd F schema roll lines) (f_drop F) (requests lines) recs = Raise e w -> exists w', flatten_file Wd F = Raise e w' /\ silent w'.
  Proof.
    intros He. destruct (flatten_split Wd F not_bad) as (t' & _ & E). destruct parse_is as (w1 & Ep). rewrite He in Ep. cbn [lift bind] in Ep. rewrite E, Ep. cbn [bind]. eexists. split; [reflexivity|].
    pose proof (flatten_parse_silent Wd F) as S. rewrite Ep in S. exact S.
  Qed.
  Theorem flatten_succeeds_with s w : flatten (run_opts Wd F schema roll lines) (f_drop F) (requests lines) recs = Ok s w ->
    (f = Csv -> schema_ready (run_opts Wd F schema roll lines) /\ name_free (run_opts Wd F schema roll lines) s) ->
    (forall x, In x (named (f_main F) (main_table s) :: sub_tables s) -> taken (wd_wenv Wd) (run_writer F f t) f x) -> exists w', flatten_file Wd F = Ok tt w'.
  Proof.
    intros Hs Hc Htk. destruct (flatten_split Wd F not_bad) as (t' & Et & E). destruct parse_is as (w1 & Ep). rewrite Hs in Ep. cbn [lift bind] in Ep.
    destruct H as (_ & Ht & Hf & _). assert (t' = t) by congruence. subst t'. rewrite E, Ep. cbn [bind]. rewrite (write_single Wd _ _ _ _ _ _ _ f _ Hf), name_means.
    destruct (output_oks Wd (f_main F) (f_prefix F) t (main_table s) (sub_tables s) f (output_name (u "flattened") f (f_output F))) as ([] & w2 & Eo); [| |].
    - intros Q x Hx. destruct (Hc Q) as [SR NF]. intros row k v Hrow Hk. exact (flatten_covered _ _ _ SR _ _ _ Hs NF x row k v Hx Hrow Hk).
    - exact Htk.
    - rewrite Eo. eexists. reflexivity.
  Qed.
End Run.
Theorem flatten_outcome Wd F f t schema roll lines recs : can_flatten Wd F f t schema roll lines recs ->
  data_fits (run_opts Wd F schema roll lines) recs ->
  exists s w, flatten (run_opts Wd F schema roll lines) (f_drop F) (requests lines) recs = Ok s w /\
    ((f = Csv -> schema_ready (run_opts Wd F schema roll lines) /\ name_free (run_opts Wd F schema roll lines) s) ->
     (forall x, In x (named (f_main F) (main_table s) :: sub_tables s) -> taken (wd_wenv Wd) (run_writer F f t) f x) -> exists w', flatten_file Wd F = Ok tt w').
Proof.
  intros H Hd. destruct (data_flattened (run_opts Wd F schema roll lines) (proj1 H) (f_drop F) (requests lines) recs Hd) as (s & w & E). exists s, w. split; [exact E|].
  exact (flatten_succeeds_with Wd F f t schema roll lines recs H s w E).
Qed.

(** ** templates *)
From Verif.Spec Require Import SchemaFields.
From Verif.Proofs Require Import SchemaTrace SchemaRun SchemaColumns SchemaState SchemaTotal SchemaReady.
Theorem template_succeeds Wd C f t v : sget (c_term C) terminators = Some t -> sget (c_format C) formats = Some f ->
  wd_schema Wd (c_local_off C) (c_schema C) = inr v -> fine_schema (template_sopts Wd C) v -> named_fields (template_sopts Wd C) v ->
  exists s w, parse_schema (template_sopts Wd C) v = Ok s w /\
    ((forall x, In x (template_tables (c_main C) s) -> taken (wd_wenv Wd) (template_writer C f t) f x) -> exists w', create_template Wd C = Ok tt w').
Proof.
  intros Ht Hf Hv Hfine Hn. destruct (schema_fine _ _ Hfine) as (s & w & Hs). exists s, w. split; [exact Hs|]. intros Htk.
  assert (G : ~ bad_template C). { intros B. apply term_none in B. congruence. }
  destruct (template_split Wd C G) as (t' & Et & E). assert (t' = t) by congruence. subst t'. rewrite E. unfold template_parse, schema_parser. rewrite Hv. cbn [open_file].
  cbn [bind]. change (parse_schema _ v) with (parse_schema (template_sopts Wd C) v). rewrite Hs. cbn [bind lift]. rewrite (write_single Wd _ _ _ _ _ _ _ f _ Hf), name_means.
  destruct (parse_facts _ _ _ _ Hs (named_fields_named _ _ Hn)) as (tr & R & Or & _ & _).
  destruct (runs_state (template_sopts Wd C) tr _ _ _ _ [] R (start_good _) (Or []) (fun _ H => match H with end)) as ((G1 & G2 & (_ & _ & _ & G4) & _) & _).
  assert (L : forall n x, sh_lines x = LMem [] -> tb_rows (table_of [] n x) = []) by (intros n x Hx; unfold table_of, lines_of; cbn [tb_rows]; rewrite Hx; reflexivity).
  destruct (output_oks Wd (c_main C) [] t (table_of [] [] (sp_main s)) (map (fun nx => table_of [] (fst nx) (snd nx)) (sp_subs s)) f (output_name (u "template") f (c_output C))) as ([] & w2 & Eo).
  - intros _ x Hx row k y Hrow _. exfalso. assert (N : tb_rows x = []).
    { destruct Hx as [<-|Hx]; [apply L; exact G4|]. apply in_map_iff in Hx as ([sn sh] & <- & Hx). apply L. apply (G2 sn sh). exact (In_sget _ _ _ G1 Hx). }
    rewrite N in Hrow. exact Hrow.
  - intros x Hx. apply Htk. unfold template_tables. destruct Hx as [<-|Hx].
    + left. unfold named, table_of, lines_of. cbn [tb_rows tb_header tb_name]. rewrite G4. reflexivity.
    + right. apply in_map_iff in Hx as ([sn sh] & <- & Hx). apply in_map_iff. exists (sn, sh). split; [|exact Hx]. cbn [fst snd]. unfold table_of, lines_of.
      destruct (G2 sn sh (In_sget _ _ _ G1 Hx)) as (_ & _ & _ & Q). rewrite Q. reflexivity.
  - rewrite Eo. eexists. reflexivity.
Qed.
Lemma template_taken E W f n h : taken E W f {| tb_name := n; tb_header := h; tb_rows := [] |} <->
  match f with
  | Csv => we_open E (path_join (w_output W) (w_prefix W ++ n ++ u ".csv")) = None
  | Xlsx => we_title E (firstn 31 (w_prefix W ++ n)) = None /\ forall x, In x h -> we_cell E (JS (SStr x)) = None
  | Ods => forall x, In x h -> ods_takes E (JS (SStr x))
  end.
Proof.
  destruct f; cbn [taken tb_name tb_header tb_rows]; [reflexivity| |].
  - split; [intros (A & B & _); auto|intros (A & B); split; [exact A|]; split; [exact B|]; intros row h0 v v' []].
  - split; [intros (B & _); auto|intros B; split; [exact B|]; intros row h0 v v' []].
Qed.
Theorem template_fails Wd C t v e w : sget (c_term C) terminators = Some t -> wd_schema Wd (c_local_off C) (c_schema C) = inr v ->
  parse_schema (template_sopts Wd C) v = Raise e w -> exists w', create_template Wd C = Raise e w' /\ silent w'.
Proof.
  intros Ht Hv Hs. assert (G : ~ bad_template C). { intros B. apply term_none in B. congruence. }
  destruct (template_split Wd C G) as (t' & Et & E). rewrite E. unfold template_parse.
  pose proof (schema_parser_silent Wd (c_local_off C) (c_schema C) (template_sopts Wd C)) as S1. unfold schema_parser in *. rewrite Hv in *. cbn [open_file bind] in *.
  change (parse_schema _ v) with (parse_schema (template_sopts Wd C) v). rewrite Hs in *. cbn [bind lift] in *. eexists. split; [reflexivity|]. cbn [warns] in S1. exact S1.
Qed.
