(** When unflatten succeeds. *)
From Verif.Base Require Import PyStr PyNum PyVal PyDict Outcome.
From Verif.Model Require Import Warn Lib Convert Input Json SourceMap Readers Titles TitleLines Flatten Schema SortXml XmlOut Csv Output Commands.
From Verif.Spec Require Import Commands Conversion Plain Ids Odds Outcomes.
From Verif.Proofs Require Import JvInd TreeInd RowWf EmbedFacts ConvertFacts RunSource MapSound CommandFacts CommandRun Total Odds.
Local Open Scope res_scope.

(** ** writing JSON *)
Section Dump.
  Variable Wd : world.
  Lemma list_runs {A B} (f : A -> R B) l : (forall x, In x l -> exists y, f x = Ok y []) -> exists r, dump_list f l = Ok r [].
  Proof.
    induction l as [|x l IH]; intros H; [exists []; reflexivity|]. destruct (H x (or_introl eq_refl)) as (y & Hy). destruct IH as (r & Hr); [intros z Hz; apply H; right; exact Hz|].
    exists (y :: r). change (dump_list f (x :: l)) with (y <- f x ;; r <- dump_list f l ;; ret (y :: r)). rewrite Hy. cbn [bind]. rewrite Hr. reflexivity.
  Qed.
  Lemma items_run {A} (f : A -> R jout) d : (forall k x, In (k, x) d -> exists y, f x = Ok y []) -> exists r, dump_items f d = Ok r [].
  Proof.
    intros H. unfold dump_items. apply list_runs. intros [k x] Hx. destruct (H k x Hx) as (y & Hy). exists (k, y). cbn [fst snd]. rewrite Hy. reflexivity.
  Qed.
  Lemma json_runs v : loaded v -> exists o, dump_json Wd v = Ok o [].
  Proof.
    induction v as [s|l IH|d IH] using jv_ind'; intros L; inversion L as [s0 Hs|l0 Hl|d0 Hd]; subst.
    - cbn [dump_json]. destruct (json_scalar_ok (we_env (wd_wenv Wd)) s) as (j & Hj); [destruct s; try contradiction; reflexivity|]. rewrite Hj. eexists. reflexivity.
    - destruct (list_runs (dump_json Wd) l) as (r & Hr).
      + rewrite Forall_forall in IH, Hl. intros x Hx. exact (IH x Hx (Hl x Hx)).
      + exists (OArr r). change (dump_json Wd (JA l)) with (r <- dump_list (dump_json Wd) l ;; ret (OArr r)). rewrite Hr. reflexivity.
    - destruct (items_run (dump_json Wd) d) as (r & Hr).
      + rewrite Forall_forall in IH, Hd. intros k x Hx. exact (IH (k, x) Hx (Hd (k, x) Hx)).
      + exists (OObj r). change (dump_json Wd (JO d)) with (r <- dump_items (dump_json Wd) d ;; ret (OObj r)). rewrite Hr. reflexivity.
  Qed.
  Lemma node_runs n : (forall v, inside (VLeaf v) n -> finite_cell v = true) -> exists o, dump_node Wd n = Ok o [].
  Proof.
    induction n as [c|d IH|l IH] using vnode_ind'; intros H.
    - destruct (json_cell_ok (we_env (wd_wenv Wd)) c) as (j & Hj); [apply H; constructor|]. cbn [dump_node]. rewrite Hj. eexists. reflexivity.
    - destruct (items_run (dump_node Wd) d) as (r & Hr).
      + unfold Pvd in IH. rewrite Forall_forall in IH. intros k x Hx. apply (IH (k, x) Hx). intros v Hv. apply H. eapply in_dict; eassumption.
      + exists (OObj r). change (dump_node Wd (VDict d)) with (r <- dump_items (dump_node Wd) d ;; ret (OObj r)). rewrite Hr. reflexivity.
    - destruct (list_runs (fun d => x <- dump_items (dump_node Wd) d ;; ret (OObj x)) l) as (r & Hr).
      + intros d Hd. rewrite Forall_forall in IH. pose proof (IH d Hd) as IHd. unfold Pvd in IHd. rewrite Forall_forall in IHd. destruct (items_run (dump_node Wd) d) as (r & Hr).
        * intros k x Hx. apply (IHd (k, x) Hx). intros v Hv. apply H. eapply in_list; eassumption.
        * rewrite Hr. eexists. reflexivity.
      + exists (OArr r). change (dump_node Wd (VList l)) with (r <- dump_list (fun d => x <- dump_items (dump_node Wd) d ;; ret (OObj x)) l ;; ret (OArr r)). rewrite Hr. reflexivity.
  Qed.
  Lemma records_run r : all_finite r -> exists o, dump_records Wd r = Ok o [].
  Proof.
    intros H. unfold dump_records. destruct (list_runs (dump_record Wd) r) as (o & Ho).
    - intros d Hd. unfold dump_record. destruct (items_run (dump_node Wd) d) as (o & Ho).
      + intros k n Hn. apply node_runs. intros v Hv. apply H. eapply in_list; eassumption.
      + rewrite Ho. eexists. reflexivity.
    - rewrite Ho. eexists. reflexivity.
  Qed.
End Dump.

(** ** the command *)
Section Run.
  Variable Wd : world.
  Lemma schema_runs file b S sch : schema_read Wd b file S sch -> exists w, optional_schema Wd file b S = Ok sch w.
  Proof.
    intros [[-> ->]|(N & v & s & w & Hv & Hp & ->)]; [exists []; reflexivity|]. unfold optional_schema, schema_parser. destruct file as [|c file]; [contradiction|].
    rewrite Hv. cbn [open_file bind]. rewrite Hp. cbn [lift bind ret]. eexists. reflexivity.
  Qed.
  Lemma spreadsheet_runs f file rd titles schema O F sheets : sheets_read Wd f file rd titles schema sheets ->
    (forall x w, fancy_unflatten O F sheets = Ok x w -> exists cs w', read_spreadsheet Wd f file rd titles schema O F = Ok (x, cs) w') /\
    (forall e w, fancy_unflatten O F sheets = Raise e w -> exists w', read_spreadsheet Wd f file rd titles schema O F = Raise e w').
  Proof.
    intros (b & raw & w1 & w2 & Hb & Hr & Ht). unfold read_book in Hr. apply bind_ok in Hr as (cs & w3 & w4 & Hc & Hs & _).
    unfold read_spreadsheet. rewrite Hb. cbn [open_file bind]. rewrite Hc. cbn [bind]. rewrite Hs. cbn [bind].
    assert (Ht' : exists w5, (if titles then convert_sheets (wd_lower Wd) (match schema with Some s => Some (sp_table s) | None => None end) raw else ret raw) = Ok sheets w5).
    { destruct titles; [exists w2; destruct schema; exact Ht|exists []; subst; reflexivity]. }
    destruct Ht' as (w5 & Ht'). rewrite Ht'. cbn [bind]. split.
    - intros x w Hf. rewrite Hf. cbn [bind ret lift]. eexists. eexists. reflexivity.
    - intros e w Hf. rewrite Hf. cbn [bind ret lift]. eexists. reflexivity.
  Qed.
  Lemma fancy_raises O F sheets e w : unflatten O sheets = Raise e w -> fancy_unflatten O F sheets = Raise e w.
  Proof. unfold unflatten, fancy_unflatten. destruct (do_unflatten O sheets) as [t wt|e' wt]; cbn [bind ret]; intros H; [discriminate|]. injection H as -> ->. reflexivity. Qed.

  Variables (U : uopts) (sheets : list sheet_in) (O : opts).
  Hypothesis H : can_run Wd U sheets O.
  Lemma base_runs : base_readable Wd U -> exists b0 w, read_base Wd U = Ok b0 w /\ (u_root_list U = true \/ exists b, b0 = inr b /\ forall k x, In (k, x) b -> exists v, x = BJson v /\ loaded v).
  Proof.
    unfold read_base. intros B. destruct (u_root_list U) eqn:El; [do 2 eexists; split; [reflexivity|left; reflexivity]|].
    destruct B as [B|[B|(file & d & Ef & Nf & Hf & Lf)]]; [congruence| |].
    - destruct (u_base U) as [[|c s]|] eqn:Eb; [| |]; try (do 2 eexists; split; [reflexivity|right; exists []; split; [reflexivity|intros ? ? []]]).
      exfalso. apply B. eexists. split; [reflexivity|discriminate].
    - rewrite Ef. destruct file as [|c s]; [contradiction|]. rewrite Hf. cbn [open_file bind ret]. do 2 eexists. split; [reflexivity|]. right. eexists. split; [reflexivity|].
      intros k x Hx. apply in_map_iff in Hx as ([k' v] & [= <- <-] & Hx). exists v. split; [reflexivity|]. inversion Lf as [| |d0 Hd]; subst. rewrite Forall_forall in Hd. exact (Hd _ Hx).
  Qed.
  Definition path0 : str := root_path U (default_conf (u_conf U)).
  Lemma stages : (forall r w, unflatten O sheets = Ok r w -> exists fn f b0 w1 res c h w2, u_format U = Some fn /\ sget fn formats = Some f /\ truthy (u_meta U) = false /\ read_base Wd U = Ok b0 w1 /\
      main_stage Wd U f {| us_base := b0; us_conf := default_conf (u_conf U); us_cells := []; us_heads := [] |} = Ok (res, c, h) w2 /\
      (res = FRecords r \/ exists b, res = FObject (sset path0 (BRecords r) b) /\ forall k x, In (k, x) b -> exists v, x = BJson v /\ loaded v)) /\
    (forall e w, unflatten O sheets = Raise e w -> exists fn f b0 w1 w2, u_format U = Some fn /\ sget fn formats = Some f /\ truthy (u_meta U) = false /\ read_base Wd U = Ok b0 w1 /\
      main_stage Wd U f {| us_base := b0; us_conf := default_conf (u_conf U); us_cells := []; us_heads := [] |} = Raise e w2).
  Proof.
    destruct H as (fn & f & H1 & H2 & H3 & H4 & H5 & H6 & (schema & Hs & Hr & EO)). destruct (base_runs H6) as (b0 & w1 & Hb & Hb').
    assert (Hm : truthy (u_meta U) = false) by (unfold truthy; destruct (u_meta U) as [[|c s]|]; try reflexivity; exfalso; apply H4; eexists; split; [reflexivity|discriminate]).
    destruct (schema_runs _ _ _ _ Hs) as (ws & Es).
    set (F := {| f_root_is_list := u_root_list U; f_root_list_path := path0; f_cells := negb (is_nil (u_cells U)); f_headings := negb (is_nil (u_heads U)) |}).
    destruct (spreadsheet_runs f _ _ _ _ O F sheets Hr) as [R1 R2].
    assert (EM : main_stage Wd U f {| us_base := b0; us_conf := default_conf (u_conf U); us_cells := []; us_heads := [] |} =
       (x <- (schema' <- optional_schema Wd (u_schema U) (u_local_off U) {| so_rollup := true; so_root_id := u_root_id U; so_titles := false; so_trunc := u_trunc U; so_nodep := false; so_wkt := u_wkt U; so_lower := wd_lower Wd |} ;;
              read_spreadsheet Wd f (u_input U) {| rd_base := default_conf (u_conf U); rd_use := true; rd_vertical := u_vertical U; rd_include := []; rd_exclude := match u_meta U with Some n => [n] | None => [] end |}
                (u_titles U) schema' {| o_conv := wd_conv Wd (u_wkt U) (u_zone U); o_types := types_for schema'; o_root_id := u_root_id U; o_id_name := id_name_used U (default_conf (u_conf U)); o_xml := u_xml U; o_vertical := u_vertical U |} F) ;;
        let '(result, cells, heads, _) := x in
        r <- (if u_root_list U then ret (FRecords result) else match b0 with inr b => ret (FObject (sset path0 (BRecords result) b)) | inl _ => Raise ETypeError [] end) ;;
        ret (r, update [] (from_opt cells), update [] (from_opt heads)))).
    { unfold main_stage, read_main. cbn [us_base us_conf us_cells us_heads]. rewrite paths_agree, ids_agree.
      replace (negb (u_meta_only U) || u_root_list U) with true by (destruct H5 as [-> | ->]; [reflexivity|now rewrite orb_true_r]). reflexivity. }
    assert (EO' : {| o_conv := wd_conv Wd (u_wkt U) (u_zone U); o_types := types_for schema; o_root_id := u_root_id U; o_id_name := id_name_used U (default_conf (u_conf U)); o_xml := u_xml U; o_vertical := u_vertical U |} = O).
    { rewrite EO. destruct schema; reflexivity. }
    split.
    - intros r w Hu. destruct (maps_total O F sheets r w Hu) as (mc & mh & Hf & _). destruct (R1 _ _ Hf) as (cs & w' & Hrd).
      rewrite Es in EM. cbn [bind] in EM. rewrite EO', Hrd in EM. cbn [bind] in EM.
      destruct Hb' as [El|(b & -> & Hbl)].
      + rewrite El in EM. cbn [bind ret] in EM. do 8 eexists. do 4 (split; [eassumption|]). split; [exact EM|]. left. reflexivity.
      + destruct (u_root_list U).
        * cbn [bind ret] in EM. do 8 eexists. do 4 (split; [eassumption|]). split; [exact EM|]. left. reflexivity.
        * cbn [bind ret] in EM. do 8 eexists. do 4 (split; [eassumption|]). split; [exact EM|]. right. exists b. split; [reflexivity|exact Hbl].
    - intros e w Hu. apply (fancy_raises O F) in Hu. destruct (R2 _ _ Hu) as (w' & Hrd).
      rewrite Es in EM. cbn [bind] in EM. rewrite EO', Hrd in EM. cbn [bind] in EM. do 5 eexists. do 4 (split; [eassumption|]). exact EM.
  Qed.
  Lemma meta_none f b0 : truthy (u_meta U) = false -> metatab_stage Wd U f b0 (default_conf (u_conf U)) = Ok {| us_base := b0; us_conf := default_conf (u_conf U); us_cells := []; us_heads := [] |} [].
  Proof. unfold metatab_stage, truthy. destruct (u_meta U) as [[|c s]|]; intros X; try discriminate X; reflexivity. Qed.
  Theorem run_succeeds r w : unflatten O sheets = Ok r w -> all_finite r -> exists w', unflatten_file Wd U = Ok tt w'.
  Proof.
    intros Hu Hf. destruct (proj1 stages r w Hu) as (fn & f & b0 & w1 & res & c & h & w2 & H1 & H2 & H3 & Hb & Hm & Hres).
    unfold unflatten_file. rewrite H1, H2, H3. cbn [andb]. rewrite Hb. cbn [bind]. rewrite (meta_none f b0 H3). cbn [bind]. rewrite Hm. cbn [bind].
    assert (Hx : u_xml U = false) by (destruct H as (? & ? & _ & _ & X & _); exact X). rewrite Hx.
    assert (Hd : exists j, dump Wd res = Ok j []).
    { destruct Hres as [->|(b & -> & Hl)]; cbn [dump]; [apply records_run; exact Hf|].
      destruct (items_run (dump_value Wd) (sset path0 (BRecords r) b)) as (o & Ho).
      - intros k x Hx'. apply aset_In in Hx' as [E|Hx']; [cbn [snd] in E; subst x; cbn [dump_value]; apply records_run; exact Hf|].
        destruct (Hl _ _ Hx') as (v & -> & Lv). cbn [dump_value]. apply json_runs. exact Lv.
      - rewrite Ho. eexists. reflexivity. }
    destruct Hd as (j & Hd). unfold json_stage. rewrite Hd. cbn [lift bind write map app]. unfold map_stage. destruct (u_cells U), (u_heads U); cbn [bind ret write]; eexists; reflexivity.
  Qed.
  Theorem run_fails e w : unflatten O sheets = Raise e w -> exists w', unflatten_file Wd U = Raise e w' /\ silent w'.
  Proof.
    intros Hu. destruct (proj2 stages e w Hu) as (fn & f & b0 & w1 & w2 & H1 & H2 & H3 & Hb & Hm).
    unfold unflatten_file. rewrite H1, H2, H3. cbn [andb]. rewrite Hb. cbn [bind]. rewrite (meta_none f b0 H3). cbn [bind]. rewrite Hm. cbn [bind].
    eexists. split; [reflexivity|]. pose proof (read_base_silent Wd U) as S1. rewrite Hb in S1. cbn [warns] in S1.
    pose proof (main_stage_silent Wd U f {| us_base := b0; us_conf := default_conf (u_conf U); us_cells := []; us_heads := [] |}) as S2. rewrite Hm in S2. cbn [warns] in S2.
    intros file c X. unfold written in X. rewrite !in_app_iff in X. destruct X as [X|[X|X]]; [exact (S1 file c X)|destruct X|exact (S2 file c X)].
  Qed.
End Run.

(** ** the outcomes *)
Lemma json_finite E s j w : json_scalar E s = Ok j w -> finite_scalar s = true.
Proof. destruct s as [|b|z|d|f|t|n]; try reflexivity. destruct d; [reflexivity| |]; discriminate. Qed.
Lemma json_list_inv {A} (f : A -> R jsonv) l r w : json_list f l = Ok r w -> forall x, In x l -> exists y w', f x = Ok y w'.
Proof.
  revert r w. induction l as [|x l IH]; intros r w H; [intros x []|]. cbn [json_list] in H. apply bind_ok in H as (y & w1 & w2 & H1 & H & _). apply bind_ok in H as (r' & w3 & w4 & H2 & _ & _).
  intros z [<-|Hz]; [eauto|exact (IH _ _ H2 z Hz)].
Qed.
Lemma json_cell_finite E c j w : json_cell E c = Ok j w -> finite_cell c = true.
Proof.
  destruct c as [s|l|l|g]; cbn [json_cell finite_cell]; intros H; [exact (json_finite _ _ _ _ H)| | |reflexivity].
  - apply bind_ok in H as (r & w1 & w2 & H & _). apply forallb_forall. intros x Hx. destruct (json_list_inv _ _ _ _ H x Hx) as (y & w' & Hy). exact (json_finite _ _ _ _ Hy).
  - apply bind_ok in H as (r & w1 & w2 & H & _). apply forallb_forall. intros x Hx. destruct (json_list_inv _ _ _ _ H x Hx) as (y & w' & Hy).
    apply bind_ok in Hy as (r' & w3 & w4 & Hy & _). apply forallb_forall. intros z Hz. destruct (json_list_inv _ _ _ _ Hy z Hz) as (y' & w5 & Hy'). exact (json_finite _ _ _ _ Hy').
Qed.
Lemma untyped_finite O sheets r w : (forall p, o_types O p = []) -> unflatten O sheets = Ok r w -> all_finite r.
Proof. intros Ht H v Hv. destruct (leaves_json O sheets r w H v Hv (or_introl Ht)) as (j & Hj). exact (json_cell_finite _ _ _ _ Hj). Qed.

Lemma node_finite n : (forall v, inside (VLeaf v) n -> finite_cell v = true) \/ exists v, inside (VLeaf v) n /\ finite_cell v = false.
Proof.
  assert (D : forall d, Pvd (fun n => (forall v, inside (VLeaf v) n -> finite_cell v = true) \/ exists v, inside (VLeaf v) n /\ finite_cell v = false) d ->
    (forall k m v, In (k, m) d -> inside (VLeaf v) m -> finite_cell v = true) \/ exists k m v, In (k, m) d /\ inside (VLeaf v) m /\ finite_cell v = false).
  { induction 1 as [|[k m] d [Hm|(v & Hv & Hf)] _ IH]; [left; intros ? ? ? []| |right; exists k, m, v; split; [left; reflexivity|auto]].
    destruct IH as [IH|(k' & m' & v & Hin & Hv & Hf)]; [|right; exists k', m', v; split; [right; exact Hin|auto]].
    left. intros k' m' v [[= <- <-]|Hin] Hv; [exact (Hm v Hv)|exact (IH _ _ _ Hin Hv)]. }
  induction n as [c|d IH|l IH] using vnode_ind'.
  - destruct (finite_cell c) eqn:E; [left|right; exists c; split; [constructor|exact E]]. intros v Hv. inversion Hv; subst. exact E.
  - destruct (D d IH) as [Hd|(k & m & v & Hin & Hv & Hf)]; [left|right; exists v; split; [eapply in_dict; eassumption|exact Hf]]. intros v Hv. inversion Hv; subst. eapply Hd; eassumption.
  - assert (L : (forall d k m v, In d l -> In (k, m) d -> inside (VLeaf v) m -> finite_cell v = true) \/ exists d k m v, In d l /\ In (k, m) d /\ inside (VLeaf v) m /\ finite_cell v = false).
    { induction IH as [|d l Hd _ IHl]; [left; intros ? ? ? ? []|]. destruct (D d Hd) as [H|(k & m & v & Hin & Hv & Hf)]; [|right; exists d, k, m, v; split; [left; reflexivity|auto]].
      destruct IHl as [IHl|(d' & k & m & v & Hd' & Hin & Hv & Hf)]; [|right; exists d', k, m, v; split; [right; exact Hd'|auto]].
      left. intros d' k m v [<-|Hd'] Hin Hv; [exact (H _ _ _ Hin Hv)|exact (IHl _ _ _ _ Hd' Hin Hv)]. }
    destruct L as [H|(d & k & m & v & Hd & Hin & Hv & Hf)]; [left|right; exists v; split; [eapply in_list; eassumption|exact Hf]]. intros v Hv. inversion Hv; subst. eapply H; eassumption.
Qed.
Lemma out_finite r : all_finite r \/ exists v, inside (VLeaf v) (VList r) /\ finite_cell v = false.
Proof. exact (node_finite (VList r)). Qed.

Theorem no_schema_succeeds Wd U sheets O : can_run Wd U sheets O -> u_schema U = [] -> (forall s, In s sheets -> readable O s) -> exists w, unflatten_file Wd U = Ok tt w.
Proof.
  intros H Hs Hr. assert (HO : (forall p, o_types O p = []) /\ o_xml O = false).
  { destruct H as (fn & f & _ & _ & Hx & _ & _ & _ & (schema & Hsc & _ & EO)). subst O. cbn [o_types o_xml]. split; [|exact Hx]. destruct Hsc as [[_ ->]|[X _]]; [reflexivity|contradiction]. }
  destruct HO as [Ht Hx]. destruct (unflatten_total O Ht Hx sheets Hr) as (r & w & Hu). exact (run_succeeds Wd U sheets O H r w Hu (untyped_finite _ _ _ _ Ht Hu)).
Qed.
Theorem schema_outcome Wd U sheets O : can_run Wd U sheets O -> known_types (o_types O) -> ids_single (o_types O) (o_id_name O) -> (forall s, In s sheets -> acceptable O s) ->
  (exists w, unflatten_file Wd U = Ok tt w) \/
  (exists till w h v, unflatten_file Wd U = Raise (EFlattenToolValueError till) w /\ silent w /\ has_cell sheets h v /\ at_odds (o_types O) (path_items (o_conv O) h) till) \/
  (exists r w v, unflatten O sheets = Ok r w /\ inside (VLeaf v) (VList r) /\ finite_cell v = false).
Proof.
  intros H Hk Hi Ha. assert (Hx : o_xml O = false). { destruct H as (fn & f & _ & _ & Hx & _ & _ & _ & (schema & _ & _ & EO)). subst O. exact Hx. }
  destruct (unflatten_outcome O Hk Hi Hx sheets Ha) as [(r & w & Hu)|(till & w & h & v & Hu & Hc & Ho)].
  - destruct (out_finite r) as [Hf|(v & Hv & Hf)]; [left; exact (run_succeeds Wd U sheets O H r w Hu Hf)|]. right. right. eauto 6.
  - right. left. destruct (run_fails Wd U sheets O H _ _ Hu) as (w' & Hw & Hs). exists till, w', h, v. auto.
Qed.
