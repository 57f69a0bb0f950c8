(** What unflatten writes. *)
From Verif.Base Require Import PyStr PyNum PyVal PyDict Outcome.
From Verif.Model Require Import Warn Lib Convert Input Json SourceMap Readers Titles TitleLines Flatten Schema SortXml XmlOut Csv Output Commands.
From Coq Require Import Permutation.
From Verif.Spec Require Import Commands Grids.
From Verif.Proofs Require Import JvInd MapFacts MapRun FormatFacts CommandFacts.
Local Open Scope res_scope.

(** ** Dumping *)
Section Dump.
  Lemma dump_list_ok {A B} (f : A -> R B) : forall l r w, dump_list f l = Ok r w -> Forall2 (fun x y => exists w', f x = Ok y w') l r.
  Proof.
    induction l as [|x l IH]; intros r w H.
    - injection H as <- <-. constructor.
    - change (dump_list f (x :: l)) with (y <- f x ;; r <- dump_list f l ;; ret (y :: r)) in H.
      apply bind_ok in H as (y & w1 & w2 & Hy & H & ->). apply bind_ok in H as (r' & w3 & w4 & Hr & H & ->).
      injection H as <- <-. constructor; eauto.
  Qed.
  Lemma dump_items_ok {A} (f : A -> R jout) d r w : dump_items f d = Ok r w ->
    Forall2 (fun x y => fst x = fst y /\ exists w', f (snd x) = Ok (snd y) w') d r.
  Proof.
    intros H. apply dump_list_ok in H. induction H as [|x y d r (w' & H) _ IH]; [constructor|]. constructor; [|exact IH].
    apply bind_ok in H as (o & w1 & w2 & Ho & H & ->). injection H as <- <-. cbn. eauto.
  Qed.
  Lemma F2_keys {A B} (R : A -> B -> Prop) (d : list (str * A)) e : Forall2 (fun x y => fst x = fst y /\ R (snd x) (snd y)) d e -> map fst e = map fst d.
  Proof. induction 1 as [|x y d e [H _] _ IH]; [reflexivity|]. cbn. now rewrite IH, H. Qed.
  Lemma F2_sget {A B} (R : A -> B -> Prop) (d : list (str * A)) e k :
    Forall2 (fun x y => fst x = fst y /\ R (snd x) (snd y)) d e -> found_alike R (sget k d) (sget k e).
  Proof.
    induction 1 as [|[k1 v1] [k2 v2] d e [H Hr] _ IH]; [exact I|]. cbn in H, Hr. subst k2. unfold sget in *. cbn [aget].
    destruct (str_eqb k k1); [exact Hr|exact IH].
  Qed.
  Lemma dump_json_unchanged Wd : forall v, loaded v -> forall o w, dump_json Wd v = Ok o w -> unchanged v o.
  Proof.
    induction v as [s|l IH|d IH] using jv_ind'; intros L o w H.
    - cbn in H. apply bind_ok in H as (j & w1 & w2 & Hj & H & ->). injection H as <- <-.
      inversion L as [s' Hs E|l' E|d' E]; subst s'. destruct s; try contradiction; injection Hj as <- <-; constructor.
    - cbn [dump_json] in H. apply bind_ok in H as (r & w1 & w2 & Hr & H & ->). injection H as <- <-. constructor.
      apply dump_list_ok in Hr. inversion L as [|l' Hl E|]; subst l'. clear L.
      induction Hr as [|x y l r (w' & Hx) _ IHr]; [constructor|]. inversion IH; subst. inversion Hl; subst. constructor; eauto.
    - cbn [dump_json] in H. apply bind_ok in H as (r & w1 & w2 & Hr & H & ->). injection H as <- <-. constructor.
      apply dump_items_ok in Hr. inversion L as [| |d' Hl E]; subst d'. clear L.
      induction Hr as [|x y l r (Ek & w' & Hx) _ IHr]; [constructor|]. inversion IH; subst. inversion Hl; subst. constructor; eauto.
  Qed.
  Fixpoint dump_node_record Wd (n : vnode) {struct n} : forall o w, dump_node Wd n = Ok o w -> record_json (we_env (wd_wenv Wd)) n o.
  Proof.
    assert (K : forall d, (forall k m, In (k, m) d -> forall o w, dump_node Wd m = Ok o w -> record_json (we_env (wd_wenv Wd)) m o) ->
                forall r w, dump_items (dump_node Wd) d = Ok r w -> record_json (we_env (wd_wenv Wd)) (VDict d) (OObj r)).
    { intros d Hd r w H. constructor. apply dump_items_ok in H. revert Hd. induction H as [|[k m] y d r (Ek & w' & Hx) _ IH]; [constructor|].
      intros Hd. constructor; [|apply IH; intros; eapply Hd; [right; eassumption|eassumption]].
      split; [exact Ek|]. eapply Hd; [left; reflexivity|exact Hx]. }
    destruct n as [c|d|l]; intros o w H.
    - cbn in H. apply bind_ok in H as (j & w1 & w2 & Hj & H & ->). injection H as <- <-. constructor. eauto.
    - cbn [dump_node] in H. apply bind_ok in H as (r & w1 & w2 & Hr & H & ->). injection H as <- <-.
      apply (K d) with (w := w1); [|exact Hr].
      revert dump_node_record. clear. intros rec.
      induction d as [|[k0 m0] d IH]; [intros k m []|]. intros k m [E|Hi]; [injection E as <- <-; apply rec|eapply IH; exact Hi].
    - cbn [dump_node] in H. apply bind_ok in H as (r & w1 & w2 & Hr & H & ->). injection H as <- <-. constructor.
      apply dump_list_ok in Hr. revert r Hr. revert dump_node_record K. clear. intros rec K.
      induction l as [|d l IH]; intros r Hr; inversion Hr as [|x y l' r' (w' & Hx) Hr' Ex Er]; subst; constructor.
      + apply bind_ok in Hx as (r & w1 & w2 & Hr1 & H & ->). injection H as <- <-. apply (K d) with (w := w1); [|exact Hr1].
        clear - rec. induction d as [|[k0 m0] d IH]; [intros k m []|]. intros k m [E|Hi]; [injection E as <- <-; apply rec|eapply IH; exact Hi].
      + now apply IH.
  Qed.
  Lemma dump_records_ok Wd recs o w : dump_records Wd recs = Ok o w -> exists m, o = OArr m /\ Forall2 (fun d j => record_json (we_env (wd_wenv Wd)) (VDict d) j) recs m.
  Proof.
    intros H. apply (dump_node_record Wd (VList recs)) with (w := w) in H. inversion H as [| |l m F E1 E2]; subst. eauto.
  Qed.
End Dump.

Section Run.
  Variable Wd : world.
  Notation E := (we_env (wd_wenv Wd)).
  Notation DV := (fun v o => exists w' : list warning, dump_value Wd v = Ok o w').

  (** ** Nothing is written while reading *)
  Lemma optional_schema_silent file b O : silent (warns (optional_schema Wd file b O)).
  Proof. unfold optional_schema. destruct file; [apply ret_silent|]. apply bind_silent; [apply schema_parser_silent|intros; apply ret_silent]. Qed.
  Lemma read_spreadsheet_silent f file rd titles schema O F : silent (warns (read_spreadsheet Wd f file rd titles schema O F)).
  Proof. unfold read_spreadsheet. apply bind_silent; [apply open_silent|]. intros. apply lift_silent. Qed.
  Lemma read_base_silent U : silent (warns (read_base Wd U)).
  Proof.
    unfold read_base. destruct (u_root_list U); [apply ret_silent|]. destruct (u_base U) as [[|]|]; try apply ret_silent.
    apply bind_silent; [apply open_silent|intros; apply ret_silent].
  Qed.
  Lemma metatab_silent U f b c : silent (warns (metatab_stage Wd U f b c)).
  Proof.
    unfold metatab_stage. destruct (u_meta U) as [[|]|]; try apply ret_silent. destruct (u_root_list U); [apply ret_silent|].
    apply bind_silent.
    - unfold read_metatab. apply bind_silent; [apply optional_schema_silent|intros; apply read_spreadsheet_silent].
    - intros [[[res cells] heads] confs] _ _. apply bind_silent; [|intros; apply ret_silent].
      destruct res; [apply ret_silent|]. destruct b; apply silent_nil.
  Qed.
  Lemma main_stage_silent U f s : silent (warns (main_stage Wd U f s)).
  Proof.
    unfold main_stage. cbv zeta. destruct (negb (u_meta_only U) || u_root_list U); [|apply ret_silent].
    apply bind_silent.
    - unfold read_main. apply bind_silent; [apply optional_schema_silent|intros; apply read_spreadsheet_silent].
    - intros [[[res cells] heads] confs] _ _. apply bind_silent; [|intros; apply ret_silent].
      destruct (u_root_list U); [apply ret_silent|]. destruct (us_base s); apply silent_nil.
  Qed.

  (** ** The stages of a run *)
  Lemma unflatten_stages U w : unflatten_file Wd U = Ok tt w -> u_xml U = false ->
    exists fn f b0 s r cells heads j w1 w2 w3 w4,
      u_format U = Some fn /\ sget fn formats = Some f /\ truthy (u_meta U) && truthy (u_base U) = false /\
      read_base Wd U = Ok b0 w1 /\ metatab_stage Wd U f b0 (default_conf (u_conf U)) = Ok s w2 /\
      main_stage Wd U f s = Ok (r, cells, heads) w3 /\ dump Wd r = Ok j w4 /\ json_written w (u_output U) j /\
      (forall file m, written w file (CCells m) <-> u_cells U <> [] /\ file = Some (u_cells U) /\ m = cells) /\
      (forall file m, written w file (CHeads m) <-> u_heads U <> [] /\ file = Some (u_heads U) /\ m = heads).
  Proof.
    intros H Hx. unfold unflatten_file in H. destruct (u_format U) as [fn|]; [|discriminate].
    destruct (sget fn formats) as [f|] eqn:Ef; [|discriminate]. destruct (truthy (u_meta U) && truthy (u_base U)) eqn:Et; [discriminate|].
    apply bind_ok in H as (b0 & w1 & w1' & Hb & H & ->). apply bind_ok in H as (s & w2 & w2' & Hm & H & ->).
    apply bind_ok in H as ([[r cells] heads] & w3 & w3' & Hr & H & ->). cbv zeta in H. rewrite Hx in H.
    apply bind_ok in H as ([] & w5 & w6 & Hj & H & ->).
    unfold json_stage in Hj. apply bind_ok in Hj as (j & w7 & w8 & Hj & Hw & ->). apply lift_ok in Hj as (w4 & Hj & ->).
    injection Hw as <-.
    exists fn, f, b0, s, r, cells, heads, j, w1, w2, w3, w4. do 7 (split; [first [reflexivity|assumption]|]).
    assert (S1 : silent w1). { pose proof (read_base_silent U) as X. now rewrite Hb in X. }
    assert (S2 : silent w2). { pose proof (metatab_silent U f b0 (default_conf (u_conf U))) as X. now rewrite Hm in X. }
    assert (S3 : silent w3). { pose proof (main_stage_silent U f s) as X. now rewrite Hr in X. }
    assert (M : w6 = (match u_cells U with [] => [] | file => [Wrote (Some file) (CCells cells)] end) ++ (match u_heads U with [] => [] | file => [Wrote (Some file) (CHeads heads)] end)).
    { unfold map_stage in H. destruct (u_cells U), (u_heads U); cbn in H; injection H as <-; reflexivity. }
    clear H.
    assert (K : forall file c, written (w1 ++ w2 ++ w3 ++ (map (fun x => Warned (AInput x)) w4 ++ [Wrote (u_output U) (CJson j)]) ++ w6) file c <->
              (file = u_output U /\ c = CJson j) \/ written w6 file c).
    { intros file c. unfold written. rewrite !in_app_iff. split.
      - intros [X|[X|[X|[[X|[X|[]]]|X]]]]; try (exfalso; first [now apply (S1 file c)|now apply (S2 file c)|now apply (S3 file c)]).
        + exfalso. now apply (warned_silent AInput w4 file c).
        + injection X as <- <-. left. split; reflexivity.
        + right. exact X.
      - intros [[-> ->]|X]; [right; right; right; left; right; left; reflexivity|right; right; right; right; exact X]. }
    assert (K6 : forall file c, written w6 file c <-> (u_cells U <> [] /\ file = Some (u_cells U) /\ c = CCells cells) \/ (u_heads U <> [] /\ file = Some (u_heads U) /\ c = CHeads heads)).
    { intros file c. subst w6. unfold written. rewrite in_app_iff. split.
      - intros [X|X].
        + left. destruct (u_cells U); [destruct X|destruct X as [X|[]]]. injection X as <- <-. repeat split; discriminate.
        + right. destruct (u_heads U); [destruct X|destruct X as [X|[]]]. injection X as <- <-. repeat split; discriminate.
      - intros [(N & -> & ->)|(N & -> & ->)]; [left; destruct (u_cells U)|right; destruct (u_heads U)]; try (now exfalso); left; reflexivity. }
    split; [split|].
    - apply K. left. split; reflexivity.
    - intros file' j' X. apply K in X as [[-> [= ->]]|X]; [split; reflexivity|].
      apply K6 in X as [(_ & _ & [=])|(_ & _ & [=])].
    - split.
      + intros file m. rewrite K, K6. split; [intros [[_ [=]]|[(N & -> & [= ->])|(_ & _ & [=])]]; auto|intros (N & -> & ->); right; left; auto].
      + intros file m. rewrite K, K6. split; [intros [[_ [=]]|[(_ & _ & [=])|(N & -> & [= ->])]]; auto|intros (N & -> & ->); right; right; auto].
  Qed.

  (** ** Reading *)
  Lemma fancy_result O F sheets r mc mh w : fancy_unflatten O F sheets = Ok (r, mc, mh) w -> exists w', unflatten O sheets = Ok r w'.
  Proof.
    unfold fancy_unflatten, unflatten. intros H. apply bind_ok in H as (t & w1 & w2 & Ht & H & ->). rewrite Ht. cbv zeta in H.
    assert (X : r = map dict_to_v t).
    { destruct (f_cells F || f_headings F); [|injection H as <- _ _ _; reflexivity].
      apply bind_ok in H as (m & w3 & w4 & _ & H & _). apply bind_ok in H as (items & w5 & w6 & _ & H & _).
      destruct (f_cells F); [apply bind_ok in H as (c & w7 & w8 & _ & H & _)|]; injection H as <- _ _ _; reflexivity. }
    subst r. eexists. reflexivity.
  Qed.
  Lemma optional_schema_read file b S sch w : optional_schema Wd file b S = Ok sch w -> schema_read Wd b file S sch.
  Proof.
    unfold optional_schema, schema_read. destruct file as [|c file]; [intros [= <- _]; left; split; reflexivity|].
    intros H. right. split; [discriminate|]. apply bind_ok in H as (s & w1 & w2 & H & E & ->). injection E as <- <-.
    unfold schema_parser in H. apply bind_ok in H as (v & w3 & w4 & Hv & H & ->). apply lift_ok in H as (w5 & H & ->).
    exists v, s, w5. split; [|split; [exact H|reflexivity]]. destruct (wd_schema Wd b (c :: file)); [discriminate|]. now injection Hv as <- _.
  Qed.
  Lemma read_spreadsheet_ok f file rd titles schema O F r mc mh confs w : read_spreadsheet Wd f file rd titles schema O F = Ok (r, mc, mh, confs) w ->
    (exists sheets w1, sheets_read Wd f file rd titles schema sheets /\ fancy_unflatten O F sheets = Ok (r, mc, mh) w1) /\
    exists b cs w', wd_book Wd f file = inr b /\ map_res (configure f b) (select rd (available f b)) = Ok cs w' /\
      confs = map (fun x : str * grid * sheet_conf => let '(n, _, c) := x in (n, c)) cs.
  Proof.
    unfold read_spreadsheet. intros H. apply bind_ok in H as (b & w1 & w2 & Hb & H & ->). apply lift_ok in H as (w3 & H & ->).
    apply bind_ok in H as (cs & w4 & w5 & Hc & H & ->). apply bind_ok in H as (sheets & w6 & w7 & Hs & H & ->).
    apply bind_ok in H as (sheets' & w8 & w9 & Ht & H & ->). apply bind_ok in H as (x & w10 & w11 & Hf & H & ->).
    injection H as Ex Ec _. subst x confs.
    assert (B : wd_book Wd f file = inr b). { destruct (wd_book Wd f file); [discriminate|]. now injection Hb as <- _. }
    split; [|exists b, cs, w4; auto]. exists sheets', w10. split; [|exact Hf].
    exists b, sheets, (w4 ++ w6), w8. split; [exact B|]. split; [unfold read_book; rewrite Hc; cbn [bind]; now rewrite Hs|].
    destruct titles; [|now injection Ht as <- _]. destruct schema; exact Ht.
  Qed.
  Lemma read_main_ok U f conf r mc mh confs w : read_main Wd U f conf (root_path U conf) (id_name_used U conf) = Ok (r, mc, mh, confs) w -> main_records Wd U f conf r /\ main_maps Wd U f conf r mc mh.
  Proof.
    unfold read_main. intros H. apply bind_ok in H as (sch & w1 & w2 & Hs & H & _). apply optional_schema_read in Hs.
    apply read_spreadsheet_ok in H as [(sheets & w3 & Hr & Hf) _].
    set (O := Build_opts _ _ _ _ _ _) in Hf. assert (M : main_run Wd U f conf sheets O) by (exists sch; split; [exact Hs|split; [exact Hr|destruct sch; reflexivity]]).
    split; [|exists sheets, O, w3; split; [exact M|exact Hf]]. apply fancy_result in Hf as (w4 & Hf). exists sheets, O, w4. split; [exact M|exact Hf].
  Qed.
  Lemma paths_agree U conf : match u_path U with Some p => p | None => match sc_rootlist conf with Some p => p | None => u "main" end end = root_path U conf.
  Proof. unfold root_path. destruct (u_path U), (sc_rootlist conf); reflexivity. Qed.
  Lemma ids_agree U conf : match u_id_name U with Some p => p | None => match sc_idname conf with Some p => p | None => u "id" end end = id_name_used U conf.
  Proof. unfold id_name_used. destruct (u_id_name U), (sc_idname conf); reflexivity. Qed.

  Lemma main_stage_ok U f s r cells heads w : main_stage Wd U f s = Ok (r, cells, heads) w -> u_meta_only U = false \/ u_root_list U = true ->
    exists recs mc mh, main_records Wd U f (us_conf s) recs /\
      main_maps Wd U f (us_conf s) recs mc mh /\
      (if u_root_list U then r = FRecords recs else exists b, us_base s = inr b /\ r = FObject (sset (root_path U (us_conf s)) (BRecords recs) b)) /\
      cells = update (us_cells s) (from_opt mc) /\ heads = update (us_heads s) (from_opt mh).
  Proof.
    unfold main_stage. cbv zeta. rewrite paths_agree, ids_agree. intros H Hm.
    replace (negb (u_meta_only U) || u_root_list U) with true in H by (destruct Hm as [-> | ->]; [reflexivity|now rewrite orb_true_r]).
    apply bind_ok in H as ([[[recs mc] mh] confs] & w1 & w2 & Hr & H & ->). apply bind_ok in H as (r' & w3 & w4 & Hb & H & ->).
    injection H as <- <- <- <-. apply read_main_ok in Hr as [Hr Hq].
    exists recs, mc, mh. split; [exact Hr|]. split; [exact Hq|]. split; [|split; reflexivity].
    destruct (u_root_list U); [now injection Hb as <- _|]. destruct (us_base s) as [v|b]; [discriminate|]. injection Hb as <- _. eauto.
  Qed.

  (** ** Base and records *)
  Lemma sset_value {A} k (v : A) d : sget k (sset k v d) = Some v.
  Proof. apply sget_sset_eq. Qed.
  Lemma no_metatab U f b0 c s w : metatab_stage Wd U f b0 c = Ok s w -> ~ given (u_meta U) -> s = {| us_base := b0; us_conf := c; us_cells := []; us_heads := [] |}.
  Proof.
    unfold metatab_stage. intros H N. destruct (u_meta U) as [[|a n]|]; try (now injection H as <- _).
    exfalso. apply N. exists (a :: n). split; [reflexivity|discriminate].
  Qed.

  Theorem unflatten_base U w : unflatten_file Wd U = Ok tt w -> u_xml U = false -> u_root_list U = false -> u_meta_only U = false -> ~ given (u_meta U) ->
    let conf := default_conf (u_conf U) in
    exists fn f d l m recs, u_format U = Some fn /\ sget fn formats = Some f /\
      ((exists file, u_base U = Some file /\ file <> [] /\ wd_base Wd file = inr (JO d)) \/ (~ given (u_base U) /\ d = [])) /\
      json_written w (u_output U) (OObj l) /\
      (loaded (JO d) -> forall k, k <> root_path U conf -> found_alike unchanged (sget k d) (sget k l)) /\
      map fst l = map fst d ++ match sget (root_path U conf) d with Some _ => [] | None => [root_path U conf] end /\
      sget (root_path U conf) l = Some (OArr m) /\
      main_records Wd U f conf recs /\ Forall2 (fun x j => record_json E (VDict x) j) recs m.
  Proof.
    intros H Hx Hl Ho Hn conf. apply unflatten_stages in H as (fn & f & b0 & s & r & cells & heads & j & w1 & w2 & w3 & w4 & H1 & H2 & H3 & Hb & Hm & Hr & Hj & Hw & _); [|exact Hx].
    apply no_metatab in Hm; [|exact Hn]. subst s.
    apply main_stage_ok in Hr as (recs & mc & mh & Hrec & _ & Hr & _); [|now left]. rewrite Hl in Hr. cbn [us_base us_conf] in *.
    destruct Hr as (b & -> & ->). fold conf in Hrec |- *. set (path := root_path U conf) in *.
    cbn [dump] in Hj. apply bind_ok in Hj as (l & w5 & w6 & Hd & Hj & ->). injection Hj as <- <-.
    apply dump_items_ok in Hd. fold conf in Hd. fold path in Hd.
    assert (D : exists d, ((exists file, u_base U = Some file /\ file <> [] /\ wd_base Wd file = inr (JO d)) \/ (~ given (u_base U) /\ d = [])) /\ b = map (fun kv => (fst kv, BJson (snd kv))) d).
    { unfold read_base in Hb. rewrite Hl in Hb. destruct (u_base U) as [[|a n]|] eqn:Eb.
      - injection Hb as <- _. exists []. split; [|reflexivity]. right. split; [|reflexivity]. intros (x & [= <-] & N). now apply N.
      - apply bind_ok in Hb as (v & w7 & w8 & Hv & Hb & _). destruct (wd_base Wd (a :: n)) as [e|v'] eqn:Ew; [discriminate|]. injection Hv as <- _.
        destruct v' as [sc|a'|d]; try discriminate. injection Hb as <- _. exists d. split; [|reflexivity]. left. exists (a :: n). split; [reflexivity|]. split; [discriminate|exact Ew].
      - injection Hb as <- _. exists []. split; [|reflexivity]. right. split; [|reflexivity]. intros (x & [=] & N). }
    destruct D as (d & HD & ->).
    assert (G : forall k, sget k (map (fun kv => (fst kv, BJson (snd kv))) d) = option_map BJson (sget k d)).
    { intros k. clear. induction d as [|[k' v] d IH]; [reflexivity|]. unfold sget in *. cbn. destruct (str_eqb k k'); [reflexivity|exact IH]. }
    assert (P : exists m, sget path l = Some (OArr m) /\ Forall2 (fun x j => record_json E (VDict x) j) recs m).
    { pose proof (F2_sget DV _ _ path Hd) as X. rewrite sset_value in X. cbn in X. destruct (sget path l) as [o|]; [|contradiction].
      destruct X as (w' & X). apply dump_records_ok in X as (m & -> & X). exists m. split; [reflexivity|exact X]. }
    destruct P as (m & P1 & P2).
    exists fn, f, d, l, m, recs. split; [exact H1|]. split; [exact H2|]. split; [exact HD|]. split; [exact Hw|]. split; [|split; [|split; [exact P1|split; [exact Hrec|exact P2]]]].
    - intros L k Hk. pose proof (F2_sget DV _ _ k Hd) as X. rewrite sget_sset_neq in X by exact Hk. rewrite G in X.
      destruct (sget k d) as [v|] eqn:Ev; cbn in X; destruct (sget k l) as [o|]; try contradiction; [|exact I].
      destruct X as (w' & X). cbn in X. apply dump_json_unchanged in X; [exact X|].
      inversion L as [| |d' F Ed]; subst d'. apply sget_In in Ev. rewrite Forall_forall in F. exact (F _ Ev).
    - rewrite (F2_keys DV _ _ Hd). rewrite sset_keys_gen, G. rewrite map_map. cbn [fst]. destruct (sget path d); cbn [option_map]; [now rewrite app_nil_r|reflexivity].
  Qed.

  (** ** The metatab *)
  Lemma map_res_In {A B} (g : A -> R B) : forall l r w, map_res g l = Ok r w -> Forall2 (fun x y => exists w', g x = Ok y w') l r.
  Proof.
    induction l as [|x l IH]; intros r w H; cbn [map_res] in H; [injection H as <- <-; constructor|].
    apply bind_ok in H as (y & w1 & w2 & Hy & H & ->). apply bind_ok in H as (r' & w3 & w4 & Hr & H & ->). injection H as <- <-. constructor; eauto.
  Qed.
  Lemma update_fresh {A} (m : list (str * A)) : NoDup (map fst m) -> forall d, (forall k, In k (map fst m) -> sget k d = None) -> update d m = d ++ m.
  Proof.
    induction m as [|[k v] m IH]; intros N d Hd; [now rewrite app_nil_r|]. cbn [map fst] in *. inversion N as [|? ? Hk Hm]; subst.
    unfold update in *. cbn [fold_left fst snd]. rewrite sset_new by (apply Hd; now left). rewrite IH.
    - now rewrite <- app_assoc.
    - exact Hm.
    - intros k' Hk'. apply sget_None. rewrite map_app. intros Hi. apply in_app_iff in Hi as [Hi|[Hi|[]]].
      + apply (proj1 (sget_None _ _) (Hd k' (or_intror Hk'))). exact Hi.
      + cbn in Hi. subst. contradiction.
  Qed.
  Lemma run_keys O sheets r w : unflatten O sheets = Ok r w -> forall d, In d r -> NoDup (map fst d).
  Proof.
    unfold unflatten. intros H d Hd. apply bind_ok in H as (t & w1 & w2 & Ht & H & ->). injection H as <- <-.
    apply in_map_iff in Hd as (x & <- & Hx). apply run_good_tree in Ht as [W _ _]. inversion W as [| |l Hl _]; subst.
    unfold dict_to_v. rewrite map_map. cbn [fst]. now apply Hl.
  Qed.
  Lemma one_sheet f rd b cs w name : NoDup (map fst b) -> rd_include rd = [name] -> rd_exclude rd = [] ->
    map_res (configure f b) (select rd (available f b)) = Ok cs w ->
    let conf := match sget name (map (fun x : str * grid * sheet_conf => let '(n, _, c) := x in (n, c)) cs) with Some c => c | None => empty_conf end in
    if str_mem name (map fst b) then exists g w', configure f b name = Ok (name, g, conf) w' else conf = empty_conf.
  Proof.
    intros N Hi He H conf. apply map_res_In in H.
    assert (Hp : Permutation (map fst b) (available f b)). { destruct f; [apply sort_str_perm|reflexivity|reflexivity]. }
    rewrite select_wanted in H by (eapply Permutation_NoDup; eassumption).
    assert (S : filter (wanted rd) (available f b) = if str_mem name (map fst b) then [name] else []).
    { assert (Ha : NoDup (available f b)) by (eapply Permutation_NoDup; eassumption).
      assert (W : forall x, wanted rd x = str_eqb x name).
      { intros x. unfold wanted. rewrite Hi, He. unfold str_mem. cbn. now rewrite orb_false_r, andb_true_r. }
      assert (M : str_mem name (map fst b) = str_mem name (available f b)).
      { destruct (str_mem name (map fst b)) eqn:E1, (str_mem name (available f b)) eqn:E2; try reflexivity; exfalso.
        - apply str_mem_In in E1. apply str_mem_false in E2. apply E2. eapply Permutation_in; eassumption.
        - apply str_mem_In in E2. apply str_mem_false in E1. apply E1. eapply Permutation_in; [apply Permutation_sym|]; eassumption. }
      rewrite M. rewrite (filter_ext _ _ W). clear - Ha. induction (available f b) as [|x l IH]; [reflexivity|]. inversion Ha as [|? ? Hx Hl]; subst.
      cbn [filter]. unfold str_mem. cbn [existsb]. fold (str_mem name l). destruct (str_eqb_spec x name) as [->|Nx].
      - rewrite str_eqb_refl. cbn [orb]. rewrite IH by exact Hl. apply str_mem_false in Hx. now rewrite Hx.
      - destruct (str_eqb_spec name x); [congruence|]. cbn [orb]. now apply IH. }
    rewrite S in H. destruct (str_mem name (map fst b)).
    - inversion H as [|x [[n g] c] l' cs' (w' & Hc) H' Ex Ec]; subst. inversion H'; subst. cbn in conf.
      assert (n = name). { unfold configure in Hc. destruct (sget name b); [|discriminate]. apply bind_ok in Hc as (? & ? & ? & _ & Hc & _).
        apply bind_ok in Hc as (? & ? & ? & _ & Hc & _). now injection Hc as <- _ _. }
      subst n. exists g, w'. rewrite Hc. unfold conf, sget. cbn. now rewrite str_eqb_refl.
    - inversion H; subst. reflexivity.
  Qed.
  Lemma conf_update_over d c : conf_update d c = conf_over c d.
  Proof. reflexivity. Qed.

  Lemma metatab_ok U f name c s w : distinct_sheets Wd -> u_meta U = Some name -> name <> [] -> u_root_list U = false -> truthy (u_base U) = false ->
    forall b0 w0, read_base Wd U = Ok b0 w0 -> metatab_stage Wd U f b0 c = Ok s w ->
    exists mrecs mconf mc mh, meta_records Wd U f name mrecs /\ meta_conf Wd U f name mconf /\
      meta_maps Wd U f name mrecs mc mh /\
      us_base s = inr (map (fun kv => (fst kv, BNode (snd kv))) (match mrecs with d :: _ => d | [] => [] end)) /\ us_conf s = conf_over mconf c /\
      us_cells s = add_cut 7 (from_opt mc) [] /\ us_heads s = add_cut 5 (from_opt mh) [] /\ (forall d, In d mrecs -> NoDup (map fst d)).
  Proof.
    intros Hds Hn Hne Hl Ht b0 w0 Hb H.
    assert (b0 = inr []). { unfold read_base in Hb. rewrite Hl in Hb. destruct (u_base U) as [[|]|]; try discriminate; now injection Hb as <- _. }
    subst b0. unfold metatab_stage in H. rewrite Hn, Hl in H. destruct name as [|a name]; [now exfalso|].
    apply bind_ok in H as ([[[mrecs mc] mh] confs] & w1 & w2 & Hr & H & ->). apply bind_ok in H as (b1 & w3 & w4 & Hb1 & H & ->). injection H as <- <-.
    pose proof Hr as Hr0.
    unfold read_metatab in Hr. apply bind_ok in Hr as (sch & w5 & w6 & Hs & Hr & ->). apply optional_schema_read in Hs.
    apply read_spreadsheet_ok in Hr as [(sheets & w8 & Hr & Hf) (b & cs & w7 & Hbk & Hcs & ->)].
    assert (Hone : let conf := match sget (a :: name) (map (fun x : str * grid * sheet_conf => let '(n, _, c) := x in (n, c)) cs) with Some c => c | None => empty_conf end in
      if str_mem (a :: name) (map fst b) then exists g w', configure f b (a :: name) = Ok (a :: name, g, conf) w' else conf = empty_conf).
    { eapply one_sheet; [exact (Hds _ _ _ Hbk)| | |exact Hcs]; reflexivity. }
    cbv zeta in Hone.
    set (mconf := match sget (a :: name) (map _ cs) with Some c => c | None => empty_conf end) in *.
    destruct (fancy_result _ _ _ _ _ _ _ Hf) as (w9 & Hu).
    assert (Nd : forall d, In d mrecs -> NoDup (map fst d)) by (eapply run_keys; exact Hu).
    set (O := Build_opts _ _ _ _ _ _) in Hf, Hu. assert (M : meta_run Wd U f (a :: name) sheets O) by (exists sch; split; [exact Hs|split; [exact Hr|destruct sch; reflexivity]]).
    exists mrecs, mconf, mc, mh. split; [exists sheets, O, w9; split; [exact M|exact Hu]|]. split; [exists b; split; [exact Hbk|exact Hone]|].
    split; [exists sheets, O, w8; split; [exact M|exact Hf]|].
    cbn [us_base us_conf us_cells us_heads]. split; [|split; [reflexivity|split; [reflexivity|split; [reflexivity|exact Nd]]]].
    destruct mrecs as [|d mrecs]; [now injection Hb1 as <- _|]. injection Hb1 as <- _. rewrite update_fresh; [reflexivity| |reflexivity].
    rewrite map_map. cbn [fst]. apply Nd. now left.
  Qed.

  Theorem unflatten_metatab U name w : distinct_sheets Wd -> unflatten_file Wd U = Ok tt w -> u_xml U = false -> u_root_list U = false ->
    u_meta U = Some name -> name <> [] ->
    exists fn f mrecs mconf l, u_format U = Some fn /\ sget fn formats = Some f /\ meta_records Wd U f name mrecs /\ meta_conf Wd U f name mconf /\
      json_written w (u_output U) (OObj l) /\
      let meta := match mrecs with d :: _ => d | [] => [] end in
      let conf := conf_over mconf (default_conf (u_conf U)) in
      let path := root_path U conf in
      if u_meta_only U then map fst l = map fst meta /\ forall k, found_alike (record_json E) (sget k meta) (sget k l)
      else exists m recs, (forall k, k <> path -> found_alike (record_json E) (sget k meta) (sget k l)) /\
        map fst l = map fst meta ++ match sget path meta with Some _ => [] | None => [path] end /\
        sget path l = Some (OArr m) /\ main_records Wd U f conf recs /\ Forall2 (fun x j => record_json E (VDict x) j) recs m.
  Proof.
    intros Hds H Hx Hl Hn Hne.
    apply unflatten_stages in H as (fn & f & b0 & s & r & cells & heads & j & w1 & w2 & w3 & w4 & H1 & H2 & H3 & Hb & Hm & Hr & Hj & Hw & _); [|exact Hx].
    assert (Ht : truthy (u_base U) = false). { rewrite Hn in H3. destruct name; [now exfalso|]. exact H3. }
    destruct (metatab_ok U f name _ s w2 Hds Hn Hne Hl Ht b0 w1 Hb Hm) as (mrecs & mconf & mc & mh & Hmr & Hmc & _ & Es & Ec & _).
    exists fn, f, mrecs, mconf. set (meta := match mrecs with d :: _ => d | [] => [] end) in *.
    assert (G : forall k, sget k (map (fun kv => (fst kv, BNode (snd kv))) meta) = option_map BNode (sget k meta)).
    { intros k. clear. induction meta as [|[k' v] d IH]; [reflexivity|]. unfold sget in *. cbn. destruct (str_eqb k k'); [reflexivity|exact IH]. }
    assert (Q : forall k (l : list (str * jout)), found_alike DV (option_map BNode (sget k meta)) (sget k l) -> found_alike (record_json E) (sget k meta) (sget k l)).
    { intros k l X. destruct (sget k meta) as [v|], (sget k l) as [o|]; cbn in X |- *; try contradiction; [|exact I].
      destruct X as (w' & X). eapply dump_node_record. exact X. }
    destruct (u_meta_only U) eqn:Eo.
    - unfold main_stage in Hr. rewrite Eo, Hl in Hr. cbn [negb orb] in Hr. cbv zeta in Hr. rewrite Es in Hr. injection Hr as <- <- <- <-.
      cbn [dump] in Hj. apply bind_ok in Hj as (l & w5 & w6 & Hd & Hj & ->). injection Hj as <- <-. apply dump_items_ok in Hd.
      exists l. split; [exact H1|]. split; [exact H2|]. split; [exact Hmr|]. split; [exact Hmc|]. split; [exact Hw|]. cbv zeta. split.
      + rewrite (F2_keys DV _ _ Hd). now rewrite map_map.
      + intros k. apply Q. rewrite <- G. exact (F2_sget DV _ _ k Hd).
    - apply main_stage_ok in Hr as (recs & mc' & mh' & Hrec & _ & Hr & _); [|now left]. rewrite Hl in Hr. rewrite Ec in *.
      destruct Hr as (b & Eb & ->). rewrite Es in Eb. injection Eb as <-.
      set (conf := conf_over mconf (default_conf (u_conf U))) in *. set (path := root_path U conf) in *.
      cbn [dump] in Hj. apply bind_ok in Hj as (l & w5 & w6 & Hd & Hj & ->). injection Hj as <- <-. apply dump_items_ok in Hd.
      exists l. split; [exact H1|]. split; [exact H2|]. split; [exact Hmr|]. split; [exact Hmc|]. split; [exact Hw|]. cbv zeta.
      assert (P : exists m, sget path l = Some (OArr m) /\ Forall2 (fun x j => record_json E (VDict x) j) recs m).
      { pose proof (F2_sget DV _ _ path Hd) as X. rewrite sset_value in X. cbn in X. destruct (sget path l) as [o|]; [|contradiction].
        destruct X as (w' & X). apply dump_records_ok in X as (m & -> & X). exists m. split; [reflexivity|exact X]. }
      destruct P as (m & P1 & P2). exists m, recs. split; [|split; [|split; [exact P1|split; [exact Hrec|exact P2]]]].
      + intros k Hk. apply Q. rewrite <- G. pose proof (F2_sget DV _ _ k Hd) as X. now rewrite sget_sset_neq in X by exact Hk.
      + fold conf path. rewrite (F2_keys DV _ _ Hd). rewrite sset_keys_gen, G, map_map. cbn [fst]. destruct (sget path meta); cbn [option_map]; rewrite ?app_nil_r; reflexivity.
  Qed.

  (** ** A list of records *)
  Theorem unflatten_list U w : unflatten_file Wd U = Ok tt w -> u_xml U = false -> u_root_list U = true ->
    exists fn f m recs, u_format U = Some fn /\ sget fn formats = Some f /\ json_written w (u_output U) (OArr m) /\
      main_records Wd U f (default_conf (u_conf U)) recs /\ Forall2 (fun x j => record_json E (VDict x) j) recs m.
  Proof.
    intros H Hx Hl.
    apply unflatten_stages in H as (fn & f & b0 & s & r & cells & heads & j & w1 & w2 & w3 & w4 & H1 & H2 & H3 & Hb & Hm & Hr & Hj & Hw & _); [|exact Hx].
    assert (s = {| us_base := b0; us_conf := default_conf (u_conf U); us_cells := []; us_heads := [] |}).
    { unfold metatab_stage in Hm. rewrite Hl in Hm. destruct (u_meta U) as [[|]|]; now injection Hm as <- _. }
    subst s. apply main_stage_ok in Hr as (recs & mc & mh & Hrec & _ & Hr & _); [|now right]. rewrite Hl in Hr. subst r. cbn [us_conf] in Hrec.
    cbn [dump] in Hj. apply dump_records_ok in Hj as (m & -> & F). exists fn, f, m, recs. auto.
  Qed.
  (** XML output needs an object *)
  Theorem unflatten_list_xml U w : u_xml U = true -> u_root_list U = true -> unflatten_file Wd U <> Ok tt w.
  Proof.
    intros Hx Hl H. unfold unflatten_file in H. destruct (u_format U) as [fn|]; [|discriminate].
    destruct (sget fn formats) as [f|]; [|discriminate]. destruct (truthy (u_meta U) && truthy (u_base U)); [discriminate|].
    apply bind_ok in H as (b0 & w1 & w1' & Hb & H & ->). apply bind_ok in H as (s & w2 & w2' & Hm & H & ->).
    apply bind_ok in H as ([[r cells] heads] & w3 & w3' & Hr & H & ->). cbv zeta in H. rewrite Hx in H.
    apply main_stage_ok in Hr as (recs & mc & mh & Hrec & _ & Hr & _); [|now right]. rewrite Hl in Hr. subst r.
    apply bind_ok in H as ([] & w5 & w6 & Hj & H & ->). unfold xml_stage in Hj. apply bind_ok in Hj as (o & w7 & w8 & Ho & Hj & ->). discriminate.
  Qed.
End Run.
