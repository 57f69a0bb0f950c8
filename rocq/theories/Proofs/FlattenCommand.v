(** The flatten command and create_template do what their options say. *)
From Coq Require Import Lia Permutation.
From Verif.Base Require Import PyStr PyNum PyVal PyDict Outcome.
From Verif.Model Require Import Warn Lib Convert Input Json SourceMap Flatten XmlInput Readers Csv Output Schema Commands.
From Verif.Spec Require Import Paths Commands Trip FlattenRun SheetConf.
From Verif.Proofs Require Import CommandFacts TripRun XmlTagsFacts SheetConfFacts FormatFacts.
Local Open Scope res_scope.

(** ** The roll-up option *)
Lemma truthy_asks r : roll_truthy r = true <-> asks r.
Proof.
  split.
  - destruct r as [| |[|x l]]; intros H; try discriminate H; [left; reflexivity|right]. exists (x :: l). split; [reflexivity|discriminate].
  - intros [->|(l & -> & H)]; [reflexivity|]. destruct l; [congruence|reflexivity].
Qed.
Lemma roll_paths_map ps : roll_paths (map RPath ps) = ps.
Proof. induction ps as [|p ps IH]; [reflexivity|]. cbn [map roll_paths flat_map app]. fold (roll_paths (map RPath ps)). rewrite IH. reflexivity. Qed.
Lemma resolve_means Wd schema r l w : resolve_rollup Wd schema r = Ok l w -> not_mixed r -> rollups Wd (schema_rollups schema) r l.
Proof.
  intros H Hm. unfold resolve_rollup in H. destruct (roll_truthy r) eqn:T.
  2:{ injection H as <- _. apply ru_none. rewrite <- truthy_asks, T. discriminate. }
  apply truthy_asks in T. fold (schema_rollups schema) in H. destruct (schema_rollups schema) as [|x found].
  - destruct r as [| |[|[|p] [|y l']]]; try discriminate H.
    + destruct T as [T|(l0 & T & T')]; discriminate T.
    + destruct T as [T|(l0 & T & T')]; [discriminate T|injection T as <-; congruence].
    + destruct (Hm _ eq_refl) as [Q|(ps & Q)]; [discriminate Q|]. destruct ps; discriminate Q.
    + destruct (wd_isfile Wd p) eqn:Ef.
      * apply bind_ok in H as (ls & w1 & w2 & H & Q & _). injection Q as <- _. unfold open_file in H. destruct (wd_lines Wd p) eqn:El; [discriminate|]. injection H as -> _. now apply ru_file.
      * injection H as <- _. now apply ru_path.
    + destruct (Hm _ eq_refl) as [Q|(ps & Q)]; [discriminate Q|]. destruct ps as [|p1 [|p2 ps]]; [discriminate Q|discriminate Q|]. injection Q as <- -> ->.
      injection H as <- _. fold (roll_paths (map RPath ps)). rewrite roll_paths_map. apply (ru_paths Wd [] (p :: p2 :: ps)); [reflexivity|cbn [length]; lia].
  - apply bind_ok in H as ([] & w1 & w2 & _ & Q & _). injection Q as <- _. apply ru_schema; [exact T|discriminate].
Qed.
Definition ignored_warning (e : event) : Prop := e = Warned ARollupIgnored.
Lemma resolve_warned Wd schema r l w : resolve_rollup Wd schema r = Ok l w ->
  In (Warned ARollupIgnored) w <-> schema_rollups schema <> [] /\ asks_paths r.
Proof.
  unfold resolve_rollup. fold (schema_rollups schema). intros H. destruct (roll_truthy r) eqn:T.
  2:{ injection H as _ <-. split; [intros []|]. intros (_ & l0 & -> & A & _). destruct l0; [congruence|discriminate T]. }
  destruct (schema_rollups schema) as [|x found].
  - split; [|intros [Q _]; congruence]. intros Hin. exfalso. destruct r as [| |[|[|p] [|y l']]]; try discriminate H; try (injection H as _ <-; exact Hin).
    destruct (wd_isfile Wd p); [|injection H as _ <-; exact Hin]. apply bind_ok in H as (ls & w1 & w2 & H & Q & ->). injection Q as _ <-. unfold open_file in H. destruct (wd_lines Wd p); [discriminate|]. injection H as _ <-.
    destruct Hin as [Q|[]]. discriminate Q.
  - apply bind_ok in H as ([] & w1 & w2 & H & Q & ->). injection Q as _ <-. rewrite app_nil_r. split.
    + intros Hin. split; [discriminate|]. destruct r as [| |[|[|p] [|y l']]]; injection H as <-; try (destruct Hin; fail); eexists; (split; [reflexivity|]); split; discriminate.
    + intros (_ & l0 & -> & A & B). destruct l0 as [|[|p] [|y l']]; try (exfalso; congruence); cbn in H; inversion H; left; reflexivity.
Qed.

(** ** The records *)
Lemma path_search_at ks : forall v r, Forall xml_step ks -> path_search v ks = inr r ->
  match at_path v (down ks) with Some x => r = x | None => r = JO [] end.
Proof.
  assert (E : forall ks r, path_search (JO []) ks = inr r -> r = JO []).
  { clear ks. induction ks as [|k ks IH]; intros r H; cbn [path_search] in H; [inversion H; reflexivity|]. destruct (endswith k (u "[]")); [discriminate|]. cbn [sget aget] in H. apply IH. exact H. }
  induction ks as [|k ks IH]; intros v r Hk H.
  - cbn in *. inversion H; reflexivity.
  - inversion Hk as [|? ? (K1 & K2) Hk']; subst. cbn [path_search] in H. rewrite K2 in H. destruct v as [|l|d]; try discriminate H.
    cbn [down map at_path]. fold (down ks). destruct (sget k d) as [x|]; [apply IH; assumption|]. apply E in H. exact H.
Qed.
Lemma records_xml F v l w : f_xml F = true -> records_of F v = Ok l w ->
  forall ks, f_root_list F = false -> ks <> [] -> f_path F = join (u "/") ks -> Forall xml_step ks ->
    match at_path (list_dict_consistency v) (down ks) with Some (JA l') => l = l' | None => l = [] | _ => True end.
Proof.
  intros Hx H ks Hl Hn Hp Hk. unfold records_of in H. rewrite Hx, Hl, Hp in H. change (u "/") with [slash] in H. rewrite split_join in H; [|exact Hn|rewrite Forall_forall in Hk; intros x Hin; apply (Hk x Hin)].
  destruct (path_search (list_dict_consistency v) ks) as [e|r] eqn:E; [discriminate|]. pose proof (path_search_at ks _ r Hk E) as A.
  destruct (at_path (list_dict_consistency v) (down ks)) as [x|]; subst r.
  - destruct x; auto. cbn [iterate] in H. injection H as <- _. reflexivity.
  - cbn in H. injection H as <- _. reflexivity.
Qed.
Lemma read_records Wd F v l w w' : read_document Wd F = Ok v w -> records_of F v = Ok l w' -> records_read Wd F l.
Proof.
  intros Hv Hl. unfold records_read. unfold read_document, open_file in Hv. destruct (f_xml F) eqn:Hx.
  - destruct (wd_xml Wd _ (f_input F)) as [e|x] eqn:E; [discriminate|]. injection Hv as -> _. exists v, (list_dict_consistency v). split; [reflexivity|]. split; [apply consistency_exact|].
    apply (records_xml F v l w' Hx Hl).
  - destruct (wd_json Wd (f_input F)) as [e|x] eqn:E; [discriminate|]. injection Hv as -> _. exists v. split; [reflexivity|]. intros ks Hp.
    rewrite (records_there F v ks Hx Hp) in Hl. injection Hl as <- _. reflexivity.
Qed.

(** ** The options *)
Lemma filter_means F : match f_filter_field F, f_filter_value F with Some ((_ :: _) as k), Some ((_ :: _) as v) => Some (k, v) | _, _ => None end = filter_used F.
Proof. unfold filter_used. destruct (f_filter_field F) as [[|]|], (f_filter_value F) as [[|]|]; reflexivity. Qed.
Lemma opts_means Wd F schema roll lines : parser_opts Wd F schema roll lines = run_opts Wd F schema roll lines.
Proof. unfold parser_opts, run_opts. rewrite filter_means. destruct schema; reflexivity. Qed.

Definition from_parser (e : event) : Prop := exists w, e = Warned (AFlatten w).
Definition only {A} (P : A -> Prop) (l : list A) : Prop := forall x, In x l -> P x.
Definition opened (e : event) : Prop := exists f, e = Opened f.
Lemma lift_only {A W} (f : W -> anywarn) (m : res W A) a w : lift f m = Ok a w -> only (fun e => exists x, e = Warned (f x)) w.
Proof. destruct m; [|discriminate]. intros H. injection H as _ <-. intros e He. apply in_map_iff in He as (x & <- & _). eauto. Qed.
Lemma open_only {A} file (o : outcome A) a w : open_file file o = Ok a w -> only opened w.
Proof. destruct o; [discriminate|]. intros H. injection H as _ <-. intros e [<-|[]]. exists file. reflexivity. Qed.
Lemma records_silent F v l w : records_of F v = Ok l w -> w = [].
Proof.
  unfold records_of. destruct (f_xml F); [|intros H; injection H; auto]. match goal with |- context [match ?b with inl e => _ | inr r => _ end] => destruct b as [e|r] end; [discriminate|].
  destruct (iterate r); [discriminate|]. intros H; injection H; auto.
Qed.
Lemma preserve_means Wd F ls w : preserve_lines Wd F = Ok ls w -> lines_read Wd (f_preserve F) ls /\ only opened w.
Proof.
  unfold preserve_lines. destruct (f_preserve F) as [|c file] eqn:E; intros H; [injection H as <- <-; split; [left; auto|intros ? []]|]. split; [|exact (open_only _ _ _ _ H)].
  right. split; [discriminate|]. unfold open_file in H. destruct (wd_lines Wd (c :: file)); [discriminate|]. injection H as -> _. reflexivity.
Qed.
Definition other (e : event) : Prop := opened e \/ (exists w, e = Warned (ASchema w)) \/ (exists w, e = Warned (AFlatten w)) \/ (exists w, e = Warned (AOutput w)) \/ (exists f c, e = Wrote f c).
Definition not_in_schema (Wd : world) (s : sps) (lines : list str) : list str := filter (fun f => negb (shas f (sp_flat s))) (wd_set_order Wd (preserve_fields_input lines)).
Lemma parser_means Wd F schema s w : json_parser Wd F schema = Ok s w -> exists roll lines recs wr wf wo, 
  resolve_rollup Wd schema (f_roll F) = Ok roll wr /\ lines_read Wd (f_preserve F) lines /\ records_read Wd F recs /\
  flatten (run_opts Wd F schema roll lines) (f_drop F) (preserve_fields_input lines) recs = Ok s wf /\
  only other wo /\
  forall e, In e w <-> In e wr \/ In e wo \/ exists sc, schema = Some sc /\ f_preserve F <> [] /\ e = Warned (APreserveNotInSchema (not_in_schema Wd sc lines)).
Proof.
  intros H. unfold json_parser in H. apply bind_ok in H as (roll & wr & w1 & Hr & H & ->). apply bind_ok in H as ([lines recs] & w2 & w3 & Hx & Hf & ->). cbn [fst snd] in Hf.
  rewrite opts_means in Hf. pose proof (lift_only _ _ _ _ Hf) as L. apply lift_ok in Hf as (wf & Hf & Ew).
  assert (G : exists v w4 w5, lines_read Wd (f_preserve F) lines /\ read_document Wd F = Ok v w4 /\ records_of F v = Ok recs w5 /\
     exists wo, only opened wo /\ forall e, In e w2 <-> In e wo \/ exists sc, schema = Some sc /\ f_preserve F <> [] /\ e = Warned (APreserveNotInSchema (not_in_schema Wd sc lines))).
  { assert (P : forall ls wp, preserve_warning Wd schema ls (negb (is_nil (f_preserve F))) = Ok tt wp -> forall e, In e wp <-> exists sc, schema = Some sc /\ f_preserve F <> [] /\ e = Warned (APreserveNotInSchema (not_in_schema Wd sc ls))).
    { intros ls wp Hp e. unfold preserve_warning in Hp. destruct schema as [sc|].
      - destruct (f_preserve F) as [|c file]; cbn [is_nil negb] in Hp; injection Hp as <-.
        + split; [intros []|intros (sc' & _ & Q & _); congruence].
        + split; [intros [<-|[]]; exists sc; repeat split; discriminate|intros (sc' & Q & _ & ->); injection Q as <-; left; reflexivity].
      - injection Hp as <-. split; [intros []|intros (sc & Q & _); discriminate]. }
    destruct (f_xml F).
    - apply bind_ok in Hx as (v & w4 & w5 & Hv & Hx & ->). apply bind_ok in Hx as (l & w6 & w7 & Hl & Hx & ->). apply bind_ok in Hx as (ls & w8 & w9 & Hp & Hx & ->). apply bind_ok in Hx as ([] & w10 & w11 & Hw & Q & ->).
      injection Q as <- <- <-. apply preserve_means in Hp as [Hp Op]. exists v, w4, w6. split; [exact Hp|]. split; [exact Hv|]. split; [exact Hl|]. apply records_silent in Hl as ->. pose proof (open_only _ _ _ _ Hv) as Ov.
      exists (w4 ++ w8). split; [intros e He; apply in_app_or in He as [He|He]; auto|]. intros e. rewrite app_nil_r. cbn [app]. rewrite <- (P _ _ Hw e). rewrite !in_app_iff. tauto.
    - apply bind_ok in Hx as (ls & w8 & w9 & Hp & Hx & ->). apply bind_ok in Hx as ([] & w10 & w11 & Hw & Hx & ->). apply bind_ok in Hx as (v & w4 & w5 & Hv & Hx & ->). apply bind_ok in Hx as (l & w6 & w7 & Hl & Q & ->).
      injection Q as <- <- <-. apply preserve_means in Hp as [Hp Op]. exists v, w4, w6. split; [exact Hp|]. split; [exact Hv|]. split; [exact Hl|]. apply records_silent in Hl as ->. pose proof (open_only _ _ _ _ Hv) as Ov.
      exists (w8 ++ w4). split; [intros e He; apply in_app_or in He as [He|He]; auto|]. intros e. rewrite !app_nil_r. rewrite <- (P _ _ Hw e). rewrite !in_app_iff. tauto. }
  destruct G as (v & w4 & w5 & Hp & Hv & Hl & wo & Oo & G). exists roll, lines, recs, wr, wf, (wo ++ w3).
  split; [exact Hr|]. split; [exact Hp|]. split; [exact (read_records _ _ _ _ _ _ Hv Hl)|]. split; [exact Hf|]. split.
  - intros e He. apply in_app_or in He as [He|He]; [left; exact (Oo e He)|right; right; left]. exact (L e He).
  - intros e. rewrite !in_app_iff, G. tauto.
Qed.

(** ** The whole run *)
Lemma schema_means Wd F schema w : (match f_schema F with [] => ret None | file => s <- schema_parser Wd (f_local_off F) file (run_schema_opts Wd F (roll_truthy (f_roll F))) ;; ret (Some s) end) = Ok schema w ->
  schema_read Wd (f_local_off F) (f_schema F) (run_schema_opts Wd F (roll_truthy (f_roll F))) schema /\ only other w.
Proof.
  destruct (f_schema F) as [|c file] eqn:Es; intros H; [injection H as <- <-; split; [left; auto|intros ? []]|].
  apply bind_ok in H as (sc & w5 & w6 & Hsc & Q & ->). injection Q as <- <-. unfold schema_parser in Hsc. apply bind_ok in Hsc as (v & w7 & w8 & Hv & Hsc & ->). pose proof (lift_only _ _ _ _ Hsc) as L. pose proof (open_only _ _ _ _ Hv) as Ov.
  apply lift_ok in Hsc as (w9 & Hsc & _). split.
  - right. split; [discriminate|]. exists v, sc, w9. split; [|split; [exact Hsc|reflexivity]]. unfold open_file in Hv. destruct (wd_schema Wd (f_local_off F) (c :: file)); [discriminate|]. injection Hv as ->. reflexivity.
  - rewrite app_nil_r. intros e He. apply in_app_or in He as [He|He]; [left; exact (Ov e He)|right; left; exact (L e He)].
Qed.
Lemma output_only Wd ms prefix t main subs f n w : spreadsheet_output Wd ms prefix t main subs f n = Ok tt w -> only other w.
Proof.
  unfold spreadsheet_output. cbv zeta. destruct f; intros H; apply bind_ok in H as (b & w1 & w2 & Hb & H & ->); pose proof (lift_only _ _ _ _ Hb) as L.
  - rewrite each_writes in H. cbn in H. injection H as <-. intros e He. apply in_app_or in He as [He|He]; [right; right; right; left; exact (L e He)|]. rewrite app_nil_r in He. apply in_map_iff in He as (pf & <- & _). do 4 right. eauto.
  - injection H as <-. intros e He. apply in_app_or in He as [He|[<-|[]]]; [right; right; right; left; exact (L e He)|do 4 right; eauto].
  - injection H as <-. intros e He. apply in_app_or in He as [He|[<-|[]]]; [right; right; right; left; exact (L e He)|do 4 right; eauto].
Qed.
Lemma output_means Wd ms prefix t main subs f n w0 w : silent w0 -> spreadsheet_output Wd ms prefix t main subs f n = Ok tt w ->
  output_is Wd {| w_main := ms; w_output := n; w_prefix := prefix; w_term := t |} main subs f (w0 ++ w).
Proof.
  intros S0 H. apply output_writes in H. cbv zeta in H. destruct H as (w1 & ww & -> & S1 & H).
  assert (G : forall file c, written (w0 ++ w1 ++ ww) file c <-> written ww file c).
  { intros file c. unfold written. rewrite !in_app_iff. split; [intros [Q|[Q|Q]]; [destruct (S0 _ _ Q)|destruct (S1 _ _ Q)|exact Q]|auto]. }
  destruct f; destruct H as (b & v & Hb & ->); exists b, v; (split; [exact Hb|]); intros file c; rewrite G; unfold written.
  - split; [intros Q; apply in_map_iff in Q as ([p s] & Q & Hin); injection Q as <- <-; eauto|intros (p & s & Hin & -> & ->); apply in_map_iff; exists (p, s); auto].
  - split; [intros [Q|[]]; injection Q as <- <-; auto|intros (-> & ->); left; reflexivity].
  - split; [intros [Q|[]]; injection Q as <- <-; auto|intros (-> & ->); left; reflexivity].
Qed.
Lemma name_means d f o : named_or (d ++ suffix f) o = output_name d f o.
Proof. unfold output_name. destruct f; cbn [suffix]; rewrite ?app_nil_r; reflexivity. Qed.
Lemma write_only Wd ms prefix t main subs d fmt n w : write_outputs Wd ms prefix t main subs d fmt n = Ok tt w -> only other w.
Proof.
  unfold write_outputs. destruct (str_eqb fmt (u "all")).
  - intros H. apply bind_ok in H as (r & w1 & w2 & H & Q & ->). injection Q as <-. rewrite app_nil_r. revert r w1 H. generalize formats. induction l as [|nf l IH]; intros r w1 H; cbn [each] in H; [injection H as _ <-; intros ? []|].
    apply bind_ok in H as ([] & wa & wb & Ha & H & ->). apply bind_ok in H as (rs & wc & wd & Hc & Q & ->). injection Q as _ <-. rewrite app_nil_r. intros e He. apply in_app_or in He as [He|He]; [exact (output_only _ _ _ _ _ _ _ _ _ Ha e He)|exact (IH _ _ Hc e He)].
  - destruct (sget fmt formats); [|discriminate]. apply output_only.
Qed.

Theorem flatten_means Wd F w : flatten_file Wd F = Ok tt w -> not_mixed (f_roll F) ->
  exists t schema roll lines recs s v, sget (f_term F) terminators = Some t /\ run_inputs Wd F schema roll lines recs /\
    flatten (run_opts Wd F schema roll lines) (f_drop F) (requests lines) recs = Ok s v /\
    (forall f, sget (f_format F) formats = Some f -> output_is Wd {| w_main := f_main F; w_output := output_name (u "flattened") f (f_output F); w_prefix := f_prefix F; w_term := t |} (main_table s) (sub_tables s) f w) /\
    (rollup_warned w <-> schema_rollups schema <> [] /\ asks_paths (f_roll F)) /\
    (forall ps, preserve_warned w ps <-> exists sc, schema = Some sc /\ f_preserve F <> [] /\ ps = filter (fun p => negb (shas p (sp_flat sc))) (wd_set_order Wd (requests lines))).
Proof.
  intros H Hm. assert (G : ~ bad_flatten F). { intros B. apply (flatten_refused Wd) in B. congruence. }
  destruct (flatten_split Wd F G) as (t & Et & E). rewrite E in H. clear E. apply bind_ok in H as (s & w1 & w2 & Hp & Hw & ->). assert (S1 : silent w1) by (pose proof (flatten_parse_silent Wd F) as S; rewrite Hp in S; exact S).
  unfold flatten_parse in Hp. apply bind_ok in Hp as (schema & w3 & w4 & Hs & Hj & ->). apply schema_means in Hs as [Hs Os]. apply parser_means in Hj as (roll & lines & recs & wr & wf & wo & Hr & Hl & Hd & Hf & Oo & HI).
  pose proof (write_only _ _ _ _ _ _ _ _ _ _ Hw) as Ow.
  exists t, schema, roll, lines, recs, s, wf. split; [exact Et|]. split.
  { split; [|exact (resolve_means _ _ _ _ _ Hr Hm)|exact Hl|exact Hd]. exists (roll_truthy (f_roll F)). split; [apply truthy_asks|exact Hs]. }
  split; [exact Hf|]. split.
  { intros f Ef. rewrite (write_single Wd _ _ _ _ _ _ _ f _ Ef), name_means in Hw. exact (output_means _ _ _ _ _ _ _ _ _ _ S1 Hw). }
  assert (N1 : forall wa, only other wa -> forall a, In (Warned a) wa -> a = ARollupIgnored -> False).
  { intros wa Oa a Ha ->. destruct (Oa _ Ha) as [(f & Q)|[(x & Q)|[(x & Q)|[(x & Q)|(f & c & Q)]]]]; discriminate Q. }
  assert (N2 : forall wa, only other wa -> forall ps, In (Warned (APreserveNotInSchema ps)) wa -> False).
  { intros wa Oa a Ha. destruct (Oa _ Ha) as [(f & Q)|[(x & Q)|[(x & Q)|[(x & Q)|(f & c & Q)]]]]; discriminate Q. }
  split.
  - rewrite <- (resolve_warned _ _ _ _ _ Hr). unfold rollup_warned. rewrite !in_app_iff, HI. split; [|auto].
    intros [[Q|[Q|[Q|(sc & _ & _ & Q)]]]|Q]; [destruct (N1 _ Os _ Q eq_refl)|exact Q|destruct (N1 _ Oo _ Q eq_refl)|discriminate Q|destruct (N1 _ Ow _ Q eq_refl)].
  - intros ps. unfold preserve_warned. rewrite !in_app_iff, HI. split.
    + intros [[Q|[Q|[Q|(sc & H1 & H2 & Q)]]]|Q]; [destruct (N2 _ Os _ Q)| |destruct (N2 _ Oo _ Q)| |destruct (N2 _ Ow _ Q)].
      * exfalso. clear -Hr Q. unfold resolve_rollup in Hr. destruct (roll_truthy (f_roll F)); [|injection Hr as _ <-; exact Q].
        destruct (match schema with Some s => sp_rollup s | None => [] end).
        -- destruct (f_roll F) as [| |[|[|p] [|y l']]]; try discriminate Hr; try (injection Hr as _ <-; exact Q). destruct (wd_isfile Wd p); [|injection Hr as _ <-; exact Q].
           apply bind_ok in Hr as (ls & w1 & w2 & H & E & ->). injection E as _ <-. apply open_only in H. rewrite app_nil_r in Q. destruct (H _ Q) as (f & E). discriminate E.
        -- apply bind_ok in Hr as ([] & w1 & w2 & H & E & ->). injection E as _ <-. rewrite app_nil_r in Q. destruct (f_roll F) as [| |[|[|p] [|y l']]]; injection H as <-; try exact Q; destruct Q as [Q|[]]; discriminate Q.
      * injection Q as ->. exists sc. auto.
    + intros (sc & -> & H2 & ->). left. right. right. right. exists sc. auto.
Qed.

(** True without roll-ups in the schema *)
Theorem rollup_true_raises Wd F : ~ bad_flatten F -> f_schema F = [] -> f_roll F = RollTrue \/ f_roll F = RollList [RTrue] -> exists w, flatten_file Wd F = Raise ETypeError w.
Proof.
  intros G Hs Hr. destruct (flatten_split Wd F G) as (t & Et & ->). unfold flatten_parse. rewrite Hs. cbn [ret bind]. unfold json_parser, resolve_rollup. destruct Hr as [-> | ->]; cbn; eauto.
Qed.

(** ** create_template *)
Theorem template_means Wd C w : create_template Wd C = Ok tt w ->
  exists t v s w0, sget (c_term C) terminators = Some t /\ wd_schema Wd (c_local_off C) (c_schema C) = inr v /\
    parse_schema {| so_rollup := c_rollup C; so_root_id := c_root_id C; so_titles := c_titles C; so_trunc := c_trunc C; so_nodep := c_nodep C; so_wkt := c_wkt C; so_lower := wd_lower Wd |} v = Ok s w0 /\
    forall f, sget (c_format C) formats = Some f -> output_is Wd {| w_main := c_main C; w_output := output_name (u "template") f (c_output C); w_prefix := []; w_term := t |}
      {| tb_name := []; tb_header := header (sp_main s); tb_rows := lines_of [] (sp_main s) |}
      (map (fun nx => {| tb_name := fst nx; tb_header := header (snd nx); tb_rows := lines_of [] (snd nx) |}) (sp_subs s)) f w.
Proof.
  intros H. assert (G : ~ bad_template C). { intros B. apply (template_refused Wd) in B. congruence. }
  destruct (template_split Wd C G) as (t & Et & E). rewrite E in H. clear E. apply bind_ok in H as (s & w1 & w2 & Hp & Hw & ->). unfold template_parse in Hp.
  pose proof (schema_parser_silent Wd (c_local_off C) (c_schema C) {| so_rollup := c_rollup C; so_root_id := c_root_id C; so_titles := c_titles C; so_trunc := c_trunc C; so_nodep := c_nodep C; so_wkt := c_wkt C; so_lower := wd_lower Wd |}) as S1. rewrite Hp in S1. cbn [warns] in S1.
  unfold schema_parser in Hp. apply bind_ok in Hp as (v & w3 & w4 & Hv & Hp & ->). apply lift_ok in Hp as (w5 & Hp & ->). unfold open_file in Hv. destruct (wd_schema Wd (c_local_off C) (c_schema C)) eqn:Ev; [discriminate|]. injection Hv as -> _.
  exists t, v, s, w5. split; [exact Et|]. split; [reflexivity|]. split; [exact Hp|]. intros f Ef. rewrite (write_single Wd _ _ _ _ _ _ _ f _ Ef), name_means in Hw. exact (output_means _ _ _ _ _ _ _ _ _ _ S1 Hw).
Qed.

(** ** The default configuration *)
Lemma lstrip_space p s : exists sp, s = sp ++ lstrip p s /\ forall c, In c sp -> p c = true.
Proof.
  induction s as [|c s (sp & E & H)]; [exists []; split; [reflexivity|intros ? []]|]. cbn [lstrip]. destruct (p c) eqn:P.
  - exists (c :: sp). split; [rewrite E at 1; reflexivity|]. intros x [<-|Hx]; auto.
  - exists []. split; [reflexivity|intros ? []].
Qed.
Lemma strip_space s : exists a b, s = a ++ strip is_ws s ++ b /\ all_space a /\ all_space b.
Proof.
  destruct (lstrip_space is_ws s) as (a & Ea & Ha). destruct (lstrip_space is_ws (rev (lstrip is_ws s))) as (b & Eb & Hb). exists a, (rev b). split; [|split; [exact Ha|intros c Hc; apply Hb; apply in_rev in Hc; exact Hc]].
  unfold strip, rstrip. rewrite <- rev_app_distr, <- Eb, rev_involutive. exact Ea.
Qed.
Lemma words_before a s ws : all_space a -> words s ws -> words (a ++ s) ws.
Proof.
  intros Ha H. destruct H as [sp H|sp w rest ws A B C D].
  - constructor. intros c Hc. apply in_app_or in Hc as [Hc|Hc]; auto.
  - rewrite app_assoc. constructor; try assumption. intros c Hc. apply in_app_or in Hc as [Hc|Hc]; auto.
Qed.
Lemma words_after b s ws : all_space b -> words s ws -> words (s ++ b) ws.
Proof.
  intros Hb H. induction H as [sp H|sp w rest ws A B C D IH].
  - constructor. intros c Hc. apply in_app_or in Hc as [Hc|Hc]; auto.
  - rewrite <- !app_assoc. constructor; try assumption. destruct rest as [|c rest]; [|exact C]. destruct b as [|c b]; [exact I|]. apply Hb. left. reflexivity.
Qed.
Lemma split_strip s : split_ws (strip is_ws s) = split_ws s.
Proof.
  symmetry. apply words_iff. destruct (strip_space s) as (a & b & E & Ha & Hb). rewrite E at 1. apply words_before; [exact Ha|]. apply words_after; [exact Hb|]. apply words_iff. reflexivity.
Qed.
Lemma item_strip c i : conf_item c (strip is_ws i) = conf_item c i.
Proof. unfold conf_item. rewrite split_strip. reflexivity. Qed.
Theorem default_means text items : comma_items text items -> conf_means items (default_conf text).
Proof.
  intros (Hn & -> & Hc). unfold default_conf. change (u ",") with [44%N]. rewrite split_join; [|exact Hn|rewrite Forall_forall in Hc; exact Hc].
  replace (fold_left conf_item (map (strip is_ws) items) empty_conf) with (fold_left conf_item items empty_conf); [apply fold_means|].
  generalize empty_conf. clear. induction items as [|i items IH]; intros c; [reflexivity|]. cbn [map fold_left]. rewrite item_strip. apply IH.
Qed.
Theorem comma_any text : exists items, comma_items text items.
Proof.
  exists (split_on 44%N text). split; [apply split_on_nonempty|]. split; [change (u ",") with [44%N]; symmetry; apply join_split|]. apply Forall_forall. intros i Hi. exact (split_on_no_sep_inside _ _ _ Hi).
Qed.
