(** Refused options, output formats and names. *)
From Verif.Base Require Import PyStr PyNum PyVal PyDict Outcome.
From Verif.Model Require Import Warn Lib Convert Input Json SourceMap Readers Titles TitleLines Flatten Schema SortXml XmlOut Csv Output Commands.
From Verif.Spec Require Import Commands.
Local Open Scope res_scope.

(** ** Traces *)
Lemma bind_raise {W A B} (m : res W A) (k : A -> res W B) e w : bind m k = Raise e w ->
  m = Raise e w \/ exists a w1 w2, m = Ok a w1 /\ k a = Raise e w2 /\ w = w1 ++ w2.
Proof.
  destruct m as [a w1|e1 w1]; simpl; [|intros [= <- <-]; now left].
  destruct (k a) as [b w2|e2 w2] eqn:K; [discriminate|]. intros [= <- <-]. right. now exists a, w1, w2.
Qed.
Lemma warns_bind_nil {W A B} (m : res W A) (k : A -> res W B) : warns m <> [] -> warns (bind m k) <> [].
Proof.
  destruct m as [a w|e w]; simpl; [|auto]. intros H. destruct (k a) as [b w2|e2 w2]; simpl; intros E; apply app_eq_nil in E; tauto.
Qed.
Lemma open_file_warns {A} file (o : outcome A) : warns (open_file file o) <> [].
Proof. destruct o; simpl; discriminate. Qed.
Lemma lift_silent {W A} (f : W -> anywarn) (m : res W A) : silent (warns (lift f m)).
Proof. destruct m as [a w|e w]; cbn; intros file c H; apply in_map_iff in H as (x & E & _); discriminate. Qed.
Lemma open_silent {A} file (o : outcome A) : silent (warns (open_file file o)).
Proof. destruct o; simpl; intros f c [H|[]]; discriminate. Qed.
Lemma silent_app a b : silent a -> silent b -> silent (a ++ b).
Proof. intros Ha Hb f c H. apply in_app_iff in H as [H|H]; [now apply (Ha f c)|now apply (Hb f c)]. Qed.
Lemma silent_nil : silent []. Proof. intros f c []. Qed.
Lemma bind_silent {A B} (m : IO A) (k : A -> IO B) : silent (warns m) -> (forall a w, m = Ok a w -> silent (warns (k a))) -> silent (warns (bind m k)).
Proof.
  intros Hm Hk. destruct m as [a w|e w]; simpl; [|exact Hm]. specialize (Hk a w eq_refl).
  destruct (k a); simpl in *; now apply silent_app.
Qed.
Lemma ret_silent {A} (a : A) : silent (warns (ret a : IO A)). Proof. apply silent_nil. Qed.
Lemma bind_assoc {W A B C} (m : res W A) (f : A -> res W B) (g : B -> res W C) : bind (bind m f) g = bind m (fun x => bind (f x) g).
Proof.
  destruct m as [a w|e w]; simpl; [|reflexivity]. destruct (f a) as [b w2|e2 w2]; simpl; [|reflexivity].
  destruct (g b) as [c w3|e3 w3]; simpl; now rewrite app_assoc.
Qed.

Lemma terminators_known t : (exists x, sget t terminators = Some x) <-> In t known_terminators.
Proof.
  split.
  - intros [x H]. apply sget_In in H. cbn in H. unfold known_terminators. destruct H as [[= <- _]|[[= <- _]|[]]]; [left|right; left]; reflexivity.
  - intros [<-|[<-|[]]]; eexists; vm_compute; reflexivity.
Qed.
Lemma formats_known t : (exists x, sget t formats = Some x) <-> In t known_formats.
Proof.
  split.
  - intros [x H]. apply sget_In in H. cbn in H. unfold known_formats. destruct H as [[= <- _]|[[= <- _]|[[= <- _]|[]]]]; [left|right; left|right; right; left]; reflexivity.
  - intros [<-|[<-|[<-|[]]]]; eexists; vm_compute; reflexivity.
Qed.
Lemma term_none t : sget t terminators = None <-> ~ In t known_terminators.
Proof.
  rewrite <- terminators_known. destruct (sget t terminators) as [x|]; split; intros H; try discriminate; try reflexivity.
  - exfalso. apply H. eauto.
  - intros [y [=]].
Qed.
Lemma format_none t : sget t formats = None <-> ~ In t known_formats.
Proof.
  rewrite <- formats_known. destruct (sget t formats) as [x|]; split; intros H; try discriminate; try reflexivity.
  - exfalso. apply H. eauto.
  - intros [y [=]].
Qed.
Lemma truthy_given o : truthy o = true <-> given o.
Proof.
  unfold given. destruct o as [[|c s]|]; simpl; split; intros H; try discriminate; try reflexivity.
  - destruct H as (s & [= <-] & N). now exfalso.
  - exists (c :: s). split; [reflexivity|discriminate].
  - destruct H as (s & [=] & _).
Qed.

Section Facts.
  Variable Wd : world.

  Lemma schema_parser_warns b file O : warns (schema_parser Wd b file O) <> [].
  Proof. unfold schema_parser. apply warns_bind_nil, open_file_warns. Qed.
  Lemma schema_parser_silent b file O : silent (warns (schema_parser Wd b file O)).
  Proof. unfold schema_parser. apply bind_silent; [apply open_silent|]. intros. apply lift_silent. Qed.

  Theorem template_refused C : create_template Wd C = Raise EFlattenToolError [] <-> bad_template C.
  Proof.
    unfold create_template, bad_template. destruct (sget (c_term C) terminators) as [t|] eqn:T.
    - split; [|rewrite <- term_none; congruence].
      intros H. exfalso. apply (f_equal warns) in H. revert H. apply warns_bind_nil, schema_parser_warns.
    - rewrite <- term_none. tauto.
  Qed.

  (** a run that neither ends without any event nor is refused without any event *)
  Definition quiet_ok {A} (m : IO A) : Prop := m <> Raise EFlattenToolError [].
  Definition loud {A} (m : IO A) : Prop := quiet_ok m /\ forall a, m <> Ok a [].
  Lemma warns_loud {A} (m : IO A) : warns m <> [] -> loud m.
  Proof. intros H. split; [intros ->|intros a ->]; now apply H. Qed.
  Lemma loud_l {A B} (m : IO A) (k : A -> IO B) : loud m -> loud (bind m k).
  Proof.
    intros [H1 H2]. split.
    - intros H. apply bind_raise in H as [H|(a & w1 & w2 & Hm & _ & Ew)]; [now apply H1|].
      symmetry in Ew. apply app_eq_nil in Ew as [-> ->]. now apply (H2 a).
    - intros b H. apply bind_ok in H as (a & w1 & w2 & Hm & _ & Ew). symmetry in Ew. apply app_eq_nil in Ew as [-> ->]. now apply (H2 a).
  Qed.
  Lemma loud_r {A B} (m : IO A) (k : A -> IO B) : quiet_ok m -> (forall a, loud (k a)) -> loud (bind m k).
  Proof.
    intros H1 H2. split.
    - intros H. apply bind_raise in H as [H|(a & w1 & w2 & Hm & Hk & Ew)]; [now apply H1|].
      symmetry in Ew. apply app_eq_nil in Ew as [-> ->]. now apply (H2 a).
    - intros b H. apply bind_ok in H as (a & w1 & w2 & Hm & Hk & Ew). symmetry in Ew. apply app_eq_nil in Ew as [-> ->]. now apply (H2 a) in Hk.
  Qed.
  Lemma quiet_r {A B} (m : IO A) (k : A -> IO B) : quiet_ok m -> (forall a, quiet_ok (k a)) -> quiet_ok (bind m k).
  Proof.
    intros H1 H2 H. apply bind_raise in H as [H|(a & w1 & w2 & Hm & Hk & Ew)]; [now apply H1|].
    symmetry in Ew. apply app_eq_nil in Ew as [-> ->]. now apply (H2 a).
  Qed.
  Lemma quiet_ret {A} (a : A) : quiet_ok (ret a : IO A). Proof. discriminate. Qed.
  Lemma quiet_loud {A} (m : IO A) : loud m -> quiet_ok m. Proof. now intros [H _]. Qed.
  Lemma open_loud {A} file (o : outcome A) : loud (open_file file o). Proof. apply warns_loud, open_file_warns. Qed.

  Lemma resolve_quiet schema r : quiet_ok (resolve_rollup Wd schema r).
  Proof.
    unfold resolve_rollup. destruct (roll_truthy r); [|apply quiet_ret].
    destruct (match schema with Some s => sp_rollup s | None => [] end) as [|x l].
    - destruct r as [| |[|[|p] [|y l']]]; try discriminate.
      destruct (wd_isfile Wd p); [|discriminate]. apply quiet_loud, loud_l, open_loud.
    - destruct r as [| |[|[|p] [|y l']]]; discriminate.
  Qed.
  Lemma preserve_lines_quiet F : quiet_ok (preserve_lines Wd F).
  Proof. unfold preserve_lines. destruct (f_preserve F); [apply quiet_ret|apply quiet_loud, open_loud]. Qed.
  Lemma json_parser_loud F schema : loud (json_parser Wd F schema).
  Proof.
    unfold json_parser. apply loud_r; [apply resolve_quiet|]. intros roll. apply loud_l.
    destruct (f_xml F); [apply loud_l, open_loud|].
    apply loud_r; [apply preserve_lines_quiet|]. intros ls. apply loud_r.
    - unfold preserve_warning. destruct schema; [|apply quiet_ret]. destruct (negb _); [discriminate|apply quiet_ret].
    - intros _. apply loud_l, open_loud.
  Qed.
  Theorem flatten_refused F : flatten_file Wd F = Raise EFlattenToolError [] <-> bad_flatten F.
  Proof.
    unfold flatten_file, bad_flatten. destruct (f_filter_field F) as [k|] eqn:K, (f_filter_value F) as [v|] eqn:V.
    2:{ split; [|reflexivity]. intros _. right; left. split; [discriminate|reflexivity]. }
    2:{ split; [|reflexivity]. intros _. left. split; [reflexivity|discriminate]. }
    all: destruct (sget (f_term F) terminators) as [t|] eqn:T; (split; [|intros [[? ?]|[[? ?]|B]]; try congruence; apply term_none in B; congruence]).
    2: intros _; right; right; now apply term_none.
    3: intros _; right; right; now apply term_none.
    all: intros H; exfalso; revert H; apply loud_r.
    2,4: intros sch; apply loud_l, json_parser_loud.
    all: destruct (f_schema F); [apply quiet_ret|]; apply quiet_loud, loud_l, warns_loud, schema_parser_warns.
  Qed.

  (** ** unflatten *)
  Lemma read_spreadsheet_loud f file rd titles schema O F : loud (read_spreadsheet Wd f file rd titles schema O F).
  Proof. unfold read_spreadsheet. apply loud_l, open_loud. Qed.
  Lemma optional_schema_quiet file b O : quiet_ok (optional_schema Wd file b O).
  Proof. unfold optional_schema. destruct file; [apply quiet_ret|]. apply quiet_loud, loud_l, warns_loud, schema_parser_warns. Qed.
  Lemma read_metatab_loud U f n : loud (read_metatab Wd U f n).
  Proof. unfold read_metatab. apply loud_r; [apply optional_schema_quiet|]. intros. apply read_spreadsheet_loud. Qed.
  Lemma read_main_loud U f c p i : loud (read_main Wd U f c p i).
  Proof. unfold read_main. apply loud_r; [apply optional_schema_quiet|]. intros. apply read_spreadsheet_loud. Qed.
  Lemma each_open_loud {A} (f : str -> outcome A) n l : loud (each (fun n => open_file n (f n)) (n :: l)).
  Proof. cbn [each]. apply loud_l, open_loud. Qed.
  Lemma xml_stage_quiet U conf path : quiet_ok (xml_stage Wd U conf path (FObject [])).
  Proof.
    unfold xml_stage. cbn [xml_final map]. set (tag := match sc_xmlroot conf with Some t => t | None => _ end).
    assert (D : (exists o w, dict_to_xml (wd_xenv Wd) (JO []) tag [(u "xml", u "http://www.w3.org/XML/1998/namespace")] = Ok o w /\
                (fst o = None -> w <> []))).
    { cbn [dict_to_xml map]. rewrite (eq_refl : sort_attributes [] = []) || idtac.
      unfold sort_attributes. cbn [filter sort_keys fold_right app run_all]. rewrite bind_ret_l. unfold make_element. cbn [xs_attrib xs_text xs_ns xs_children forallb].
      match goal with |- context [if ?b then _ else _] => destruct b end; do 2 eexists; (split; [reflexivity|]); cbn [fst]; [discriminate|intros _; discriminate]. }
    destruct D as (o & w & D & Hw). rewrite D. cbn [lift].
    assert (L : fst o = None -> loud (Ok o (map (fun x => Warned (AXml x)) w))).
    { intros E. apply warns_loud. cbn. intros M. apply map_eq_nil in M. now apply (Hw E). }
    destruct o as [[[tg at' tx cs]|] ns]; cbn [fst] in *.
    2:{ apply quiet_loud, loud_l, L. reflexivity. }
    apply quiet_r; [discriminate|]. intros _.
    assert (T : forall s, (forall e ws, s = Some (Raise e ws) -> e <> EFlattenToolError) ->
              quiet_ok (x <- match toxml (wd_xenv Wd) (JO []) tag s (u_comment U) with Ok x _ => ret x | Raise e _ => Raise e [] end ;;
                        write (u_output U) (CXml (fst x) (snd x)))).
    { intros s Hs. apply quiet_r; [|intros; discriminate]. unfold toxml. rewrite D. cbn [bind fst].
      destruct s as [[d ws|e ws]|]; try discriminate. cbn. intros [= E]. exact (Hs _ _ eq_refl E). }
    destruct (u_xsds U) as [[|n l]|].
    - cbn [each]. rewrite !bind_ret_l. apply T. intros e ws [= E]. destruct (wd_xsd_fuel Wd); cbn in E; [injection E as E1 E2; subst e; discriminate|discriminate].
    - apply quiet_loud, loud_l, loud_l, each_open_loud.
    - rewrite bind_ret_l. apply T. discriminate.
  Qed.
  Theorem unflatten_refused U : unflatten_file Wd U = Raise EFlattenToolError [] <-> bad_unflatten U.
  Proof.
    unfold unflatten_file, bad_unflatten. destruct (u_format U) as [fn|]; [|tauto].
    destruct (sget fn formats) as [f|] eqn:Ef.
    2:{ split; [|reflexivity]. intros _. right; left. exists fn. split; [reflexivity|now apply format_none]. }
    destruct (truthy (u_meta U) && truthy (u_base U)) eqn:Et.
    { split; [|reflexivity]. intros _. right; right. apply andb_true_iff in Et as [A B]. split; now apply truthy_given. }
    split.
    2:{ intros [[=]|[(g & [= <-] & N)|[A B]]]; [apply format_none in N; congruence|].
        apply truthy_given in A, B. rewrite A, B in Et. discriminate. }
    intros H. exfalso. revert H. unfold read_base.
    destruct (u_root_list U) eqn:Er.
    - rewrite bind_ret_l. apply quiet_r.
      { unfold metatab_stage. rewrite Er. destruct (u_meta U) as [[|]|]; apply quiet_ret. }
      intros s. apply quiet_loud, loud_l. unfold main_stage. rewrite Er, orb_true_r. cbv zeta. apply loud_l, read_main_loud.
    - assert (R : forall b0, b0 = inr [] -> quiet_ok (s <- metatab_stage Wd U f b0 (default_conf (u_conf U)) ;;
          x <- main_stage Wd U f s ;;
          (let '(r, cells, heads) := x in
          let path := match u_path U with Some p => p | None => match sc_rootlist (us_conf s) with Some p => p | None => u "main" end end in
          _ <- (if u_xml U then xml_stage Wd U (us_conf s) path r else json_stage Wd U r) ;;
          map_stage U cells heads))).
      { intros b0 ->. unfold metatab_stage. rewrite Er.
        assert (M : forall c, quiet_ok (x <- main_stage Wd U f {| us_base := inr []; us_conf := c; us_cells := []; us_heads := [] |} ;;
          (let '(r, cells, heads) := x in
          let path := match u_path U with Some p => p | None => match sc_rootlist (us_conf {| us_base := inr []; us_conf := c; us_cells := []; us_heads := [] |}) with Some p => p | None => u "main" end end in
          _ <- (if u_xml U then xml_stage Wd U (us_conf {| us_base := inr []; us_conf := c; us_cells := []; us_heads := [] |}) path r else json_stage Wd U r) ;;
          map_stage U cells heads))).
        { intros c. unfold main_stage. rewrite Er. destruct (u_meta_only U); cbn [negb orb].
          - rewrite bind_ret_l. cbv zeta. cbn [us_conf us_base us_cells us_heads]. apply quiet_r.
            + destruct (u_xml U); [apply xml_stage_quiet|]. unfold json_stage. cbn. discriminate.
            + intros _. unfold map_stage. destruct (u_cells U), (u_heads U); discriminate.
          - cbv zeta. apply quiet_loud, loud_l, loud_l, read_main_loud. }
        destruct (u_meta U) as [[|a n]|]; [rewrite bind_ret_l; apply M| |rewrite bind_ret_l; apply M].
        apply quiet_loud, loud_l, loud_l, read_metatab_loud. }
      destruct (u_base U) as [[|a n]|]; [rewrite bind_ret_l; now apply R| |rewrite bind_ret_l; now apply R].
      apply quiet_loud, loud_l, loud_l, open_loud.
  Qed.

  (** ** Output formats *)
  Lemma unknown_raises main_sheet prefix t main subs default format name : unknown_output format ->
    write_outputs Wd main_sheet prefix t main subs default format name = Raise EFlattenToolError [].
  Proof.
    intros [A B]. unfold write_outputs. destruct (str_eqb format (u "all")) eqn:E.
    - destruct (str_eqb_spec format (u "all")); [now exfalso|discriminate].
    - apply format_none in B. now rewrite B.
  Qed.
  Definition silent_io {A} (m : IO A) : Prop := silent (warns m).
  Lemma resolve_silent schema r : silent (warns (resolve_rollup Wd schema r)).
  Proof.
    unfold resolve_rollup. destruct (roll_truthy r); [|apply ret_silent].
    destruct (match schema with Some s => sp_rollup s | None => [] end) as [|x l].
    - destruct r as [| |[|[|p] [|y l']]]; try apply silent_nil.
      destruct (wd_isfile Wd p); [|apply silent_nil]. apply bind_silent; [apply open_silent|intros; apply ret_silent].
    - apply bind_silent; [|intros; apply ret_silent].
      destruct r as [| |[|[|p] [|y l']]]; try apply silent_nil; intros f c [H|[]]; discriminate.
  Qed.
  Lemma json_parser_silent F schema : silent (warns (json_parser Wd F schema)).
  Proof.
    unfold json_parser. apply bind_silent; [apply resolve_silent|]. intros roll _ _.
    assert (R : forall v, silent (warns (records_of F v))).
    { intros v. unfold records_of. destruct (f_xml F); [|apply ret_silent].
      match goal with |- context [match ?b with inl e => _ | inr r => _ end] => destruct b as [e|r] end; [apply silent_nil|].
      destruct (iterate r); apply silent_nil. }
    assert (P : silent (warns (preserve_lines Wd F))).
    { unfold preserve_lines. destruct (f_preserve F); [apply ret_silent|apply open_silent]. }
    assert (Q : forall ls b, silent (warns (preserve_warning Wd schema ls b))).
    { intros ls b. unfold preserve_warning. destruct schema, b; try apply ret_silent. intros f c [H|[]]; discriminate. }
    apply bind_silent; [|intros; apply lift_silent].
    destruct (f_xml F); repeat first [apply ret_silent | apply P | apply Q | apply R | apply open_silent | apply bind_silent; [|intros]].
  Qed.
  Lemma flatten_schema_silent F O : silent (warns (match f_schema F with [] => ret None | file => s <- schema_parser Wd (f_local_off F) file O ;; ret (Some s) end)).
  Proof.
    destruct (f_schema F); [apply ret_silent|]. apply bind_silent; [apply schema_parser_silent|]. intros. apply ret_silent.
  Qed.

  (** everything up to the output *)
  Definition flatten_parse (F : flopts) : IO pst :=
    schema <- (match f_schema F with
               | [] => ret None
               | file => s <- schema_parser Wd (f_local_off F) file
                                {| so_rollup := roll_truthy (f_roll F); so_root_id := f_root_id F; so_titles := f_titles F;
                                   so_trunc := f_trunc F; so_nodep := false; so_wkt := f_wkt F; so_lower := wd_lower Wd |} ;;
                         ret (Some s)
               end) ;;
    json_parser Wd F schema.
  Lemma flatten_parse_as format name F : flatten_parse (flatten_as format name F) = flatten_parse F.
  Proof. reflexivity. Qed.
  Lemma flatten_parse_silent F : silent (warns (flatten_parse F)).
  Proof. unfold flatten_parse. apply bind_silent; [apply flatten_schema_silent|]. intros. apply json_parser_silent. Qed.
  Lemma flatten_split F : ~ bad_flatten F -> exists t, sget (f_term F) terminators = Some t /\
    flatten_file Wd F = (s <- flatten_parse F ;; write_outputs Wd (f_main F) (f_prefix F) t (main_table s) (sub_tables s) (u "flattened") (f_format F) (f_output F)).
  Proof.
    intros G. destruct (sget (f_term F) terminators) as [t|] eqn:T.
    2:{ exfalso. apply G. right; right. now apply term_none. }
    exists t. split; [reflexivity|]. unfold flatten_file, flatten_parse. rewrite T, bind_assoc.
    destruct (f_filter_field F) as [k|] eqn:K, (f_filter_value F) as [v|] eqn:V; try reflexivity.
    - exfalso. apply G. right; left. split; congruence.
    - exfalso. apply G. left. split; congruence.
  Qed.
  Lemma bad_as format name F : bad_flatten (flatten_as format name F) <-> bad_flatten F.
  Proof. reflexivity. Qed.

  Theorem flatten_unknown_format F format name : unknown_output format ->
    exists e w, flatten_file Wd (flatten_as format name F) = Raise e w /\ silent w /\
      (forall format' name' w', flatten_file Wd (flatten_as format' name' F) = Ok tt w' -> e = EFlattenToolError /\ exists w1, w' = w ++ w1).
  Proof.
    intros Hu.
    assert (D : {bad_flatten F} + {~ bad_flatten F}).
    { unfold bad_flatten. destruct (f_filter_field F), (f_filter_value F); try (left; right; left; split; congruence); try (left; left; split; congruence).
      all: destruct (sget (f_term F) terminators) eqn:T; [right; intros [[? ?]|[[? ?]|B]]; try congruence; apply term_none in B; congruence|left; right; right; now apply term_none]. }
    destruct D as [B|G].
    - exists EFlattenToolError, []. split; [now apply flatten_refused|]. split; [apply silent_nil|]. intros f' n' w' H. split; [reflexivity|now exists w'].
    - destruct (flatten_split (flatten_as format name F)) as (t & Et & E); [now rewrite bad_as|].
      rewrite E, flatten_parse_as. pose proof (flatten_parse_silent F) as S.
      destruct (flatten_parse F) as [s w|e w] eqn:P; cbn [bind].
      + cbn [f_format flatten_as]. rewrite (unknown_raises _ _ _ _ _ _ _ _ Hu). exists EFlattenToolError, (w ++ []).
        split; [reflexivity|]. rewrite app_nil_r. split; [exact S|]. intros f' n' w' H. split; [reflexivity|].
        destruct (flatten_split (flatten_as f' n' F)) as (t' & Et' & E'); [now rewrite bad_as|].
        rewrite E', flatten_parse_as, P in H. apply bind_ok in H as (a & w1 & w2 & [= <- <-] & _ & ->). now exists w2.
      + exists e, w. split; [reflexivity|]. split; [exact S|]. intros f' n' w' H. exfalso.
        destruct (flatten_split (flatten_as f' n' F)) as (t' & Et' & E'); [now rewrite bad_as|].
        rewrite E', flatten_parse_as, P in H. discriminate.
  Qed.

  Lemma or_default_named o d : or_default o d = named_or d o.
  Proof. destruct o as [[|]|]; reflexivity. Qed.
  Lemma named_nonempty d o : d <> [] -> exists c s, named_or d o = c :: s.
  Proof. intros H. destruct o as [[|c s]|]; simpl; try (destruct d as [|c s]; [now exfalso|]); now exists c, s. Qed.
  Lemma or_default_app b sfx d : b <> [] -> or_default (Some (b ++ sfx)) d = b ++ sfx.
  Proof. destruct b; [now intros|reflexivity]. Qed.

  Lemma write_single ms prefix t main subs default format f n : sget format formats = Some f ->
    write_outputs Wd ms prefix t main subs default format n = spreadsheet_output Wd ms prefix t main subs f (named_or (default ++ suffix f) n).
  Proof.
    intros H. unfold write_outputs. destruct (str_eqb_spec format (u "all")) as [->|_]; [vm_compute in H; discriminate|].
    now rewrite H, or_default_named.
  Qed.
  Lemma write_all ms prefix t main subs default n w : default <> [] ->
    write_outputs Wd ms prefix t main subs default (u "all") n = Ok tt w ->
    exists wx wc wo, w = wx ++ wc ++ wo /\
      write_outputs Wd ms prefix t main subs default (u "xlsx") (Some (named_or default n ++ u ".xlsx")) = Ok tt wx /\
      write_outputs Wd ms prefix t main subs default (u "csv") (Some (named_or default n)) = Ok tt wc /\
      write_outputs Wd ms prefix t main subs default (u "ods") (Some (named_or default n ++ u ".ods")) = Ok tt wo.
  Proof.
    intros Hd. rewrite (write_single _ _ _ _ _ _ (u "xlsx") Xlsx), (write_single _ _ _ _ _ _ (u "csv") Csv), (write_single _ _ _ _ _ _ (u "ods") Ods) by (vm_compute; reflexivity).
    unfold write_outputs. rewrite str_eqb_refl. cbv zeta. rewrite or_default_named.
    destruct (named_nonempty default n Hd) as (c & s & ->).
    unfold formats. cbn [each fst snd].
    intros H. apply bind_ok in H as (r & w1 & w2 & H & [= <-] & ->).
    apply bind_ok in H as (x1 & wx & w3 & Hx & H & ->).
    apply bind_ok in H as (y1 & w4 & w5 & H & [= <- <-] & ->).
    apply bind_ok in H as (x2 & wc & w6 & Hc & H & ->).
    apply bind_ok in H as (y2 & w7 & w8 & H & [= <- <-] & ->).
    apply bind_ok in H as (x3 & wo & w9 & Ho & H & ->). cbn in H. injection H as <- <-.
    destruct x1, x2, x3. exists wx, wc, wo. split; [now rewrite !app_nil_r|].
    split; [exact Hx|]. split; [|exact Ho]. rewrite app_nil_r in Hc. exact Hc.
  Qed.
  Theorem flatten_all F name w : flatten_file Wd (flatten_as (u "all") name F) = Ok tt w ->
    let n := named_or (u "flattened") name in
    exists r wx wc wo, w = r ++ wx ++ wc ++ wo /\ silent r /\
      flatten_file Wd (flatten_as (u "xlsx") (Some (n ++ u ".xlsx")) F) = Ok tt (r ++ wx) /\
      flatten_file Wd (flatten_as (u "csv") (Some n) F) = Ok tt (r ++ wc) /\
      flatten_file Wd (flatten_as (u "ods") (Some (n ++ u ".ods")) F) = Ok tt (r ++ wo).
  Proof.
    intros H n.
    assert (G : ~ bad_flatten F).
    { intros B. assert (R := proj2 (flatten_refused (flatten_as (u "all") name F)) B). congruence. }
    destruct (flatten_split (flatten_as (u "all") name F) G) as (t & Et & E). rewrite E, flatten_parse_as in H. clear E.
    apply bind_ok in H as (s & r & w2 & Hp & H & ->).
    cbn [f_main f_prefix f_format f_output flatten_as] in H. apply write_all in H as (wx & wc & wo & -> & Hx & Hc & Ho); [|discriminate].
    exists r, wx, wc, wo. split; [reflexivity|]. split.
    { pose proof (flatten_parse_silent F) as S. now rewrite Hp in S. }
    assert (K : forall fmt nm w, write_outputs Wd (f_main F) (f_prefix F) t (main_table s) (sub_tables s) (u "flattened") fmt nm = Ok tt w ->
                flatten_file Wd (flatten_as fmt nm F) = Ok tt (r ++ w)).
    { intros fmt nm w Hw. destruct (flatten_split (flatten_as fmt nm F) G) as (t' & Et' & E). rewrite E, flatten_parse_as, Hp.
      cbn [f_main f_prefix f_format f_output flatten_as] in *. replace t' with t by (cbn in Et, Et'; congruence).
      cbn [bind]. now rewrite Hw. }
    split; [now apply K|]. split; now apply K.
  Qed.

  Definition template_parse (C : copts) : IO sps :=
    schema_parser Wd (c_local_off C) (c_schema C)
      {| so_rollup := c_rollup C; so_root_id := c_root_id C; so_titles := c_titles C; so_trunc := c_trunc C;
         so_nodep := c_nodep C; so_wkt := c_wkt C; so_lower := wd_lower Wd |}.
  Lemma template_split C : ~ bad_template C -> exists t, sget (c_term C) terminators = Some t /\
    create_template Wd C = (s <- template_parse C ;;
      write_outputs Wd (c_main C) [] t (table_of [] [] (sp_main s)) (map (fun nx => table_of [] (fst nx) (snd nx)) (sp_subs s))
                    (u "template") (c_format C) (c_output C)).
  Proof.
    intros G. unfold create_template. destruct (sget (c_term C) terminators) as [t|] eqn:T.
    - exists t. split; reflexivity.
    - exfalso. apply G. now apply term_none.
  Qed.
  Theorem template_unknown_format C format name : unknown_output format ->
    exists e w, create_template Wd (template_as format name C) = Raise e w /\ silent w /\
      (forall format' name' w', create_template Wd (template_as format' name' C) = Ok tt w' -> e = EFlattenToolError /\ exists w1, w' = w ++ w1).
  Proof.
    intros Hu. destruct (sget (c_term C) terminators) as [t|] eqn:T.
    2:{ exists EFlattenToolError, []. split; [apply template_refused; now apply term_none|]. split; [apply silent_nil|].
        intros f' n' w' H. split; [reflexivity|now exists w']. }
    assert (G : forall f n, ~ bad_template (template_as f n C)). { intros f n B. apply term_none in B. change (sget (c_term C) terminators = None) in B. congruence. }
    destruct (template_split _ (G format name)) as (t1 & _ & E). rewrite E.
    assert (S : silent (warns (template_parse (template_as format name C)))) by apply schema_parser_silent.
    destruct (template_parse (template_as format name C)) as [s w|e w] eqn:P; cbn [bind].
    - cbn [c_format template_as]. rewrite (unknown_raises _ _ _ _ _ _ _ _ Hu). exists EFlattenToolError, (w ++ []).
      split; [reflexivity|]. rewrite app_nil_r. split; [exact S|]. intros f' n' w' H. split; [reflexivity|].
      destruct (template_split _ (G f' n')) as (t2 & _ & E2). rewrite E2 in H.
      change (template_parse (template_as f' n' C)) with (template_parse (template_as format name C)) in H. rewrite P in H.
      apply bind_ok in H as (a & w1 & w2 & [= <- <-] & _ & ->). now exists w2.
    - exists e, w. split; [reflexivity|]. split; [exact S|]. intros f' n' w' H. exfalso.
      destruct (template_split _ (G f' n')) as (t2 & _ & E2). rewrite E2 in H.
      change (template_parse (template_as f' n' C)) with (template_parse (template_as format name C)) in H. rewrite P in H. discriminate.
  Qed.
  Theorem template_all C name w : create_template Wd (template_as (u "all") name C) = Ok tt w ->
    let n := named_or (u "template") name in
    exists r wx wc wo, w = r ++ wx ++ wc ++ wo /\ silent r /\
      create_template Wd (template_as (u "xlsx") (Some (n ++ u ".xlsx")) C) = Ok tt (r ++ wx) /\
      create_template Wd (template_as (u "csv") (Some n) C) = Ok tt (r ++ wc) /\
      create_template Wd (template_as (u "ods") (Some (n ++ u ".ods")) C) = Ok tt (r ++ wo).
  Proof.
    intros H n.
    assert (B : ~ bad_template C).
    { intros B. assert (R := proj2 (template_refused (template_as (u "all") name C)) B). congruence. }
    assert (G : forall f n, ~ bad_template (template_as f n C)) by (intros f n'; exact B).
    destruct (template_split _ (G (u "all") name)) as (t & Et & E). rewrite E in H. clear E.
    apply bind_ok in H as (s & r & w2 & Hp & H & ->).
    cbn [c_main c_format c_output template_as] in H. apply write_all in H as (wx & wc & wo & -> & Hx & Hc & Ho); [|discriminate].
    exists r, wx, wc, wo. split; [reflexivity|]. split.
    { pose proof (schema_parser_silent (c_local_off C) (c_schema C)
      {| so_rollup := c_rollup C; so_root_id := c_root_id C; so_titles := c_titles C; so_trunc := c_trunc C;
         so_nodep := c_nodep C; so_wkt := c_wkt C; so_lower := wd_lower Wd |}) as S. unfold template_parse in Hp. cbn in Hp. cbn in S. now rewrite Hp in S. }
    assert (K : forall fmt nm w, write_outputs Wd (c_main C) [] t (table_of [] [] (sp_main s)) (map (fun nx => table_of [] (fst nx) (snd nx)) (sp_subs s)) (u "template") fmt nm = Ok tt w ->
                create_template Wd (template_as fmt nm C) = Ok tt (r ++ w)).
    { intros fmt nm w Hw. destruct (template_split _ (G fmt nm)) as (t' & Et' & E). rewrite E.
      change (template_parse (template_as fmt nm C)) with (template_parse (template_as (u "all") name C)). rewrite Hp.
      cbn [c_main c_format c_output template_as] in *. replace t' with t by (change (sget (c_term C) terminators = Some t) in Et; change (sget (c_term C) terminators = Some t') in Et'; congruence).
      cbn [bind]. now rewrite Hw. }
    split; [now apply K|]. split; now apply K.
  Qed.

  (** ** Names of the files written *)
  Lemma each_writes l : each (fun pf : str * str => write (Some (fst pf)) (CText (snd pf))) l = Ok (map (fun _ => tt) l) (map (fun pf => Wrote (Some (fst pf)) (CText (snd pf))) l).
  Proof. induction l as [|x l IH]; [reflexivity|]. cbn [each map]. rewrite IH. unfold write, ret. cbn [bind]. now rewrite app_nil_r. Qed.
  Lemma lift_ok {W A} (f : W -> anywarn) (m : res W A) a w : lift f m = Ok a w -> exists w0, m = Ok a w0 /\ w = map (fun x => Warned (f x)) w0.
  Proof. destruct m; simpl; [|discriminate]. intros [= <- <-]. eauto. Qed.
  Lemma warned_silent {W} (f : W -> anywarn) l : silent (map (fun x => Warned (f x)) l).
  Proof. intros file c H. apply in_map_iff in H as (x & E & _). discriminate. Qed.
  Lemma output_writes ms prefix t main subs f n w : spreadsheet_output Wd ms prefix t main subs f n = Ok tt w ->
    let W := {| w_main := ms; w_output := n; w_prefix := prefix; w_term := t |} in
    exists w0 ww, w = w0 ++ ww /\ silent w0 /\
      match f with
      | Xlsx => exists b v, write_xlsx W (wd_wenv Wd) main subs = Ok b v /\ ww = [Wrote (Some n) (CXlsx b)]
      | Ods => exists b v, write_ods W (wd_wenv Wd) main subs = Ok b v /\ ww = [Wrote (Some n) (COds b)]
      | Csv => exists fs v, write_csv_files W (wd_wenv Wd) main subs [] = Ok fs v /\ ww = map (fun pf => Wrote (Some (fst pf)) (CText (snd pf))) fs
      end.
  Proof.
    unfold spreadsheet_output. cbv zeta. destruct f; intros H; apply bind_ok in H as (b & w1 & w2 & Hb & H & ->); apply lift_ok in Hb as (v & Hb & ->).
    - rewrite each_writes in H. cbn in H. injection H as <-. rewrite app_nil_r. do 2 eexists. split; [reflexivity|]. split; [apply warned_silent|]. eauto.
    - injection H as <-. do 2 eexists. split; [reflexivity|]. split; [apply warned_silent|]. eauto.
    - injection H as <-. do 2 eexists. split; [reflexivity|]. split; [apply warned_silent|]. eauto.
  Qed.
End Facts.
