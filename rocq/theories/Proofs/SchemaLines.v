(** Titles in headings; references. *)
From Verif.Base Require Import PyStr PyNum PyVal PyDict Outcome.
From Verif.Model Require Import Warn Lib Convert Input Readers Flatten Titles Schema TitleLines.
From Verif.Spec Require Import Headings Conversion SchemaFields SchemaLines.
From Verif.Proofs Require Import SchemaTrace SchemaRun SchemaColumns SchemaState SchemaTypes SchemaTitles SchemaReady ReaderFacts.

Section Lines.
  Variable O : sopts.
  Theorem heading_found S st w : parse_schema O S = Ok st w -> clear_titles O S -> forall l o, l <> [] -> (forall x, In x l -> ~ In 58%N x) -> resolved O S l o ->
    lookup_header (so_lower O) (sp_table st) 0 (join (u ":") l) = join (u "/") o.
  Proof.
    intros H C l o Hl Hx R. unfold lookup_header. change (u ":") with [colon]. rewrite split_join by assumption. eapply lookup_resolved; [exact R|eapply schema_tree; eauto|exact Hl].
  Qed.
  Theorem heading_read S st w : parse_schema O S = Ok st w -> clear_titles O S -> forall l, exists o, resolved O S l o.
  Proof. intros H C l. eapply resolved_total. eapply schema_tree; eauto. Qed.
  Lemma titled_lookup S st w h h' : parse_schema O S = Ok st w -> clear_titles O S -> titled_heading O S h h' -> lookup_heading (so_lower O) (sp_table st) 0 h = h'.
  Proof.
    intros H C [(l & o & -> & Hl & Hx & R & ->)|[Hn ->]].
    - cbn [lookup_heading]. f_equal. eapply heading_found; eauto.
    - destruct h; try reflexivity. destruct (Hn s eq_refl).
  Qed.
  Theorem line_retitled S st w : parse_schema O S = Ok st w -> clear_titles O S -> some_title O S ->
    forall line line', retitled O S line line' -> headings_differ line' -> convert_line (so_lower O) (sp_table st) line = line'.
  Proof.
    intros H C (n & v & t & P & Et) line line' R D. unfold convert_line. pose proof (schema_tree O S st w H C) as Tr. inversion Tr as [i0 v0 A _ E1 E2]; clear Tr. destruct (A n v t P Et) as (j & _ & Ef & _).
    unfold t_find in Ef. destruct (tn_data (t_node (sp_table st) 0)) eqn:E; [discriminate|]. clear E Ef.
    assert (Q : map (fun hv : scalar * scalar => (lookup_heading (so_lower O) (sp_table st) 0 (fst hv), snd hv)) line = line').
    { clear D. induction R as [|[h x] [h' x'] line line' [R1 R2] R IH]; [reflexivity|]. cbn in R1, R2. cbn [map fst snd]. rewrite (titled_lookup S st w h h' H C R1), IH, R2. reflexivity. }
    rewrite Q. apply make_line_once. unfold ReaderFacts.keys_once. clear - D. induction D as [|a l F D IH]; constructor; [|exact IH]. eapply Forall_impl; [|exact F]. intros b Hb. cbn in *. rewrite py_eqb_sym. exact Hb.
  Qed.
  Theorem sheets_retitled S st w : parse_schema O S = Ok st w -> clear_titles O S -> some_title O S ->
    forall U sheets sheets', Forall2 (retitled_sheet O S) sheets sheets' -> unflatten_titled (so_lower O) U (Some (sp_table st)) sheets = unflatten U sheets'.
  Proof.
    intros H C T U sheets sheets' F. unfold unflatten_titled, convert_sheets.
    match goal with |- bind (ret ?x) _ = _ => assert (Q : x = sheets') end.
    { induction F as [|s s' l l' (E1 & E2 & E3) F IH]; [reflexivity|]. cbn [map]. rewrite IH. f_equal. rewrite <- E1, <- E2. destruct s' as [a b c]. cbn in *. f_equal.
      clear - E3 H C T. induction E3 as [|x y lx ly [R D] E IH]; [reflexivity|]. cbn [map]. rewrite IH. f_equal. eapply line_retitled; eauto. }
    rewrite Q, bind_ret_l. reflexivity.
  Qed.
  Theorem sheets_untitled S st w : parse_schema O S = Ok st w -> clear_titles O S -> ~ some_title O S ->
    forall U sheets, unflatten_titled (so_lower O) U (Some (sp_table st)) sheets = unflatten U sheets.
  Proof.
    intros H C T U sheets. unfold unflatten_titled, convert_sheets. rewrite bind_ret_l. f_equal.
    assert (D : tn_data (t_node (sp_table st) 0) = []).
    { pose proof (schema_tree O S st w H C) as Tr. inversion Tr as [i0 v0 _ B E1 E2]; clear Tr. destruct (tn_data (t_node (sp_table st) 0)) as [|[q j] l] eqn:E; [reflexivity|]. exfalso.
      destruct (B q j) as (n & v & t & P & Et & _); [cbn [sget aget]; unfold sget; cbn [aget]; rewrite str_eqb_refl; reflexivity|]. apply T. exists n, v, t. split; assumption. }
    induction sheets as [|s l IH]; [reflexivity|]. cbn [map]. rewrite IH. f_equal. destruct s as [a b c]. cbn [si_name si_headings si_lines]. f_equal.
    unfold convert_line. rewrite D. apply map_id.
  Qed.

  (** ** Types *)
  Lemma leaf_value v ty : leaf O v ty -> In ty value_types \/ (ty = u "geojson" /\ so_wkt O = true).
  Proof. destruct 1 as [? [W _]| | | | | | | | ]; try (left; vm_compute; tauto). right. auto. Qed.
  Theorem types_accepted S st w : parse_schema O S = Ok st w -> plain_names O S -> forall k t, sget k (sp_flat st) = Some t ->
    In t value_types \/ (t = u "geojson" /\ so_wkt O = true) \/ t = u "object".
  Proof.
    intros H N k t E. destruct (type_sound O S st w H N k t E) as (R & p & v & _ & _ & K & _). destruct K as [ty L|Ob|i Ob]; [destruct (leaf_value v ty L); tauto|tauto|]. left. vm_compute. tauto.
  Qed.
  Theorem types_recorded S st w : parse_schema O S = Ok st w -> plain_names O S -> forall k t, sget k (sp_flat st) = Some t ->
    (exists R p v, top S R /\ along O R p v /\ kind O v t /\ (path_text p = k \/ (t = u "object" /\ ~ no_position p))) /\
    (In t value_types \/ (t = u "geojson" /\ so_wkt O = true) \/ t = u "object").
  Proof.
    intros H N k t E. split; [|eapply types_accepted; eauto]. destruct (type_sound O S st w H N k t E) as (R & p & v & A & B & C & D). exists R, p, v. tauto.
  Qed.
  Theorem types_found_alternatives S st w : parse_schema O S = Ok st w -> plain_names O S ->
    forall R p v t, top S R -> along O R p v -> kind O v t -> (t = u "object" -> no_position p) -> one_kind O S (path_text p) -> types_of st (path_text p) = t.
  Proof. intros H N R p v t T A K Hp Ok. unfold types_of. rewrite (type_recorded O S st w H N R p v t T A K Hp Ok). reflexivity. Qed.
  Theorem types_found S st w : parse_schema O S = Ok st w -> plain_names O S -> SchemaFields.keys_once O S -> (forall o, ~ alternatives S o) ->
    forall p v t, along O S p v -> kind O v t -> (t = u "object" -> no_position p) -> types_of st (path_text p) = t.
  Proof. intros H N K NA p v t A Kv Hp. eapply types_found_alternatives; eauto; [right; auto|]. apply one_kind_clear; assumption. Qed.
  Theorem schema_columns S st w : parse_schema O S = Ok st w -> named_fields O S ->
    (forall c, In c (header (sp_main st)) <-> exists R f t, top S R /\ gives O R f t /\ (if so_titles O then t = Some c else c = f)) /\
    (forall sn, In sn (map fst (sp_subs st)) <-> exists q ids n v i, array_in O S q ids n v i /\ sn = sheet_of O q n v) /\
    (forall sn s, sget sn (sp_subs st) = Some s -> exists ids cols, header s = (match so_root_id O with [] => [] | r => [r] end) ++ ids ++ cols /\
       (forall c, In c cols <-> exists q ids n v i f t, array_in O S q ids n v i /\ sn = sheet_of O q n v /\ gives O i f t /\ sub_heading O q n v f t c) /\
       (forall c, In c ids <-> exists q ids' n v i, array_in O S q ids' n v i /\ sn = sheet_of O q n v /\ In c ids')).
  Proof.
    intros H N0. pose proof (named_fields_named O S N0) as N. split; [exact (main_columns O S st w H N)|]. split; [exact (sub_sheets O S st w H N)|].
    intros sn s E. exists (sh_idcols s), (sh_cols s). split; [|split; [exact (sub_columns O S st w H N sn s E)|exact (sub_ids O S st w H N sn s E)]].
    destruct (parse_facts O S st w H N) as (tr & R & Or & _ & _). destruct (runs_state O tr _ _ _ _ [] R (start_good O) (Or []) (fun _ H => match H with end)) as (G & _).
    destruct G as (_ & G & _). destruct (G sn s E) as (_ & _ & L & _). unfold header. rewrite L. reflexivity.
  Qed.
End Lines.

(** ** References *)
Lemma lower_letter c l : (l <> 107 /\ (97 <= l <= 122 \/ l < 65))%N -> lower [c] = [l] <-> letter_is c l.
Proof.
  intros Hl. unfold letter_is, lower, lower_c. cbn [map]. destruct ((65 <=? c) && (c <=? 90))%N eqn:E.
  - apply andb_true_iff in E as [E1 E2]. apply N.leb_le in E1, E2. split; [intros [= <-]; right; lia|]. intros [-> |[_ H]]; [lia|]. f_equal. lia.
  - destruct (N.eqb_spec c 8490) as [-> |Hc].
    + split; [intros [= <-]; lia|]. intros [<- |[H1 H2]]; lia.
    + split; [intros [= <-]; auto|]. intros [-> |[H1 H2]]; [reflexivity|]. exfalso. apply andb_false_iff in E as [E|E]; apply N.leb_gt in E; lia.
Qed.
Lemma lower_app a b : lower (a ++ b) = lower a ++ lower b.
Proof. apply map_app. Qed.
Lemma lower_letters p : Forall (fun l => l <> 107 /\ (97 <= l <= 122 \/ l < 65))%N p -> forall a, lower a = p <-> Forall2 letter_is a p.
Proof.
  induction 1 as [|l p Hl F IH]; intros a.
  - split; [destruct a; [constructor|discriminate]|intros H; inversion H; reflexivity].
  - destruct a as [|c a]; [split; [discriminate|intros H; inversion H]|]. change (lower (c :: a)) with (lower ([c] ++ a)). rewrite lower_app. split.
    + intros E. assert (E1 : lower [c] = [l]) by (cbn in *; congruence). assert (E2 : lower a = p) by (cbn in *; congruence). constructor; [apply lower_letter; assumption|apply IH; exact E2].
    + intros H. inversion H as [|? ? ? ? H1 H2]; subst. apply lower_letter in H1; [|exact Hl]. apply IH in H2. rewrite H1, H2. reflexivity.
Qed.
Lemma begins_lower uri p : Forall (fun l => l <> 107 /\ (97 <= l <= 122 \/ l < 65))%N p -> begins uri p <-> lower (firstn (length p) uri) = p.
Proof.
  intros F. split.
  - intros (a & b & -> & H). assert (L : length a = length p) by (clear - H; induction H; cbn; congruence). rewrite <- L, firstn_app, firstn_all, Nat.sub_diag. cbn [firstn]. rewrite app_nil_r. apply lower_letters; assumption.
  - intros E. exists (firstn (length p) uri), (skipn (length p) uri). split; [symmetry; apply firstn_skipn|]. apply lower_letters; assumption.
Qed.
Theorem is_ref_local_spec uri : is_ref_local uri = false <-> remote uri.
Proof.
  assert (F1 : Forall (fun l => l <> 107 /\ (97 <= l <= 122 \/ l < 65))%N (u "http://")) by (vm_compute u; repeat (constructor; [lia|]); constructor).
  assert (F2 : Forall (fun l => l <> 107 /\ (97 <= l <= 122 \/ l < 65))%N (u "https://")) by (vm_compute u; repeat (constructor; [lia|]); constructor).
  unfold remote. rewrite (begins_lower _ _ F1), (begins_lower _ _ F2). unfold is_ref_local. change (length (u "http://")) with 7%nat. change (length (u "https://")) with 8%nat.
  destruct (str_eqb_spec (lower (firstn 7 uri)) (u "http://")), (str_eqb_spec (lower (firstn 8 uri)) (u "https://")); cbn [negb andb]; intuition discriminate.
Qed.
Theorem remote_only {A} uri : (remote uri -> forall loader : str -> SR A, load_remote_only loader uri = loader uri) /\
  (~ remote uri -> forall loader : str -> SR A, load_remote_only loader uri = Raise EFlattenToolError []).
Proof.
  unfold load_remote_only. destruct (is_ref_local uri) eqn:E.
  - split; [intros H; apply is_ref_local_spec in H; congruence|reflexivity].
  - split; [reflexivity|intros H; destruct H; apply is_ref_local_spec; exact E].
Qed.
