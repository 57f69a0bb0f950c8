(** From a line to the call it asks for. *)
From Verif.Base Require Import PyStr PyNum PyVal PyDict Outcome.
From Verif.Model Require Import Commands Cli.
From Verif.Spec Require Import CommandLine.
From Verif.Proofs Require Import CliWords CliLine CliMeaning.
From Coq Require Import Lia.
Local Open Scope N_scope.

Definition run_items (P : aparser) (gs : list item) : pstate := fold_left (step P) gs (start_state P).

Lemma unambiguous P ws : Forall (fun t => unclear (classify P t) = false) ws -> ambiguous (classified P ws) = false.
Proof.
  intros H. unfold ambiguous, classified. induction H as [|t ws Ht _ IH]; [reflexivity|]. cbn [map existsb snd]. rewrite IH, orb_false_r. exact Ht.
Qed.
Lemma sub_parsed P C ws gs : table_okb P C = true -> line_says C ws gs -> Forall (item_ok P) gs ->
  parse_sub P (words_of ws) = if all_there P (run_items P gs) then PDone (run_items P gs) else PUsage.
Proof.
  intros HT Hl Hi. unfold parse_sub. pose proof (line_fine P C ws gs HT (proj1 Hl)) as Hf.
  rewrite unambiguous by (eapply Forall_impl; [|exact Hf]; intros t (H1 & _); exact H1).
  rewrite (line_parsed P C ws gs (start_state P) HT Hl Hi). reflexivity.
Qed.

(** ** The main parser *)
Definition verbosely (st : pstate) (pre : list str) : pstate := fold_left (fun st _ => set_ns (u "verbose") (ABool true) st) pre st.
Lemma main_pre st pre name rest P :
  Forall loud pre -> sget name subparsers = Some P -> classify main_parser name = CArg ->
  parse_main st O (classified main_parser (pre ++ name :: rest)) =
  match parse_sub P rest with
  | PDone st' => PDone (if ps_extra st' then add_extra (verbosely st pre) else verbosely st pre, Some (name, ps_ns st'))
  | PUsage => PUsage | PHelp => PHelp | POutside => POutside
  end.
Proof.
  intros Hp Hn Hc. revert st. induction Hp as [|t pre Ht _ IH]; intros st.
  - unfold classified. cbn [app map parse_main]. rewrite Hc, Hn, map_map. cbn [fst]. rewrite map_id. reflexivity.
  - cbn [app]. unfold classified in *. cbn [map parse_main].
    assert (exists f, classify main_parser t = COpt f (opt_flag [u "-v"; u "--verbose"]) false None) as (f & ->).
    { destruct Ht as [-> | ->]; eexists; reflexivity. }
    exact (IH (set_ns (u "verbose") (ABool true) st)).
Qed.
Lemma main_fine pre name ws P :
  Forall loud pre -> sget name subparsers = Some P -> Forall (fine_word P) ws ->
  str_mem (u "--") (pre ++ name :: ws) = false /\ ambiguous (classified main_parser (pre ++ name :: ws)) = false.
Proof.
  intros Hp Hn Hw.
  assert (classify main_parser name = CArg /\ name <> u "--") as [Hc Hne].
  { apply sget_In in Hn. destruct Hn as [E|[E|[E|[]]]]; injection E as <- _; split; try reflexivity; discriminate. }
  split.
  - apply str_mem_false. rewrite in_app_iff. intros [H|[H|H]].
    + pose proof (proj1 (Forall_forall _ _) Hp _ H) as [E|E]; discriminate E.
    + apply Hne. exact H.
    + pose proof (proj1 (Forall_forall _ _) Hw _ H) as (_ & _ & E). apply E. reflexivity.
  - apply unambiguous. apply Forall_app. split.
    + eapply Forall_impl; [|exact Hp]. intros t [-> | ->]; reflexivity.
    + constructor; [rewrite Hc; reflexivity|]. eapply Forall_impl; [|exact Hw]. intros t (_ & H & _). exact H.
Qed.
Lemma verbose_said st pre : ps_extra (verbosely st pre) = ps_extra st
  /\ sget (u "verbose") (ps_ns (verbosely st pre)) = match pre with [] => sget (u "verbose") (ps_ns st) | _ => Some (Some (ABool true)) end
  /\ (NoDup (map fst (ps_ns st)) -> NoDup (map fst (ps_ns (verbosely st pre)))).
Proof.
  revert st. induction pre as [|t pre IH]; intros st; [repeat split; intros H; exact H|].
  cbn [verbosely fold_left]. fold (verbosely (set_ns (u "verbose") (ABool true) st) pre). destruct (IH (set_ns (u "verbose") (ABool true) st)) as (H1 & H2 & H3).
  rewrite H1, H2. split; [reflexivity|]. split.
  - destruct pre; [|reflexivity]. cbn [set_ns ps_ns]. apply sget_sset_eq.
  - intros H. apply H3. cbn [set_ns ps_ns]. apply sset_NoDup. exact H.
Qed.

Theorem line_call P C pre name ws gs :
  table_okb P C = true -> Forall loud pre -> sget name subparsers = Some P -> line_says C ws gs -> Forall (item_ok P) gs ->
  call_for (pre ++ name :: words_of ws) =
  if all_there P (run_items P gs) && negb (ps_extra (run_items P gs)) then
    match call_of name (kwargs_from_parsed_args (ps_ns (run_items P gs))) with
    | PDone c => PDone (Some (is_loud pre, c)) | PUsage => PUsage | PHelp => PHelp | POutside => POutside
    end
  else PUsage.
Proof.
  intros HT Hp Hn Hl Hi. pose proof (line_fine P C ws gs HT (proj1 Hl)) as Hf.
  destruct (main_fine pre name (words_of ws) P Hp Hn Hf) as [F1 F2].
  assert (classify main_parser name = CArg) as Hc.
  { apply sget_In in Hn. destruct Hn as [E|[E|[E|[]]]]; injection E as <- _; reflexivity. }
  unfold call_for, parse_args. rewrite F1, F2, (main_pre _ pre name _ P Hp Hn Hc), (sub_parsed P C ws gs HT Hl Hi).
  destruct (all_there P (run_items P gs)); [|reflexivity]. cbn [andb].
  destruct (verbose_said (start_state main_parser) pre) as (V1 & V2 & V3).
  destruct (ps_extra (run_items P gs)) eqn:Ex; cbn [negb]; [reflexivity|].
  rewrite V1. cbn [start_state ps_extra].
  assert (kw_bool (u "verbose") (kwargs_from_parsed_args (ps_ns (verbosely (start_state main_parser) pre))) = is_loud pre) as ->.
  { unfold kw_bool. rewrite kwargs_get by (apply V3; apply nodupb_ok; reflexivity). rewrite V2. destruct pre; reflexivity. }
  reflexivity.
Qed.

(** ** The arguments *)
Lemma value_of_In names gs v : value_of names gs = Some v -> exists f, In f names /\ In (Value f v) gs.
Proof.
  induction gs as [|g gs IH]; [discriminate|]. cbn [value_of]. destruct (value_of names gs) as [w|] eqn:E.
  - intros H. injection H as ->. destruct (IH eq_refl) as (f & H1 & H2). exists f. split; [exact H1|right; exact H2].
  - destruct g as [f|f w|f ws|w]; try discriminate. destruct (str_mem f names) eqn:Ef; [|discriminate]. intros H. injection H as ->.
    exists f. split; [apply str_mem_In; exact Ef|left; reflexivity].
Qed.

Section Arguments.
  Variables (P : aparser) (C : command) (gs : list item).
  Hypotheses (HT : table_okb P C = true) (HK : Forall (known P C) gs).
  Let kw := kwargs_from_parsed_args (ps_ns (run_items P gs)).
  Lemma kw_get k : sget k kw = match sget k (ps_ns (run_items P gs)) with Some v => v | None => None end.
  Proof. apply kwargs_get. apply (run_keys P C HT gs HK). Qed.

  Section One.
    Variable o : aopt.
    Hypotheses (Ho : In o (ap_opts P)) (R : real o) (Hp : ~ In (ao_dest o) (ap_pos P)).
    Lemma kw_one : ao_kind o = KOne ->
      sget (ao_dest o) kw = match value_of (ao_flags o) gs with Some v => get_value o v | None => ao_default o end.
    Proof. intros K. rewrite kw_get. unfold run_items. rewrite (proj1 (run_value P C HT o Ho R Hp gs K HK)). reflexivity. Qed.
    Lemma given_text v : ao_int o = false -> value_of (ao_flags o) gs = Some v -> get_value o v = Some (AStr v).
    Proof.
      intros Hi Hv. apply value_of_In in Hv as (f & Hf & Hg). pose proof (proj1 (Forall_forall _ _) HK _ Hg) as [(o' & x & E & Hx) _].
      rewrite (find_opt_own P C HT f o Ho Hf) in E. injection E as <-. unfold get_value in *. rewrite Hi in *.
      destruct (ao_choices o); [|reflexivity]. destruct (str_mem v l); [reflexivity|discriminate Hx].
    Qed.
    Lemma kw_str_is d : ao_kind o = KOne -> ao_int o = false -> ao_default o = None -> kw_str (ao_dest o) d kw = value_or d (ao_flags o) gs.
    Proof.
      intros K Hi Hd. unfold kw_str, value_or. rewrite (kw_one K). destruct (value_of (ao_flags o) gs) as [v|] eqn:E; [|rewrite Hd; reflexivity].
      rewrite (given_text v Hi E). reflexivity.
    Qed.
    Lemma kw_opt_is : ao_kind o = KOne -> ao_int o = false -> ao_default o = None -> kw_opt (ao_dest o) kw = value_of (ao_flags o) gs.
    Proof.
      intros K Hi Hd. unfold kw_opt. rewrite (kw_one K). destruct (value_of (ao_flags o) gs) as [v|] eqn:E; [|rewrite Hd; reflexivity].
      rewrite (given_text v Hi E). reflexivity.
    Qed.
    Lemma kw_comment_is d : ao_kind o = KOne -> ao_int o = false -> ao_default o = Some (AStr d) -> kw_opt (ao_dest o) kw = Some (value_or d (ao_flags o) gs).
    Proof.
      intros K Hi Hd. unfold kw_opt, value_or. rewrite (kw_one K). destruct (value_of (ao_flags o) gs) as [v|] eqn:E; [|rewrite Hd; reflexivity].
      rewrite (given_text v Hi E). reflexivity.
    Qed.
    Lemma kw_int_is d : ao_kind o = KOne -> ao_int o = true -> ao_default o = Some (AInt d) ->
      Some (kw_int (ao_dest o) d kw) = match value_of (ao_flags o) gs with Some v => parse_int v | None => Some d end.
    Proof.
      intros K Hi Hd. unfold kw_int. rewrite (kw_one K). destruct (value_of (ao_flags o) gs) as [v|] eqn:E; [|rewrite Hd; reflexivity].
      apply value_of_In in E as (f & Hf & Hg). pose proof (proj1 (Forall_forall _ _) HK _ Hg) as [(o' & x & E & Hx) _].
      rewrite (find_opt_own P C HT f o Ho Hf) in E. injection E as <-. unfold get_value in *. rewrite Hi in *.
      destruct (parse_int v); [reflexivity|discriminate Hx].
    Qed.
    Lemma kw_bool_is f : ao_kind o = KFlag -> ao_flags o = [f] -> ao_default o = Some (ABool false) -> kw_bool (ao_dest o) kw = switched f gs.
    Proof. intros K Ef Hd. unfold kw_bool. rewrite kw_get. unfold run_items. rewrite (run_switch P C HT o Ho R Hp f gs K Ef Hd HK). reflexivity. Qed.
    Lemma kw_roll_is f : ao_kind o = KMaybe -> ao_flags o = [f] -> ao_default o = None -> kw_roll (ao_dest o) kw = roll_of f gs.
    Proof.
      intros K Ef Hd. unfold kw_roll, roll_of. rewrite kw_get. unfold run_items. rewrite (run_roll P C HT o Ho R Hp f gs K Ef Hd HK).
      destruct (rolled f gs) as [|r l]; [reflexivity|]. f_equal. generalize (r :: l). clear. intros l. induction l as [|r l IH]; [reflexivity|].
      cbn [map flat_map]. rewrite IH. destruct r; reflexivity.
    Qed.
    Lemma kw_strs_is f : ao_kind o = KMany -> ao_flags o = [f] -> ao_default o = None -> kw_strs (ao_dest o) kw = values_of f gs.
    Proof.
      intros K Ef Hd. unfold kw_strs. rewrite kw_get. unfold run_items. rewrite (run_many P C HT o Ho R Hp f gs K Ef Hd HK).
      destruct (values_of f gs) as [l|]; [|reflexivity]. cbn [option_map]. f_equal. induction l as [|x l IH]; [reflexivity|].
      cbn [map flat_map app]. rewrite IH. reflexivity.
    Qed.
    Lemma seen_if : ao_kind o = KOne -> value_of (ao_flags o) gs <> None -> str_mem (ao_dest o) (ps_seen (run_items P gs)) = true.
    Proof. intros K H. apply str_mem_In. apply (run_value P C HT o Ho R Hp gs K HK). exact H. Qed.
  End One.
  Lemma kw_input_is p v : ap_pos P = [p] -> inputs gs = [v] -> kw_str p [] kw = v.
  Proof.
    intros E Hv. unfold kw_str. rewrite kw_get. unfold run_items. rewrite (proj2 (proj2 (run_input P C HT p gs E HK ltac:(rewrite Hv; cbn; lia)))), Hv. reflexivity.
  Qed.
End Arguments.

(** values that are all right *)
Definition values_okb (P : aparser) (names fmts : list str) : bool :=
  forallb (fun o => if ao_int o then forallb (fun f => str_mem f [u "--truncation-length"]) (ao_flags o)
                    else match ao_choices o with
                         | Some l => forallb (fun f => str_mem f names) (ao_flags o) && forallb (fun x => str_mem x l) fmts
                         | None => true
                         end) (ap_opts P).
Lemma items_ok P C names fmts ws gs :
  table_okb P C = true -> values_okb P names fmts = true -> Forall2 (says C) ws gs -> only names fmts gs ->
  (forall f v, In (Value f v) gs -> In f [u "--truncation-length"] -> exists z, parse_int v = Some z) ->
  Forall (item_ok P) gs.
Proof.
  intros HT Hv Hs Ho Hc. apply Forall_forall. intros g Hg. destruct g as [f|f v|f vs|v]; try exact I.
  assert (In f (all_flags P)) as Hf.
  { apply (table_parts P C HT). clear Ho Hc. induction Hs as [|w g ws gs Hw _ IH]; [destruct Hg|]. destruct Hg as [-> |Hg]; [|exact (IH Hg)].
    inversion Hw; subst; try (match goal with H : means C _ f |- _ => exact (proj1 H) end). unfold cm_names. rewrite !in_app_iff. auto. }
  destruct (find_opt_there P f Hf) as [o Eo]. destruct (find_opt_some P f o Eo) as (Hio & Hfo & _).
  pose proof (proj1 (forallb_forall _ _) Hv o Hio) as Hk. cbv beta in Hk. cbn [item_ok]. exists o.
  unfold get_value. destruct (ao_int o).
  - pose proof (proj1 (forallb_forall _ _) Hk f Hfo) as Hm. apply str_mem_In in Hm. destruct (Hc f v Hg Hm) as [z Hz]. exists (AInt z). rewrite Hz. split; [exact Eo|reflexivity].
  - destruct (ao_choices o) as [l|]; [|exists (AStr v); split; [exact Eo|reflexivity]].
    apply andb_true_iff in Hk as [K1 K2]. pose proof (proj1 (forallb_forall _ _) K1 f Hfo) as Hm. apply str_mem_In in Hm.
    pose proof (proj1 (forallb_forall _ _) K2 v (Ho f v Hg Hm)) as Hin. cbv beta in Hin. rewrite Hin. exists (AStr v). split; [exact Eo|reflexivity].
Qed.

(** ** The three commands *)
(** equal in every field *)
Lemma copts_ext (a b : copts) :
  c_schema a = c_schema b -> c_output a = c_output b -> c_format a = c_format b -> c_main a = c_main b -> c_rollup a = c_rollup b -> c_root_id a = c_root_id b -> c_titles a = c_titles b -> c_local_off a = c_local_off b -> c_trunc a = c_trunc b -> c_nodep a = c_nodep b -> c_term a = c_term b -> c_wkt a = c_wkt b -> a = b.
Proof. destruct a, b. cbn. intros. subst. reflexivity. Qed.
Lemma flopts_ext (a b : flopts) :
  f_input a = f_input b -> f_schema a = f_schema b -> f_output a = f_output b -> f_format a = f_format b -> f_main a = f_main b -> f_path a = f_path b -> f_root_list a = f_root_list b -> f_prefix a = f_prefix b -> f_filter_field a = f_filter_field b -> f_filter_value a = f_filter_value b -> f_preserve a = f_preserve b -> f_roll a = f_roll b -> f_root_id a = f_root_id b -> f_titles a = f_titles b -> f_xml a = f_xml b -> f_id_name a = f_id_name b -> f_local_off a = f_local_off b -> f_drop a = f_drop b -> f_trunc a = f_trunc b -> f_term a = f_term b -> f_wkt a = f_wkt b -> a = b.
Proof. destruct a, b. cbn. intros. subst. reflexivity. Qed.
Lemma uopts_ext (a b : uopts) :
  u_input a = u_input b -> u_base a = u_base b -> u_format a = u_format b -> u_output a = u_output b -> u_path a = u_path b -> u_root_list a = u_root_list b -> u_zone a = u_zone b -> u_root_id a = u_root_id b -> u_schema a = u_schema b -> u_titles a = u_titles b -> u_cells a = u_cells b -> u_heads a = u_heads b -> u_id_name a = u_id_name b -> u_xml a = u_xml b -> u_vertical a = u_vertical b -> u_meta a = u_meta b -> u_meta_only a = u_meta_only b -> u_meta_schema a = u_meta_schema b -> u_meta_vertical a = u_meta_vertical b -> u_xsds a = u_xsds b -> u_conf a = u_conf b -> u_local_off a = u_local_off b -> u_comment a = u_comment b -> u_trunc a = u_trunc b -> u_wkt a = u_wkt b -> a = b.
Proof. destruct a, b. cbn. intros. subst. reflexivity. Qed.
Ltac member := cbn [template_parser flatten_parser unflatten_parser ap_opts]; repeat (first [left; reflexivity|right]).
Ltac not_pos := cbn [template_parser flatten_parser unflatten_parser ap_pos]; first [solve [intros []]|intros [E|[]]; discriminate E].
Ltac arg L o := refine (L o _ _ _ _ _ _); [member|discriminate|not_pos|reflexivity|reflexivity|reflexivity].

Definition command_ok (name : str) (P : aparser) (C : command) : Prop := sget name subparsers = Some P /\ table_okb P C = true.
Lemma template_ok : command_ok (u "create-template") template_parser template_command.
Proof. split; [reflexivity|vm_compute; reflexivity]. Qed.
Lemma flatten_ok : command_ok (u "flatten") flatten_parser flatten_command.
Proof. split; [reflexivity|vm_compute; reflexivity]. Qed.
Lemma unflatten_ok : command_ok (u "unflatten") unflatten_parser unflatten_command.
Proof. split; [reflexivity|vm_compute; reflexivity]. Qed.

Lemma cut_is P C gs n :
  table_okb P C = true -> Forall (known P C) gs -> In (opt_int [u "--truncation-length"] 3) (ap_opts P) ->
  ~ In (u "truncation_length") (ap_pos P) -> cut_at gs n ->
  kw_int (u "truncation_length") 3 (kwargs_from_parsed_args (ps_ns (run_items P gs))) = Z.of_nat n.
Proof.
  intros HT HK Hin Hp [_ Hc]. pose proof (kw_int_is P C gs HT HK (opt_int [u "--truncation-length"] 3) Hin ltac:(discriminate) Hp 3%Z eq_refl eq_refl eq_refl) as E.
  change (ao_dest (opt_int [u "--truncation-length"] 3)) with (u "truncation_length") in E. change (ao_flags (opt_int [u "--truncation-length"] 3)) with [u "--truncation-length"] in E.
  destruct (value_of [u "--truncation-length"] gs) as [v|].
  - rewrite Hc in E. injection E as E. exact E.
  - injection E as E. rewrite E, Hc. reflexivity.
Qed.
Lemma no_cut_below n : (Z.of_nat n <? 0)%Z = false.
Proof. apply Z.ltb_ge. lia. Qed.

Theorem template_called pre ws gs n :
  Forall loud pre -> line_says template_command ws gs -> inputs gs = [] -> value_of [u "-s"; u "--schema"] gs <> None ->
  only [u "-f"; u "--output-format"] out_formats gs -> cut_at gs n ->
  call_for (pre ++ u "create-template" :: words_of ws) = PDone (Some (is_loud pre, CallTemplate (template_meaning gs n))).
Proof.
  intros Hp Hl Hin Hs Hf Hc. destruct template_ok as [Hn HT].
  assert (Forall (item_ok template_parser) gs) as Hi.
  { apply (items_ok _ template_command [u "-f"; u "--output-format"] out_formats ws); [exact HT|reflexivity|exact (proj1 Hl)|exact Hf|exact (proj1 Hc)]. }
  pose proof (line_known _ _ ws gs (proj1 Hl) Hi) as HK.
  rewrite (line_call _ template_command pre _ ws gs HT Hp Hn Hl Hi).
  destruct (run_none template_parser template_command HT gs eq_refl HK Hin) as [R1 R2]. fold (run_items template_parser gs) in R1, R2.
  assert (all_there template_parser (run_items template_parser gs) = true) as ->.
  { unfold all_there. rewrite R1. cbn [template_parser ap_opts forallb ao_required opt_help opt_required opt_one opt_flag opt_choice opt_int negb orb andb].
    rewrite andb_true_r. refine (seen_if template_parser template_command gs HT HK (opt_required [u "-s"; u "--schema"]) _ _ _ eq_refl Hs); [member|discriminate|not_pos]. }
  rewrite R2. cbn [andb negb].
  assert (kw_int (u "truncation_length") 3 (kwargs_from_parsed_args (ps_ns (run_items template_parser gs))) = Z.of_nat n) as Ec.
  { apply (cut_is _ template_command); [exact HT|exact HK|member|not_pos|exact Hc]. }
  unfold call_of. rewrite Ec, no_cut_below, Nat2Z.id. change (str_eqb (u "create-template") (u "create-template")) with true. cbv iota.
  do 4 f_equal. unfold template_call, template_meaning. apply copts_ext; cbn [c_schema c_output c_format c_main c_rollup c_root_id c_titles c_local_off c_trunc c_nodep c_term c_wkt]; try reflexivity.
  - arg (fun o a b c => kw_str_is template_parser template_command gs HT HK o a b c []) (opt_required [u "-s"; u "--schema"]).
  - arg (kw_opt_is template_parser template_command gs HT HK) (opt_one [u "-o"; u "--output-name"]).
  - arg (fun o a b c => kw_str_is template_parser template_command gs HT HK o a b c (u "all")) (opt_choice [u "-f"; u "--output-format"] output_formats false).
  - arg (fun o a b c => kw_str_is template_parser template_command gs HT HK o a b c (u "main")) (opt_one [u "-m"; u "--main-sheet-name"]).
  - arg (fun o a b c => kw_bool_is template_parser template_command gs HT HK o a b c (u "--rollup")) (opt_flag [u "--rollup"]).
  - arg (fun o a b c => kw_str_is template_parser template_command gs HT HK o a b c []) (opt_one [u "-r"; u "--root-id"]).
  - arg (fun o a b c => kw_bool_is template_parser template_command gs HT HK o a b c (u "--use-titles")) (opt_flag [u "--use-titles"]).
  - arg (fun o a b c => kw_bool_is template_parser template_command gs HT HK o a b c (u "--disable-local-refs")) (opt_flag [u "--disable-local-refs"]).
  - arg (fun o a b c => kw_bool_is template_parser template_command gs HT HK o a b c (u "--no-deprecated-fields")) (opt_flag [u "--no-deprecated-fields"]).
  - arg (fun o a b c => kw_str_is template_parser template_command gs HT HK o a b c (u "CRLF")) (opt_one [u "--line-terminator"]).
  - arg (fun o a b c => kw_bool_is template_parser template_command gs HT HK o a b c (u "--convert-wkt")) (opt_flag [u "--convert-wkt"]).
Qed.

Theorem flatten_called pre ws gs input n :
  Forall loud pre -> line_says flatten_command ws gs -> inputs gs = [input] ->
  only [u "-f"; u "--output-format"] out_formats gs -> cut_at gs n ->
  call_for (pre ++ u "flatten" :: words_of ws) = PDone (Some (is_loud pre, CallFlatten (flatten_meaning input gs n))).
Proof.
  intros Hp Hl Hin Hf Hc. destruct flatten_ok as [Hn HT].
  assert (Forall (item_ok flatten_parser) gs) as Hi.
  { apply (items_ok _ flatten_command [u "-f"; u "--output-format"] out_formats ws); [exact HT|reflexivity|exact (proj1 Hl)|exact Hf|exact (proj1 Hc)]. }
  pose proof (line_known _ _ ws gs (proj1 Hl) Hi) as HK.
  rewrite (line_call _ flatten_command pre _ ws gs HT Hp Hn Hl Hi).
  destruct (run_input flatten_parser flatten_command HT (u "input_name") gs eq_refl HK ltac:(rewrite Hin; cbn; lia)) as (R2 & R1 & _).
  fold (run_items flatten_parser gs) in R1, R2. rewrite Hin in R1.
  assert (all_there flatten_parser (run_items flatten_parser gs) = true) as ->.
  { unfold all_there. rewrite R1. reflexivity. }
  rewrite R2. cbn [andb negb].
  assert (kw_int (u "truncation_length") 3 (kwargs_from_parsed_args (ps_ns (run_items flatten_parser gs))) = Z.of_nat n) as Ec.
  { apply (cut_is _ flatten_command); [exact HT|exact HK|member|not_pos|exact Hc]. }
  unfold call_of. rewrite Ec, no_cut_below, Nat2Z.id. change (str_eqb (u "flatten") (u "create-template")) with false. change (str_eqb (u "flatten") (u "flatten")) with true. cbv iota.
  do 4 f_equal. unfold flatten_call, flatten_meaning. apply flopts_ext; cbn [f_input f_schema f_output f_format f_main f_path f_root_list f_prefix f_filter_field f_filter_value f_preserve f_roll f_root_id f_titles f_xml f_id_name f_local_off f_drop f_trunc f_term f_wkt]; try reflexivity.
  - exact (kw_input_is flatten_parser flatten_command gs HT HK (u "input_name") input eq_refl Hin).
  - arg (fun o a b c => kw_str_is flatten_parser flatten_command gs HT HK o a b c []) (opt_one [u "-s"; u "--schema"]).
  - arg (kw_opt_is flatten_parser flatten_command gs HT HK) (opt_one [u "-o"; u "--output-name"]).
  - arg (fun o a b c => kw_str_is flatten_parser flatten_command gs HT HK o a b c (u "all")) (opt_choice [u "-f"; u "--output-format"] output_formats false).
  - arg (fun o a b c => kw_str_is flatten_parser flatten_command gs HT HK o a b c (u "main")) (opt_one [u "-m"; u "--main-sheet-name"]).
  - arg (fun o a b c => kw_str_is flatten_parser flatten_command gs HT HK o a b c (u "main")) (opt_one [u "--root-list-path"]).
  - arg (fun o a b c => kw_bool_is flatten_parser flatten_command gs HT HK o a b c (u "--root-is-list")) (opt_flag [u "--root-is-list"]).
  - arg (fun o a b c => kw_str_is flatten_parser flatten_command gs HT HK o a b c []) (opt_one [u "--sheet-prefix"]).
  - arg (kw_opt_is flatten_parser flatten_command gs HT HK) (opt_one [u "--filter-field"]).
  - arg (kw_opt_is flatten_parser flatten_command gs HT HK) (opt_one [u "--filter-value"]).
  - arg (fun o a b c => kw_str_is flatten_parser flatten_command gs HT HK o a b c []) (opt_one [u "--preserve-fields"]).
  - arg (fun o a b c => kw_roll_is flatten_parser flatten_command gs HT HK o a b c (u "--rollup")) (opt_maybe [u "--rollup"]).
  - arg (fun o a b c => kw_str_is flatten_parser flatten_command gs HT HK o a b c []) (opt_one [u "-r"; u "--root-id"]).
  - arg (fun o a b c => kw_bool_is flatten_parser flatten_command gs HT HK o a b c (u "--use-titles")) (opt_flag [u "--use-titles"]).
  - arg (fun o a b c => kw_bool_is flatten_parser flatten_command gs HT HK o a b c (u "--xml")) (opt_flag [u "--xml"]).
  - arg (fun o a b c => kw_str_is flatten_parser flatten_command gs HT HK o a b c (u "id")) (opt_one [u "--id-name"]).
  - arg (fun o a b c => kw_bool_is flatten_parser flatten_command gs HT HK o a b c (u "--disable-local-refs")) (opt_flag [u "--disable-local-refs"]).
  - arg (fun o a b c => kw_bool_is flatten_parser flatten_command gs HT HK o a b c (u "--remove-empty-schema-columns")) (opt_flag [u "--remove-empty-schema-columns"]).
  - arg (fun o a b c => kw_str_is flatten_parser flatten_command gs HT HK o a b c (u "CRLF")) (opt_one [u "--line-terminator"]).
  - arg (fun o a b c => kw_bool_is flatten_parser flatten_command gs HT HK o a b c (u "--convert-wkt")) (opt_flag [u "--convert-wkt"]).
Qed.

Lemma run_other P C gs k : table_okb P C = true -> Forall (known P C) gs ->
  (forall o, In o (ap_opts P) -> real o -> ao_dest o <> k) -> ~ In k (ap_pos P) ->
  sget k (ps_ns (run_items P gs)) = sget k (defaults P).
Proof.
  intros HT HK Hd Hp. unfold run_items. induction gs as [|g gs IH] using rev_ind; [reflexivity|].
  apply Forall_app in HK as [H1 H2]. apply Forall_cons_iff in H2 as [H2 _]. rewrite fold_left_app. cbn [fold_left].
  destruct (keep_flags P C HT (fold_left (step P) gs (start_state P)) g H2) as [(v & ->)|(_ & _ & _ & F4)].
  - cbn [step]. unfold consume_positional. pose proof (run_left P C HT gs H1) as Hl. destruct (ps_left _) as [|p l]; cbn [ps_ns add_extra]; [exact (IH H1)|].
    rewrite sget_sset_neq; [exact (IH H1)|]. intros ->. apply Hp. apply Hl. left. reflexivity.
  - rewrite (F4 k Hd). exact (IH H1).
Qed.

Theorem unflatten_called pre ws gs input :
  Forall loud pre -> line_says unflatten_command ws gs -> inputs gs = [input] -> value_of [u "-f"; u "--input-format"] gs <> None ->
  only [u "-f"; u "--input-format"] in_formats gs ->
  call_for (pre ++ u "unflatten" :: words_of ws) =
  PDone (Some (is_loud pre, CallUnflatten (unflatten_meaning input gs) (value_or (u "utf8") [u "-e"; u "--encoding"] gs))).
Proof.
  intros Hp Hl Hin Hs Hf. destruct unflatten_ok as [Hn HT].
  assert (Forall (item_ok unflatten_parser) gs) as Hi.
  { apply (items_ok _ unflatten_command [u "-f"; u "--input-format"] in_formats ws); [exact HT|reflexivity|exact (proj1 Hl)|exact Hf|].
    intros f v Hg [<- |[]]. exfalso.
    assert (In (u "--truncation-length") (cm_names unflatten_command)) as X.
    { pose proof (proj1 Hl) as H2. clear - H2 Hg. induction H2 as [|w g ws gs Hw _ IH]; [destruct Hg|]. destruct Hg as [-> |Hg]; [|exact (IH Hg)].
      inversion Hw; subst; try (match goal with H : means _ _ (u "--truncation-length") |- _ => exact (proj1 H) end). unfold cm_names. rewrite !in_app_iff. auto. }
    apply str_mem_In in X. discriminate X. }
  pose proof (line_known _ _ ws gs (proj1 Hl) Hi) as HK.
  rewrite (line_call _ unflatten_command pre _ ws gs HT Hp Hn Hl Hi).
  destruct (run_input unflatten_parser unflatten_command HT (u "input_name") gs eq_refl HK ltac:(rewrite Hin; cbn; lia)) as (R2 & R1 & _).
  fold (run_items unflatten_parser gs) in R1, R2. rewrite Hin in R1.
  assert (all_there unflatten_parser (run_items unflatten_parser gs) = true) as ->.
  { unfold all_there. rewrite R1. cbn [unflatten_parser ap_opts forallb ao_required opt_help opt_required opt_one opt_flag opt_choice opt_int opt_many opt_default negb orb andb].
    rewrite andb_true_r. refine (seen_if unflatten_parser unflatten_command gs HT HK (opt_choice [u "-f"; u "--input-format"] input_formats true) _ _ _ eq_refl Hs); [member|discriminate|not_pos]. }
  rewrite R2. cbn [andb negb].
  assert (kw_int (u "truncation_length") 3 (kwargs_from_parsed_args (ps_ns (run_items unflatten_parser gs))) = Z.of_nat 3) as Ec.
  { unfold kw_int. rewrite (kw_get unflatten_parser unflatten_command gs HT HK).
    rewrite (run_other unflatten_parser unflatten_command gs _ HT HK); [reflexivity| |not_pos].
    intros o Ho _ E. cbn [unflatten_parser ap_opts In] in Ho. do 25 (destruct Ho as [<- |Ho]; [discriminate E|]). exact Ho. }
  unfold call_of. rewrite Ec, no_cut_below, Nat2Z.id. change (str_eqb (u "unflatten") (u "create-template")) with false. change (str_eqb (u "unflatten") (u "flatten")) with false. cbv iota.
  assert (kw_str (u "encoding") (u "utf8") (kwargs_from_parsed_args (ps_ns (run_items unflatten_parser gs))) = value_or (u "utf8") [u "-e"; u "--encoding"] gs) as ->.
  { arg (fun o a b c => kw_str_is unflatten_parser unflatten_command gs HT HK o a b c (u "utf8")) (opt_one [u "-e"; u "--encoding"]). }
  assert (unflatten_call (kwargs_from_parsed_args (ps_ns (run_items unflatten_parser gs))) 3 = unflatten_meaning input gs) as ->; [|reflexivity].
  unfold unflatten_call, unflatten_meaning. apply uopts_ext; cbn [u_input u_base u_format u_output u_path u_root_list u_zone u_root_id u_schema u_titles u_cells u_heads u_id_name u_xml u_vertical u_meta u_meta_only u_meta_schema u_meta_vertical u_xsds u_conf u_local_off u_comment u_trunc u_wkt]; try reflexivity.
  - exact (kw_input_is unflatten_parser unflatten_command gs HT HK (u "input_name") input eq_refl Hin).
  - arg (kw_opt_is unflatten_parser unflatten_command gs HT HK) (opt_one [u "-b"; u "--base-json"]).
  - arg (kw_opt_is unflatten_parser unflatten_command gs HT HK) (opt_choice [u "-f"; u "--input-format"] input_formats true).
  - arg (kw_opt_is unflatten_parser unflatten_command gs HT HK) (opt_one [u "-o"; u "--output-name"]).
  - arg (kw_opt_is unflatten_parser unflatten_command gs HT HK) (opt_one [u "-m"; u "--root-list-path"]).
  - arg (fun o a b c => kw_bool_is unflatten_parser unflatten_command gs HT HK o a b c (u "--root-is-list")) (opt_flag [u "--root-is-list"]).
  - arg (fun o a b c => kw_str_is unflatten_parser unflatten_command gs HT HK o a b c (u "UTC")) (opt_one [u "--timezone-name"]).
  - arg (fun o a b c => kw_str_is unflatten_parser unflatten_command gs HT HK o a b c []) (opt_one [u "-r"; u "--root-id"]).
  - arg (fun o a b c => kw_str_is unflatten_parser unflatten_command gs HT HK o a b c []) (opt_one [u "-s"; u "--schema"]).
  - arg (fun o a b c => kw_bool_is unflatten_parser unflatten_command gs HT HK o a b c (u "--convert-titles")) (opt_flag [u "--convert-titles"]).
  - arg (fun o a b c => kw_str_is unflatten_parser unflatten_command gs HT HK o a b c []) (opt_one [u "-c"; u "--cell-source-map"]).
  - arg (fun o a b c => kw_str_is unflatten_parser unflatten_command gs HT HK o a b c []) (opt_one [u "-a"; u "--heading-source-map"]).
  - arg (kw_opt_is unflatten_parser unflatten_command gs HT HK) (opt_one [u "--id-name"]).
  - arg (fun o a b c => kw_bool_is unflatten_parser unflatten_command gs HT HK o a b c (u "--xml")) (opt_flag [u "--xml"]).
  - arg (fun o a b c => kw_bool_is unflatten_parser unflatten_command gs HT HK o a b c (u "--vertical-orientation")) (opt_flag [u "--vertical-orientation"]).
  - arg (kw_opt_is unflatten_parser unflatten_command gs HT HK) (opt_one [u "--metatab-name"]).
  - arg (fun o a b c => kw_bool_is unflatten_parser unflatten_command gs HT HK o a b c (u "--metatab-only")) (opt_flag [u "--metatab-only"]).
  - arg (fun o a b c => kw_str_is unflatten_parser unflatten_command gs HT HK o a b c []) (opt_one [u "--metatab-schema"]).
  - arg (fun o a b c => kw_bool_is unflatten_parser unflatten_command gs HT HK o a b c (u "--metatab-vertical-orientation")) (opt_flag [u "--metatab-vertical-orientation"]).
  - arg (fun o a b c => kw_strs_is unflatten_parser unflatten_command gs HT HK o a b c (u "--xml-schema")) (opt_many [u "--xml-schema"] (u "xml_schemas")).
  - arg (fun o a b c => kw_str_is unflatten_parser unflatten_command gs HT HK o a b c []) (opt_one [u "--default-configuration"]).
  - arg (fun o a b c => kw_bool_is unflatten_parser unflatten_command gs HT HK o a b c (u "--disable-local-refs")) (opt_flag [u "--disable-local-refs"]).
  - arg (fun o a b c => kw_comment_is unflatten_parser unflatten_command gs HT HK o a b c (u "XML generated by flatten-tool")) (opt_default [u "--xml-comment"] (u "XML generated by flatten-tool")).
  - arg (fun o a b c => kw_bool_is unflatten_parser unflatten_command gs HT HK o a b c (u "--convert-wkt")) (opt_flag [u "--convert-wkt"]).
Qed.

(** a line without the input's name is not accepted *)
Theorem no_input pre name P C ws gs names fmts p :
  command_ok name P C -> ap_pos P = [p] -> values_okb P names fmts = true ->
  Forall loud pre -> line_says C ws gs -> inputs gs = [] ->
  only names fmts gs -> (forall f v, In (Value f v) gs -> In f [u "--truncation-length"] -> exists z, parse_int v = Some z) ->
  call_for (pre ++ name :: words_of ws) = PUsage.
Proof.
  intros [Hn HT] Hpos Hv Hp Hl Hin Hf Hc.
  pose proof (items_ok P C names fmts ws gs HT Hv (proj1 Hl) Hf Hc) as Hi.
  pose proof (line_known _ _ ws gs (proj1 Hl) Hi) as HK.
  rewrite (line_call P C pre _ ws gs HT Hp Hn Hl Hi).
  destruct (run_input P C HT p gs Hpos HK ltac:(rewrite Hin; cbn; lia)) as (_ & R1 & _). fold (run_items P gs) in R1. rewrite Hin in R1.
  unfold all_there. rewrite R1. reflexivity.
Qed.
