(** What the namespace holds after a line. *)
From Verif.Base Require Import PyStr PyNum PyVal PyDict Outcome.
From Verif.Model Require Import Commands Cli.
From Verif.Spec Require Import CommandLine.
From Verif.Proofs Require Import CliWords CliLine.
From Coq Require Import Lia.
Local Open Scope N_scope.

Definition known (P : aparser) (C : command) (g : item) : Prop :=
  item_ok P g /\
  match g with
  | Switched f => In f (cm_switches C) \/ In f (cm_maybe C)
  | Value f _ => In f (cm_valued C) \/ In f (cm_maybe C)
  | Values f _ => In f (cm_lists C)
  | Input _ => True
  end.
Lemma line_known P C ws gs : Forall2 (says C) ws gs -> Forall (item_ok P) gs -> Forall (known P C) gs.
Proof.
  intros H. induction H as [|w g ws gs Hw _ IH]; intros Hi; [constructor|]. apply Forall_cons_iff in Hi as [H1 H2].
  constructor; [|exact (IH H2)]. split; [exact H1|]. destruct Hw; auto.
Qed.

Definition flag_of (g : item) : option str :=
  match g with Switched f | Value f _ | Values f _ => Some f | Input _ => None end.
Definition value_for (st : pstate) (o : aopt) (g : item) : option aval :=
  match g, ao_kind o with
  | Switched _, KFlag => Some (ABool true)
  | Switched _, KMaybe => Some (AList (items_of (sget (ao_dest o) (ps_ns st)) ++ [ABool true]))
  | Value _ v, KOne => get_value o v
  | Value _ v, KMaybe => Some (AList (items_of (sget (ao_dest o) (ps_ns st)) ++ [AStr v]))
  | Values _ vs, KMany => Some (AList (map AStr vs))
  | _, _ => None
  end.

Section Table.
  Variables (P : aparser) (C : command).
  Hypothesis HT : table_okb P C = true.

  Lemma step_effect st g : known P C g ->
    (exists v, g = Input v) \/
    exists f o x, flag_of g = Some f /\ find_opt P f = Some o /\ value_for st o g = Some x /\ step P st g = set_ns (ao_dest o) x st.
  Proof.
    intros [Hi Hk]. destruct g as [f|f v|f vs|v]; [right|right|right|left; exists v; reflexivity].
    - destruct Hk as [Hk|Hk].
      + destruct (switch_kind P C HT f Hk) as (o & Eo & K). exists f, o, (ABool true). cbn [flag_of value_for step]. rewrite K.
        repeat split; [exact Eo|]. unfold act. rewrite Eo. unfold take_action. rewrite K. reflexivity.
      + destruct (maybe_kind P C HT f Hk) as (o & Eo & K & _). eexists f, o, _. cbn [flag_of value_for step]. rewrite K.
        repeat split; [exact Eo|]. unfold act. rewrite Eo. unfold take_action. rewrite K. reflexivity.
    - destruct Hi as (o & x & Eo & Hx). destruct Hk as [Hk|Hk].
      + destruct (valued_kind P C HT f Hk) as (o' & E & K). rewrite Eo in E. injection E as <-.
        exists f, o, x. cbn [flag_of value_for step]. rewrite K. repeat split; [exact Eo|exact Hx|]. unfold act. rewrite Eo. unfold take_action. rewrite K, Hx. reflexivity.
      + destruct (maybe_kind P C HT f Hk) as (o' & E & K & K1 & K2). rewrite Eo in E. injection E as <-.
        eexists f, o, _. cbn [flag_of value_for step]. rewrite K. repeat split; [exact Eo|]. unfold act. rewrite Eo. unfold take_action. rewrite K, Hx.
        unfold get_value in Hx. rewrite K1, K2 in Hx. injection Hx as <-. reflexivity.
    - destruct (list_kind P C HT f Hk) as (o & Eo & K & K1 & K2). eexists f, o, _. cbn [flag_of value_for step]. rewrite K.
      repeat split; [exact Eo|]. unfold act. rewrite Eo. unfold take_action. rewrite K, (get_values_plain o vs K1 K2). reflexivity.
  Qed.

  Definition real (o : aopt) : Prop := ao_kind o <> KHelp.
  Lemma dest_inj o o' : In o (ap_opts P) -> In o' (ap_opts P) -> real o -> real o' -> ao_dest o = ao_dest o' -> o = o'.
  Proof.
    destruct (table_parts P C HT) as (_ & _ & _ & _ & _ & Hn). unfold defaults in Hn. rewrite map_app in Hn.
    remember (map fst (map (fun p : str => (p, @None aval)) (ap_pos P))) as z eqn:Ez. clear Ez.
    revert Hn. generalize (ap_opts P) as l. induction l as [|a l IH]; [intros _ []|].
    intros Hn Ho Ho' R R' E. cbn [flat_map map] in Hn. rewrite map_app, <- app_assoc in Hn.
    assert (forall b, In b l -> real b -> In (ao_dest b) (map fst (flat_map (fun o => match ao_kind o with KHelp => [] | _ => [(ao_dest o, ao_default o)] end) l) ++ z)) as Hin.
    { intros b Hb Rb. apply in_app_iff. left. apply in_map_iff. exists (ao_dest b, ao_default b). split; [reflexivity|].
      apply in_flat_map. exists b. split; [exact Hb|]. unfold real in Rb. destruct (ao_kind b); try (left; reflexivity). contradiction. }
    assert (real a -> ~ In (ao_dest a) (map fst (flat_map (fun o => match ao_kind o with KHelp => [] | _ => [(ao_dest o, ao_default o)] end) l) ++ z)) as Hnot.
    { intros Ra. unfold real in Ra. destruct (ao_kind a); try contradiction; cbn [map fst app] in Hn; apply NoDup_cons_iff in Hn as [Hn _]; exact Hn. }
    assert (NoDup (map fst (flat_map (fun o => match ao_kind o with KHelp => [] | _ => [(ao_dest o, ao_default o)] end) l) ++ z)) as Hn'.
    { destruct (ao_kind a); cbn [map fst app] in Hn; try (apply NoDup_cons_iff in Hn as [_ Hn]); exact Hn. }
    destruct Ho as [-> |Ho]; destruct Ho' as [<- |Ho'].
    - reflexivity.
    - destruct (Hnot R). rewrite E. exact (Hin o' Ho' R').
    - destruct (Hnot R'). rewrite <- E. exact (Hin o Ho R).
    - exact (IH Hn' Ho Ho' R R' E).
  Qed.
  Lemma find_opt_own f o : In o (ap_opts P) -> In f (ao_flags o) -> find_opt P f = Some o.
  Proof.
    destruct (table_parts P C HT) as (Hn & _). unfold all_flags in Hn. unfold find_opt. revert Hn.
    induction (ap_opts P) as [|a l IH]; intros Hn Ho Hf; [destruct Ho|]. cbn [flat_map] in Hn. cbn [find].
    destruct Ho as [-> |Ho].
    - apply str_mem_In in Hf. rewrite Hf. reflexivity.
    - destruct (str_mem f (ao_flags a)) eqn:E.
      + exfalso. apply str_mem_In in E. clear IH. induction (ao_flags a) as [|x r IHr]; [destruct E|].
        cbn [app] in Hn. apply NoDup_cons_iff in Hn as [Hx Hn]. destruct E as [-> |E]; [|exact (IHr Hn E)].
        apply Hx. apply in_app_iff. right. apply in_flat_map. exists o. split; assumption.
      + apply IH; [|exact Ho|exact Hf]. clear - Hn. induction (ao_flags a) as [|x r IHr]; [exact Hn|].
        cbn [app] in Hn. apply NoDup_cons_iff in Hn as [_ Hn]. exact (IHr Hn).
  Qed.

  Lemma value_for_real st o g x : value_for st o g = Some x -> real o.
  Proof. intros H K. unfold value_for in H. rewrite K in H. destruct g; discriminate H. Qed.

  (** one step, seen from an option *)
  Lemma step_sees st g o : known P C g -> In o (ap_opts P) -> real o -> ~ In (ao_dest o) (ap_pos P) ->
    (forall p, In p (ps_left st) -> In p (ap_pos P)) ->
    (exists f x, flag_of g = Some f /\ In f (ao_flags o) /\ value_for st o g = Some x /\ sget (ao_dest o) (ps_ns (step P st g)) = Some (Some x)
                 /\ In (ao_dest o) (ps_seen (step P st g)))
    \/ ((forall f, flag_of g = Some f -> ~ In f (ao_flags o)) /\ sget (ao_dest o) (ps_ns (step P st g)) = sget (ao_dest o) (ps_ns st)
        /\ (In (ao_dest o) (ps_seen st) -> In (ao_dest o) (ps_seen (step P st g)))).
  Proof.
    intros Hk Ho R Hp Hl. destruct (step_effect st g Hk) as [(v & ->)|(f & o' & x & F1 & F2 & F3 & F4)].
    - right. split; [intros f E; discriminate E|]. cbn [step]. unfold consume_positional. destruct (ps_left st) as [|p l] eqn:El.
      + split; [reflexivity|intros X; exact X].
      + split; [|intros X; exact X]. cbn [ps_ns]. apply sget_sset_neq. intros E. apply Hp. rewrite E. apply Hl. left. reflexivity.
    - destruct (find_opt_some P f o' F2) as (Ho' & Hf & _).
      destruct (str_eqb_spec (ao_dest o') (ao_dest o)) as [E|E].
      + assert (o' = o) as -> by (apply dest_inj; [exact Ho'|exact Ho|exact (value_for_real st o' g x F3)|exact R|exact E]).
        left. exists f, x. split; [exact F1|]. split; [exact Hf|]. split; [exact F3|]. rewrite F4. unfold set_ns. cbn [ps_ns ps_seen]. split; [apply sget_sset_eq|left; reflexivity].
      + right. rewrite F4. unfold set_ns. cbn [ps_ns ps_seen]. split; [|split; [apply sget_sset_neq; congruence|intros X; right; exact X]].
        intros f' E1 E2. rewrite F1 in E1. injection E1 as <-. rewrite (find_opt_own f o Ho E2) in F2. injection F2 as ->. apply E. reflexivity.
  Qed.
  Lemma step_left st g : known P C g -> (forall p, In p (ps_left st) -> In p (ap_pos P)) -> forall p, In p (ps_left (step P st g)) -> In p (ap_pos P).
  Proof.
    intros Hk H p Hp. destruct (step_effect st g Hk) as [(v & ->)|(f & o' & x & F1 & F2 & F3 & F4)].
    - cbn [step] in Hp. unfold consume_positional in Hp. destruct (ps_left st) as [|q l] eqn:El; cbn [ps_left add_extra] in Hp.
      + rewrite El in Hp. destruct Hp.
      + apply H. right. exact Hp.
    - rewrite F4 in Hp. exact (H p Hp).
  Qed.
  Lemma run_left gs : Forall (known P C) gs -> forall p, In p (ps_left (fold_left (step P) gs (start_state P))) -> In p (ap_pos P).
  Proof.
    intros H. induction gs as [|g gs IH] using rev_ind; [intros p Hp; exact Hp|].
    apply Forall_app in H as [H1 H2]. apply Forall_cons_iff in H2 as [H2 _]. rewrite fold_left_app. cbn [fold_left]. apply step_left; [exact H2|exact (IH H1)].
  Qed.

  Lemma value_of_app names gs g : value_of names (gs ++ [g]) = match value_of names [g] with Some v => Some v | None => value_of names gs end.
  Proof.
    remember (value_of names [g]) as r eqn:E. induction gs as [|a gs IH]; [cbn [app]; rewrite <- E; destruct r; reflexivity|].
    cbn [app value_of]. rewrite IH. destruct r; reflexivity.
  Qed.
  Lemma values_of_app name gs g : values_of name (gs ++ [g]) = match values_of name [g] with Some v => Some v | None => values_of name gs end.
  Proof.
    remember (values_of name [g]) as r eqn:E. induction gs as [|a gs IH]; [cbn [app]; rewrite <- E; destruct r; reflexivity|].
    cbn [app values_of]. rewrite IH. destruct r; reflexivity.
  Qed.

  Section Option.
    Variable o : aopt.
    Hypotheses (Ho : In o (ap_opts P)) (R : real o) (Hp : ~ In (ao_dest o) (ap_pos P)).

    Lemma start_default : sget (ao_dest o) (ps_ns (start_state P)) = Some (ao_default o).
    Proof.
      cbn [start_state ps_ns]. destruct (table_parts P C HT) as (_ & _ & _ & _ & _ & Hn). apply In_sget; [exact Hn|].
      unfold defaults. apply in_app_iff. left. apply in_flat_map. exists o. split; [exact Ho|]. unfold real in R. destruct (ao_kind o); try (left; reflexivity). contradiction.
    Qed.
    Let run (gs : list item) : pstate := fold_left (step P) gs (start_state P).

    Lemma run_value gs : ao_kind o = KOne -> Forall (known P C) gs ->
      sget (ao_dest o) (ps_ns (run gs)) = Some (match value_of (ao_flags o) gs with Some v => get_value o v | None => ao_default o end)
      /\ (value_of (ao_flags o) gs <> None -> In (ao_dest o) (ps_seen (run gs))).
    Proof.
      intros K. unfold run. induction gs as [|g gs IH] using rev_ind; intros H.
      - split; [exact start_default|intros X; destruct X; reflexivity].
      - apply Forall_app in H as [H1 H2]. apply Forall_cons_iff in H2 as [H2 _]. rewrite fold_left_app, value_of_app. cbn [fold_left].
        destruct (IH H1) as [IH1 IH2]. destruct (step_sees (fold_left (step P) gs (start_state P)) g o H2 Ho R Hp (run_left gs H1)) as [(f & x & F1 & F2 & F3 & F4 & F5)|(F1 & F2 & F3)].
        + unfold value_for in F3. rewrite K in F3. destruct g as [f'|f' v|f' vs|v]; try discriminate F3. cbn in F1. injection F1 as ->.
          cbn [value_of]. apply str_mem_In in F2. rewrite F2. split; [rewrite F4, F3; reflexivity|intros _; exact F5].
        + assert (value_of (ao_flags o) [g] = None) as ->.
          { cbn [value_of]. destruct g as [f'|f' v|f' vs|v]; try reflexivity. destruct (str_mem f' (ao_flags o)) eqn:E; [|reflexivity].
            destruct (F1 f' eq_refl). apply str_mem_In. exact E. }
          rewrite F2. split; [exact IH1|]. intros X. exact (F3 (IH2 X)).
    Qed.
    Lemma run_switch f gs : ao_kind o = KFlag -> ao_flags o = [f] -> ao_default o = Some (ABool false) -> Forall (known P C) gs ->
      sget (ao_dest o) (ps_ns (run gs)) = Some (Some (ABool (switched f gs))).
    Proof.
      intros K Ef Ed. unfold run. induction gs as [|g gs IH] using rev_ind; intros H.
      - change (switched f []) with false. rewrite <- Ed. exact start_default.
      - apply Forall_app in H as [H1 H2]. apply Forall_cons_iff in H2 as [H2 _]. rewrite fold_left_app. unfold switched. rewrite existsb_app. fold (switched f gs).
        cbn [fold_left existsb]. rewrite orb_false_r.
        destruct (step_sees (fold_left (step P) gs (start_state P)) g o H2 Ho R Hp (run_left gs H1)) as [(f0 & x & F1 & F2 & F3 & F4 & _)|(F1 & F2 & _)].
        + unfold value_for in F3. rewrite K in F3. destruct g as [f'|f' v|f' vs|v]; try discriminate F3. cbn in F1. injection F1 as ->.
          rewrite Ef in F2. destruct F2 as [-> |[]]. rewrite str_eqb_refl, orb_true_r, F4. injection F3 as <-. reflexivity.
        + rewrite F2, (IH H1). do 3 f_equal. destruct g as [f'|f' v|f' vs|v]; rewrite ?orb_false_r; try reflexivity.
          destruct (str_eqb_spec f' f) as [-> |N0]; [|rewrite orb_false_r; reflexivity]. destruct (F1 f eq_refl). rewrite Ef. left. reflexivity.
    Qed.
    Definition roll_val (r : rollitem) : aval := match r with RTrue => ABool true | RPath p => AStr p end.
    Lemma run_roll f gs : ao_kind o = KMaybe -> ao_flags o = [f] -> ao_default o = None -> Forall (known P C) gs ->
      sget (ao_dest o) (ps_ns (run gs)) = Some (match rolled f gs with [] => None | l => Some (AList (map roll_val l)) end).
    Proof.
      intros K Ef Ed. unfold run. induction gs as [|g gs IH] using rev_ind; intros H.
      - change (rolled f []) with (@nil rollitem). cbv iota. rewrite <- Ed. exact start_default.
      - apply Forall_app in H as [H1 H2]. apply Forall_cons_iff in H2 as [H2 _]. rewrite fold_left_app. unfold rolled. rewrite flat_map_app. fold (rolled f gs).
        cbn [fold_left flat_map]. rewrite app_nil_r. specialize (IH H1).
        assert (items_of (sget (ao_dest o) (ps_ns (fold_left (step P) gs (start_state P)))) = map roll_val (rolled f gs)) as Ei.
        { rewrite IH. destruct (rolled f gs); reflexivity. }
        destruct (step_sees (fold_left (step P) gs (start_state P)) g o H2 Ho R Hp (run_left gs H1)) as [(f0 & x & F1 & F2 & F3 & F4 & _)|(F1 & F2 & _)].
        + unfold value_for in F3. rewrite K, Ei in F3. rewrite F4. destruct g as [f'|f' v|f' vs|v]; try discriminate F3; cbn in F1; injection F1 as ->;
            rewrite Ef in F2; destruct F2 as [-> |[]]; rewrite str_eqb_refl; injection F3 as <-; (destruct (rolled _ gs) as [|r l]; [reflexivity|cbn [map app]; rewrite map_app; reflexivity]).
        + rewrite F2, IH. destruct g as [f'|f' v|f' vs|v]; rewrite ?app_nil_r; try reflexivity;
            (destruct (str_eqb_spec f' f) as [-> |N0]; [|rewrite app_nil_r; reflexivity]); destruct (F1 f eq_refl); rewrite Ef; left; reflexivity.
    Qed.
    Lemma run_many f gs : ao_kind o = KMany -> ao_flags o = [f] -> ao_default o = None -> Forall (known P C) gs ->
      sget (ao_dest o) (ps_ns (run gs)) = Some (option_map (fun l => AList (map AStr l)) (values_of f gs)).
    Proof.
      intros K Ef Ed. unfold run. induction gs as [|g gs IH] using rev_ind; intros H.
      - change (option_map (fun l => AList (map AStr l)) (values_of f [])) with (@None aval). rewrite <- Ed. exact start_default.
      - apply Forall_app in H as [H1 H2]. apply Forall_cons_iff in H2 as [H2 _]. rewrite fold_left_app, values_of_app.
        cbn [fold_left]. specialize (IH H1).
        destruct (step_sees (fold_left (step P) gs (start_state P)) g o H2 Ho R Hp (run_left gs H1)) as [(f0 & x & F1 & F2 & F3 & F4 & _)|(F1 & F2 & _)].
        + unfold value_for in F3. rewrite K in F3. rewrite F4. destruct g as [f'|f' v|f' vs|v]; try discriminate F3; cbn in F1; injection F1 as ->;
            rewrite Ef in F2; destruct F2 as [-> |[]]. cbn [values_of]. rewrite str_eqb_refl. injection F3 as <-. reflexivity.
        + rewrite F2, IH. assert (values_of f [g] = None) as ->; [|reflexivity].
          cbn [values_of]. destruct g as [f'|f' v|f' vs|v]; try reflexivity. destruct (str_eqb_spec f' f) as [-> |N0]; [|reflexivity]. destruct (F1 f eq_refl). rewrite Ef. left. reflexivity.
    Qed.
  End Option.

  (** the input *)
  Lemma keep_flags st g : known P C g -> (exists v, g = Input v) \/ (ps_left (step P st g) = ps_left st /\ ps_extra (step P st g) = ps_extra st /\ inputs [g] = []
     /\ forall p, (forall o, In o (ap_opts P) -> real o -> ao_dest o <> p) -> sget p (ps_ns (step P st g)) = sget p (ps_ns st)).
  Proof.
    intros Hk. destruct (step_effect st g Hk) as [H|(f & o' & x & F1 & F2 & F3 & F4)]; [left; exact H|right].
    rewrite F4. split; [reflexivity|]. split; [reflexivity|]. split; [destruct g; try reflexivity; discriminate F1|].
    intros p H. unfold set_ns. cbn [ps_ns]. apply sget_sset_neq. intros E. apply (H o'); [exact (proj1 (find_opt_some P f o' F2))|exact (value_for_real _ _ _ _ F3)|congruence].
  Qed.
  Lemma run_none gs : ap_pos P = [] -> Forall (known P C) gs -> inputs gs = [] ->
    ps_left (fold_left (step P) gs (start_state P)) = [] /\ ps_extra (fold_left (step P) gs (start_state P)) = false.
  Proof.
    intros E H. induction gs as [|g gs IH] using rev_ind; intros Hn; [split; [exact E|reflexivity]|].
    apply Forall_app in H as [H1 H2]. apply Forall_cons_iff in H2 as [H2 _]. unfold inputs in Hn. rewrite flat_map_app in Hn. apply app_eq_nil in Hn as [Hn1 Hn2].
    destruct (IH H1 Hn1) as [IH1 IH2]. rewrite fold_left_app. cbn [fold_left].
    destruct (keep_flags (fold_left (step P) gs (start_state P)) g H2) as [(v & ->)|(F1 & F2 & _)]; [discriminate Hn2|]. rewrite F1, F2. split; assumption.
  Qed.
  Lemma run_input p gs : ap_pos P = [p] -> Forall (known P C) gs -> (List.length (inputs gs) <= 1)%nat ->
    ps_extra (fold_left (step P) gs (start_state P)) = false
    /\ ps_left (fold_left (step P) gs (start_state P)) = (match inputs gs with [] => [p] | _ => [] end)
    /\ sget p (ps_ns (fold_left (step P) gs (start_state P))) = Some (match inputs gs with v :: _ => Some (AStr v) | [] => None end).
  Proof.
    intros E H.
    assert (forall o, In o (ap_opts P) -> real o -> ao_dest o <> p) as Hd.
    { intros o Ho R Eq. destruct (table_parts P C HT) as (_ & _ & _ & _ & _ & Hn). unfold defaults in Hn. rewrite E, map_app in Hn. cbn [map fst] in Hn.
      apply NoDup_remove_2 in Hn. apply Hn. rewrite app_nil_r. apply in_map_iff. exists (ao_dest o, ao_default o). split; [exact Eq|].
      apply in_flat_map. exists o. split; [exact Ho|]. unfold real in R. destruct (ao_kind o); try (left; reflexivity). contradiction. }
    induction gs as [|g gs IH] using rev_ind; intros Hn.
    - split; [reflexivity|]. split; [exact E|]. cbn [fold_left start_state ps_ns]. destruct (table_parts P C HT) as (_ & _ & _ & _ & _ & Hnd).
      apply In_sget; [exact Hnd|]. unfold defaults. rewrite E. apply in_app_iff. right. left. reflexivity.
    - apply Forall_app in H as [H1 H2]. apply Forall_cons_iff in H2 as [H2 _]. unfold inputs in Hn |- *. rewrite flat_map_app in Hn |- *. fold (inputs gs) in Hn |- *. fold (inputs [g]) in Hn |- *.
      rewrite app_length in Hn. destruct (IH H1 ltac:(lia)) as (IH1 & IH2 & IH3). rewrite fold_left_app. cbn [fold_left].
      destruct (keep_flags (fold_left (step P) gs (start_state P)) g H2) as [(v & ->)|(F1 & F2 & F3 & F4)].
      + cbn [inputs flat_map app List.length] in Hn. assert (inputs gs = []) as E0 by (destruct (inputs gs); [reflexivity|cbn in Hn; lia]).
        rewrite E0 in IH2, IH3 |- *. cbn [app inputs flat_map step]. unfold consume_positional. rewrite IH2. cbn [ps_extra ps_left ps_ns].
        split; [exact IH1|]. split; [reflexivity|apply sget_sset_eq].
      + rewrite F3, app_nil_r, F1, F2, (F4 p Hd). split; [exact IH1|]. split; assumption.
  Qed.
  Lemma run_keys gs : Forall (known P C) gs -> NoDup (map fst (ps_ns (fold_left (step P) gs (start_state P)))).
  Proof.
    intros H. induction gs as [|g gs IH] using rev_ind.
    - exact (proj2 (proj2 (proj2 (proj2 (proj2 (table_parts P C HT)))))).
    - apply Forall_app in H as [H1 H2]. apply Forall_cons_iff in H2 as [H2 _]. rewrite fold_left_app. cbn [fold_left].
      destruct (step_effect (fold_left (step P) gs (start_state P)) g H2) as [(v & ->)|(f & o' & x & F1 & F2 & F3 & F4)].
      + cbn [step]. unfold consume_positional. destruct (ps_left _); cbn [ps_ns add_extra]; [exact (IH H1)|apply sset_NoDup; exact (IH H1)].
      + rewrite F4. cbn [set_ns ps_ns]. apply sset_NoDup. exact (IH H1).
  Qed.
End Table.

(** keyword arguments *)
Lemma kwargs_get ns k : NoDup (map fst ns) -> sget k (kwargs_from_parsed_args ns) = match sget k ns with Some v => v | None => None end.
Proof.
  unfold kwargs_from_parsed_args. induction ns as [|[k' v] ns IH]; intros H; [reflexivity|]. cbn [map fst] in H. apply NoDup_cons_iff in H as [H1 H2].
  cbn [flat_map snd fst]. destruct (str_eqb_spec k k') as [-> |N0].
  - assert (sget k' ((k', v) :: ns) = Some v) as -> by (unfold sget, aget; cbn; rewrite str_eqb_refl; reflexivity).
    destruct v as [x|]; cbn [app].
    + unfold sget, aget. cbn. rewrite str_eqb_refl. reflexivity.
    + rewrite (IH H2). assert (sget k' ns = None) as ->; [apply sget_None; exact H1|reflexivity].
  - assert (forall x (r : list (str * aval)), sget k ((k', x) :: r) = sget k r) as E1.
    { intros x r. unfold sget, aget. cbn. apply str_eqb_neq in N0. rewrite N0. reflexivity. }
    assert (sget k ((k', v) :: ns) = sget k ns) as ->.
    { unfold sget, aget. cbn. apply str_eqb_neq in N0. rewrite N0. reflexivity. }
    destruct v; cbn [app]; rewrite ?E1; exact (IH H2).
Qed.
