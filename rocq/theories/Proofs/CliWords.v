(** How single words of a command line are classified. *)
From Verif.Base Require Import PyStr PyNum PyVal PyDict Outcome.
From Verif.Model Require Import Commands Cli.
From Verif.Spec Require Import CommandLine.
From Coq Require Import Lia.
Local Open Scope N_scope.

Lemma sw_nil (s : str) : startswith s [] = true.
Proof. destruct s; reflexivity. Qed.

(** ** Tables of options, checked by computation *)
Definition flag_okb (f : str) : bool :=
  startswith f (u "-") && negb (existsb (N.eqb equals) f)
  && (if startswith f (u "--") then Nat.leb 3 (List.length f) else Nat.eqb (List.length f) 2).
Fixpoint nodupb (l : list str) : bool := match l with [] => true | x :: l' => negb (str_mem x l') && nodupb l' end.
Definition table_okb (P : aparser) (C : command) : bool :=
  nodupb (all_flags P) && forallb flag_okb (all_flags P)
  && forallb (fun f => str_mem f (all_flags P)) (cm_names C) && forallb (fun f => str_mem f (cm_names C)) (all_flags P)
  && str_mem (u "--help") (all_flags P) && str_mem (u "--convert-wkt") (all_flags P)
  && nodupb (map fst (defaults P))
  && forallb (fun f => match find_opt P f with Some o => match ao_kind o with KFlag => true | _ => false end | None => false end) (cm_switches C)
  && forallb (fun f => match find_opt P f with Some o => match ao_kind o with KOne => true | _ => false end | None => false end) (cm_valued C)
  && forallb (fun f => match find_opt P f with Some o => match ao_kind o with KMaybe => negb (ao_int o) && (match ao_choices o with None => true | _ => false end) | _ => false end | None => false end) (cm_maybe C)
  && forallb (fun f => match find_opt P f with Some o => match ao_kind o with KMany => negb (ao_int o) && (match ao_choices o with None => true | _ => false end) | _ => false end | None => false end) (cm_lists C).

Lemma nodupb_ok l : nodupb l = true -> NoDup l.
Proof.
  induction l as [|x l IH]; intros H; [constructor|]. cbn [nodupb] in H. apply andb_true_iff in H as [H1 H2].
  constructor; [|exact (IH H2)]. apply str_mem_false. destruct (str_mem x l); [discriminate|reflexivity].
Qed.

Lemma filter_single {A} (p : A -> bool) (l : list A) f :
  NoDup l -> In f l -> p f = true -> (forall x, In x l -> p x = true -> x = f) -> filter p l = [f].
Proof.
  induction l as [|x l IH]; intros Hn Hi Hp Hu; [destruct Hi|].
  apply NoDup_cons_iff in Hn as [Hx Hn]. cbn [filter]. destruct (p x) eqn:Ex.
  - assert (x = f) as -> by (apply Hu; [left; reflexivity|exact Ex]). f_equal.
    destruct (filter p l) as [|y r] eqn:Ef; [reflexivity|].
    assert (In y (filter p l)) as Hy by (rewrite Ef; left; reflexivity). apply filter_In in Hy as [Hy1 Hy2].
    assert (y = f) as -> by (apply Hu; [right; exact Hy1|exact Hy2]). contradiction.
  - destruct Hi as [-> |Hi]; [rewrite Hp in Ex; discriminate|]. apply IH; auto. intros y Hy. apply Hu. right. exact Hy.
Qed.

Lemma partition_none (s : str) : existsb (N.eqb equals) s = false -> partition_at equals s = (s, None).
Proof.
  induction s as [|x s IH]; intros H; [reflexivity|]. cbn [existsb] in H. apply orb_false_iff in H as [H1 H2].
  cbn [partition_at]. rewrite N.eqb_sym, H1, (IH H2). reflexivity.
Qed.
Lemma partition_some (s v : str) : existsb (N.eqb equals) s = false -> partition_at equals (s ++ equals :: v) = (s, Some v).
Proof.
  induction s as [|x s IH]; intros H; [reflexivity|]. cbn [existsb] in H. apply orb_false_iff in H as [H1 H2].
  cbn [app partition_at]. rewrite N.eqb_sym, H1, (IH H2). reflexivity.
Qed.

Section Table.
  Variables (P : aparser) (C : command).
  Hypothesis HT : table_okb P C = true.

  Lemma table_parts :
    NoDup (all_flags P) /\ (forall f, In f (all_flags P) -> flag_okb f = true)
    /\ (forall f, In f (cm_names C) <-> In f (all_flags P))
    /\ In (u "--help") (all_flags P) /\ In (u "--convert-wkt") (all_flags P)
    /\ NoDup (map fst (defaults P)).
  Proof.
    pose proof HT as H. unfold table_okb in H.
    do 10 (apply andb_true_iff in H as [H ?]).
    repeat split.
    - apply nodupb_ok. exact H.
    - intros f Hf. pose proof (proj1 (forallb_forall _ _) H9 f Hf) as E. exact E.
    - intros Hf. apply str_mem_In. exact (proj1 (forallb_forall _ _) H8 f Hf).
    - intros Hf. apply str_mem_In. exact (proj1 (forallb_forall _ _) H7 f Hf).
    - apply str_mem_In. exact H6.
    - apply str_mem_In. exact H5.
    - apply nodupb_ok. exact H4.
  Qed.
  Lemma switch_kind f : In f (cm_switches C) -> exists o, find_opt P f = Some o /\ ao_kind o = KFlag.
  Proof.
    intros Hf. pose proof HT as H. unfold table_okb in H. do 10 (apply andb_true_iff in H as [H ?]).
    pose proof (proj1 (forallb_forall _ _) H3 f Hf) as E. cbv beta in E.
    destruct (find_opt P f) as [o|]; [|discriminate E]. exists o. split; [reflexivity|]. destruct (ao_kind o); solve [reflexivity|discriminate E].
  Qed.
  Lemma valued_kind f : In f (cm_valued C) -> exists o, find_opt P f = Some o /\ ao_kind o = KOne.
  Proof.
    intros Hf. pose proof HT as H. unfold table_okb in H. do 10 (apply andb_true_iff in H as [H ?]).
    pose proof (proj1 (forallb_forall _ _) H2 f Hf) as E. cbv beta in E.
    destruct (find_opt P f) as [o|]; [|discriminate E]. exists o. split; [reflexivity|]. destruct (ao_kind o); solve [reflexivity|discriminate E].
  Qed.
  Lemma maybe_kind f : In f (cm_maybe C) -> exists o, find_opt P f = Some o /\ ao_kind o = KMaybe /\ ao_int o = false /\ ao_choices o = None.
  Proof.
    intros Hf. pose proof HT as H. unfold table_okb in H. do 10 (apply andb_true_iff in H as [H ?]).
    pose proof (proj1 (forallb_forall _ _) H1 f Hf) as E. cbv beta in E.
    destruct (find_opt P f) as [o|]; [|discriminate E]. exists o. split; [reflexivity|].
    destruct (ao_kind o); try discriminate E. destruct (ao_int o); [discriminate E|]. destruct (ao_choices o); [discriminate E|]. repeat split.
  Qed.
  Lemma list_kind f : In f (cm_lists C) -> exists o, find_opt P f = Some o /\ ao_kind o = KMany /\ ao_int o = false /\ ao_choices o = None.
  Proof.
    intros Hf. pose proof HT as H. unfold table_okb in H. do 10 (apply andb_true_iff in H as [H ?]).
    pose proof (proj1 (forallb_forall _ _) H0 f Hf) as E. cbv beta in E.
    destruct (find_opt P f) as [o|]; [|discriminate E]. exists o. split; [reflexivity|].
    destruct (ao_kind o); try discriminate E. destruct (ao_int o); [discriminate E|]. destruct (ao_choices o); [discriminate E|]. repeat split.
  Qed.

  Lemma find_opt_some f o : find_opt P f = Some o -> In o (ap_opts P) /\ In f (ao_flags o) /\ In f (all_flags P).
  Proof.
    unfold find_opt. intros H. apply find_some in H as [H1 H2]. apply str_mem_In in H2. repeat split; [exact H1|exact H2|].
    unfold all_flags. apply in_flat_map. exists o. split; assumption.
  Qed.
  Lemma find_opt_none f : ~ In f (all_flags P) -> find_opt P f = None.
  Proof. intros H. destruct (find_opt P f) as [o|] eqn:E; [|reflexivity]. apply find_opt_some in E as (_ & _ & E). contradiction. Qed.
  Lemma find_opt_there f : In f (all_flags P) -> exists o, find_opt P f = Some o.
  Proof.
    intros H. unfold all_flags in H. apply in_flat_map in H as (o & Ho & Hf). unfold find_opt.
    destruct (find _ (ap_opts P)) as [o'|] eqn:E; [exists o'; reflexivity|].
    pose proof (find_none _ _ E o Ho) as N0. cbv beta in N0. apply str_mem_In in Hf. rewrite Hf in N0. discriminate.
  Qed.

  (** flags have no "=", at least two characters *)
  Lemma flag_shape f : In f (all_flags P) ->
    existsb (N.eqb equals) f = false
    /\ ((exists c, f = [dash; c] /\ c <> dash) \/ (exists c t, f = dash :: dash :: c :: t)).
  Proof.
    intros Hf. destruct table_parts as (_ & Hok & _). pose proof (Hok f Hf) as H. unfold flag_okb in H.
    apply andb_true_iff in H as [H H3]. apply andb_true_iff in H as [H1 H2].
    split; [destruct (existsb _ f); [discriminate|reflexivity]|].
    destruct f as [|a f]; [discriminate H1|]. change (u "-") with [dash] in H1. cbn [startswith] in H1. rewrite sw_nil, andb_true_r in H1. apply N.eqb_eq in H1 as ->.
    destruct f as [|b f]; [discriminate H3|]. change (u "--") with [dash; dash] in H3. cbn [startswith] in H3. rewrite ?sw_nil in H3.
    rewrite N.eqb_refl in H3. cbn [andb] in H3. destruct (b =? dash) eqn:Eb; cbn [andb] in H3.
    - apply N.eqb_eq in Eb as ->. destruct f as [|c t].
      + cbn in H3. discriminate H3.
      + right. exists c, t. reflexivity.
    - apply Nat.eqb_eq in H3. destruct f; [|discriminate H3]. left. exists b. split; [reflexivity|]. apply N.eqb_neq. exact Eb.
  Qed.

  Lemma classify_exact f o : find_opt P f = Some o -> classify P f = COpt f o false None.
  Proof.
    intros H. destruct (find_opt_some f o H) as (_ & _ & Hf). destruct (flag_shape f Hf) as [_ S0].
    assert (exists t, f = dash :: t) as (t & ->) by (destruct S0 as [(c & -> & _)|(c & t & ->)]; eexists; reflexivity).
    unfold classify. rewrite N.eqb_refl. cbn [negb]. rewrite H. reflexivity.
  Qed.

  (** what an abbreviation looks like *)
  Lemma abbreviation n f :
    In f (all_flags P) -> ~ In n (all_flags P) -> startswith n (u "--") = true -> startswith f n = true ->
    (forall f', In f' (all_flags P) -> startswith f' n = true -> f' = f) ->
    existsb (N.eqb equals) n = false /\ exists c t, n = dash :: dash :: c :: t.
  Proof.
    intros Hf Hn Hd Hs Hu. apply startswith_spec in Hs as [t0 E0].
    destruct (flag_shape f Hf) as [He _]. split.
    - rewrite E0, existsb_app in He. apply orb_false_iff in He as [He _]. exact He.
    - apply startswith_spec in Hd as [t ->]. change (u "--" ++ t) with (dash :: dash :: t) in *. destruct t as [|c t]; [|exists c, t; reflexivity].
      exfalso. destruct table_parts as (_ & _ & _ & Hh & Hw & _).
      assert (u "--help" = f) as E1 by (apply Hu; [exact Hh|reflexivity]).
      assert (u "--convert-wkt" = f) as E2 by (apply Hu; [exact Hw|reflexivity]). rewrite <- E2 in E1. discriminate E1.
  Qed.

  Lemma classify_abbrev n f o :
    find_opt P f = Some o -> ~ In n (all_flags P) -> startswith n (u "--") = true -> startswith f n = true ->
    (forall f', In f' (all_flags P) -> startswith f' n = true -> f' = f) ->
    classify P n = COpt f o false None.
  Proof.
    intros H Hn Hd Hs Hu. destruct (find_opt_some f o H) as (_ & _ & Hf).
    destruct (abbreviation n f Hf Hn Hd Hs Hu) as [He (c & t & En)].
    unfold classify. rewrite En at 1. rewrite N.eqb_refl. cbn [negb].
    rewrite (find_opt_none n Hn), (partition_none n He).
    unfold option_tuples. rewrite Hd, (partition_none n He).
    destruct table_parts as (Hnd & _). rewrite (filter_single _ _ f Hnd Hf Hs Hu). cbn [map]. rewrite H. reflexivity.
  Qed.

  Lemma means_class n f :
    means C n f -> exists o, find_opt P f = Some o /\ classify P n = COpt f o false None
      /\ existsb (N.eqb equals) n = false
      /\ ((exists c, n = [dash; c] /\ c <> dash) \/ (exists c t, n = dash :: dash :: c :: t)).
  Proof.
    destruct table_parts as (_ & _ & Hn & _).
    intros [Hf [-> |(N1 & N2 & N3 & N4)]].
    - apply Hn in Hf. destruct (find_opt_there f Hf) as [o Ho]. exists o. destruct (flag_shape f Hf) as [H1 H2].
      split; [exact Ho|]. split; [exact (classify_exact f o Ho)|]. split; assumption.
    - apply Hn in Hf. destruct (find_opt_there f Hf) as [o Ho]. exists o.
      assert (~ In n (all_flags P)) as N1' by (intros X; apply N1, Hn, X).
      assert (forall f', In f' (all_flags P) -> startswith f' n = true -> f' = f) as N4' by (intros f' X; apply N4, Hn, X).
      split; [exact Ho|]. split; [exact (classify_abbrev n f o Ho N1' N2 N3 N4')|].
      destruct (abbreviation n f Hf N1' N2 N3 N4') as [A1 A2]. split; [exact A1|right; exact A2].
  Qed.

  Lemma classify_joined n f v :
    means C n f -> exists o, find_opt P f = Some o /\ classify P (n ++ u "=" ++ v) = COpt f o true (Some v).
  Proof.
    intros Hm. destruct (means_class n f Hm) as (o & Ho & _ & He & Hs). exists o. split; [exact Ho|].
    change (u "=" ++ v) with (equals :: v).
    destruct table_parts as (Hnd & _ & Hn & _).
    assert (exists c t, n = dash :: c :: t) as (c & t & En).
    { destruct Hs as [(c & -> & _)|(c & t & ->)]; eexists; eexists; reflexivity. }
    assert (find_opt P (n ++ equals :: v) = None) as Hno.
    { apply find_opt_none. intros X. destruct (flag_shape _ X) as [Y _]. rewrite existsb_app in Y. apply orb_false_iff in Y as [_ Y].
      cbn [existsb] in Y. rewrite N.eqb_refl in Y. discriminate Y. }
    unfold classify. rewrite En at 1. cbn [app]. rewrite N.eqb_refl. cbn [negb].
    rewrite Hno, (partition_some n v He).
    destruct Hm as [Hf [-> |(N1 & N2 & N3 & N4)]].
    - rewrite Ho. reflexivity.
    - rewrite (find_opt_none n) by (intros X; apply N1, Hn, X).
      unfold option_tuples.
      assert (startswith (n ++ equals :: v) (u "--") = true) as Hd.
      { apply startswith_spec in N2 as [t' ->]. rewrite <- app_assoc. apply startswith_app. }
      rewrite Hd, (partition_some n v He).
      rewrite (filter_single _ _ f Hnd (proj1 (Hn f) Hf) N3) by (intros x X; apply N4, Hn, X). cbn [map]. rewrite Ho. reflexivity.
  Qed.

  Lemma flat_single {A B} (g : A -> list B) (l : list A) f b :
    NoDup l -> In f l -> g f = [b] -> (forall x, In x l -> x <> f -> g x = []) -> flat_map g l = [b].
  Proof.
    induction l as [|x l IH]; intros Hn Hi Hg Hu; [destruct Hi|].
    apply NoDup_cons_iff in Hn as [Hx Hn]. cbn [flat_map]. destruct Hi as [-> |Hi].
    - rewrite Hg. assert (flat_map g l = []) as ->; [|reflexivity].
      assert (forall y, In y l -> g y = []) as Hz by (intros y Hy; apply Hu; [right; exact Hy|intros ->; contradiction]).
      clear - Hz. induction l as [|y l IH]; [reflexivity|]. cbn [flat_map]. rewrite (Hz y (or_introl eq_refl)).
      apply IH. intros z Hz'. apply Hz. right. exact Hz'.
    - rewrite (Hu x) by (first [left; reflexivity|intros ->; contradiction]). apply IH; auto. intros y Hy. apply Hu. right. exact Hy.
  Qed.

  Lemma classify_stuck n v :
    In n (all_flags P) -> startswith n (u "--") = false -> v <> [] -> startswith v (u "=") = false ->
    exists o, find_opt P n = Some o /\ classify P (n ++ v) = COpt n o false (Some v).
  Proof.
    intros Hf Hd Hv Hq. destruct (find_opt_there n Hf) as [o Ho]. exists o. split; [exact Ho|].
    destruct (flag_shape n Hf) as [He [(c & -> & Hc)|(c & t & ->)]]; [|discriminate Hd].
    destruct v as [|x v]; [contradiction|]. change (u "=") with [equals] in Hq. cbn [startswith] in Hq. rewrite sw_nil, andb_true_r in Hq.
    change ([dash; c] ++ x :: v) with (dash :: c :: x :: v).
    assert (forall t, ~ In (dash :: c :: x :: t) (all_flags P)) as Hlong.
    { intros t X. destruct (flag_shape _ X) as [_ [(c' & E & _)|(c' & t' & E)]]; [discriminate E|]. inversion E. contradiction. }
    cbn [existsb] in He. apply orb_false_iff in He as [_ He]. apply orb_false_iff in He as [He _].
    unfold classify. rewrite N.eqb_refl. cbn [negb]. rewrite (find_opt_none _ (Hlong v)).
    assert (exists a b, partition_at equals (dash :: c :: x :: v) = (dash :: c :: x :: a, b)) as (a & b & Ep).
    { cbn [partition_at]. change (dash =? equals) with false. cbv iota. rewrite N.eqb_sym, He. rewrite Hq.
      destruct (partition_at equals v) as [a b]. exists a, b. reflexivity. }
    rewrite Ep, (find_opt_none _ (Hlong a)).
    assert (option_tuples P (dash :: c :: x :: v) = [([dash; c], false, Some (x :: v))]) as ->.
    { unfold option_tuples. assert (startswith (dash :: c :: x :: v) (u "--") = false) as ->.
      { change (u "--") with [dash; dash]. cbn [startswith]. rewrite ?sw_nil. rewrite N.eqb_refl. cbn [andb]. apply N.eqb_neq in Hc. rewrite Hc. reflexivity. }
      destruct table_parts as (Hnd & _). apply (flat_single _ _ [dash; c]); [exact Hnd|exact Hf| |].
      - cbn [firstn skipn]. rewrite str_eqb_refl. reflexivity.
      - intros f Hf' Hne. cbn [firstn]. apply str_eqb_neq in Hne. rewrite Hne.
        destruct (startswith f (dash :: c :: x :: v)) eqn:Es; [|reflexivity].
        exfalso. apply startswith_spec in Es as [t ->]. exact (Hlong _ Hf'). }
    destruct b; rewrite Ho; reflexivity.
  Qed.
End Table.

Lemma classify_value P C v : table_okb P C = true -> value_word v -> classify P v = CArg.
Proof.
  intros HT [H| ->].
  - destruct v as [|c v]; [reflexivity|]. change (u "-") with [dash] in H. cbn [startswith] in H. rewrite sw_nil, andb_true_r in H.
    unfold classify. rewrite H. reflexivity.
  - change (u "-") with [dash]. unfold classify. rewrite N.eqb_refl. cbn [negb].
    rewrite (find_opt_none P). 2:{ intros X. destruct (flag_shape P C HT _ X) as [_ [(c & E & _)|(c & t & E)]]; discriminate E. }
    reflexivity.
Qed.

(** ** The main parser *)
Lemma main_value v : value_word v -> classify main_parser v = CArg.
Proof.
  intros [H| ->].
  - destruct v as [|c v]; [reflexivity|]. change (u "-") with [dash] in H. cbn [startswith] in H. rewrite sw_nil, andb_true_r in H.
    unfold classify. rewrite H. reflexivity.
  - reflexivity.
Qed.
Definition unclear (c : acls) : bool := match c with CAmbiguous => true | _ => false end.

Lemma main_flags : all_flags main_parser = [u "-h"; u "--help"; u "-v"; u "--verbose"].
Proof. reflexivity. Qed.
(** no word with a letter after its dashes is ambiguous for the main parser *)
Lemma main_clear w :
  ((exists c t, w = dash :: c :: t /\ c <> dash) \/ (exists c t, w = dash :: dash :: c :: t /\ c <> equals)) ->
  unclear (classify main_parser w) = false.
Proof.
  intros Hw. assert (exists c t, w = dash :: c :: t) as (c & t & Ew).
  { destruct Hw as [(c & t & -> & _)|(c & t & -> & _)]; eexists; eexists; reflexivity. }
  unfold classify. rewrite Ew at 1. rewrite N.eqb_refl. cbn [negb].
  destruct (find_opt main_parser w); [reflexivity|].
  destruct (partition_at equals w) as [a b] eqn:Ep.
  assert (forall l : list (str * bool * option str), (List.length l <= 1)%nat ->
          unclear match l with
                  | [] => if negative_number w then CArg else if existsb (N.eqb 32) w then CArg else CUnknown
                  | [(f, sep, e)] => match find_opt main_parser f with Some o => COpt f o sep e | None => CUnknown end
                  | _ :: _ :: _ => CAmbiguous
                  end = false) as K.
  { intros [|[[f sep] e] [|y l]] Hl.
    - destruct (negative_number w); [reflexivity|]. destruct (existsb _ w); reflexivity.
    - destruct (find_opt main_parser f); reflexivity.
    - cbn in Hl. lia. }
  assert (List.length (option_tuples main_parser w) <= 1)%nat as Hl.
  { unfold option_tuples. rewrite main_flags. destruct Hw as [(c' & t' & -> & Hc)|(c' & t' & -> & Hc)].
    - change (u "--") with [dash; dash]. cbn [startswith]. rewrite ?sw_nil. rewrite N.eqb_refl. cbn [andb]. apply N.eqb_neq in Hc. rewrite Hc. cbn [andb].
      change (u "-h") with [dash; 104]. change (u "-v") with [dash; 118]. change (u "--help") with (dash :: dash :: u "help").
      change (u "--verbose") with (dash :: dash :: u "verbose").
      cbn [flat_map firstn skipn str_eqb startswith]. rewrite !N.eqb_refl. cbn [andb]. rewrite (N.eqb_sym dash c'), Hc. cbn [andb].
      destruct (104 =? c') eqn:E1; destruct (118 =? c') eqn:E2; cbn [andb].
      + apply N.eqb_eq in E1, E2. lia.
      + cbn. lia.
      + cbn. lia.
      + cbn. lia.
    - change (u "--") with [dash; dash]. cbn [startswith]. rewrite ?sw_nil. rewrite !N.eqb_refl. cbn [andb].
      cbn [partition_at] in *. change (dash =? equals) with false. cbv iota. apply N.eqb_neq in Hc. rewrite Hc.
      destruct (partition_at equals t') as [a' b']. rewrite map_length.
      change (u "-h") with [dash; 104]. change (u "-v") with [dash; 118]. change (u "--help") with (dash :: dash :: 104 :: u "elp").
      change (u "--verbose") with (dash :: dash :: 118 :: u "erbose").
      cbn [filter startswith]. rewrite !N.eqb_refl. change (104 =? dash) with false. change (118 =? dash) with false. cbn [andb].
      destruct (104 =? c') eqn:E1; destruct (118 =? c') eqn:E2; cbn [andb].
      + apply N.eqb_eq in E1, E2. lia.
      + destruct (startswith (u "elp") a'); cbn; lia.
      + destruct (startswith (u "erbose") a'); cbn; lia.
      + cbn. lia. }
  destruct b as [v|]; [destruct (find_opt main_parser a); [reflexivity|]|]; exact (K _ Hl).
Qed.
