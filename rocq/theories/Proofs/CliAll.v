(** What holds of every command line. *)
From Verif.Base Require Import PyStr PyNum PyVal PyDict Outcome.
From Verif.Model Require Import Commands Cli.
From Verif.Spec Require Import CommandLine.
From Verif.Proofs Require Import CliWords CliLine CliMeaning CliRun.
From Coq Require Import Lia.
Local Open Scope N_scope.

Definition ends (w s : str) : Prop := exists p, w = p ++ s.
Lemma ends_refl w : ends w w.
Proof. exists []. reflexivity. Qed.
Lemma ends_cons c w s : ends w s -> ends (c :: w) s.
Proof. intros [p ->]. exists (c :: p). reflexivity. Qed.
Lemma partition_ends c w a v : partition_at c w = (a, Some v) -> ends w v.
Proof.
  revert a. induction w as [|x w IH]; intros a H; [discriminate|]. cbn [partition_at] in H. destruct (x =? c).
  - injection H as _ <-. apply ends_cons, ends_refl.
  - destruct (partition_at c w) as [a' b]. injection H as _ ->. exact (ends_cons x w v (IH a' eq_refl)).
Qed.
Lemma skipn_ends n (w : str) : ends w (skipn n w).
Proof. exists (firstn n w). symmetry. apply firstn_skipn. Qed.

Lemma tuples_end P w f sep v : In (f, sep, Some v) (option_tuples P w) -> ends w v.
Proof.
  unfold option_tuples. destruct (startswith w (u "--")).
  - destruct (partition_at equals w) as [a [e|]] eqn:E; intros H; apply in_map_iff in H as (x & H & _); injection H as _ _ H.
    + subst e. exact (partition_ends equals w a v E).
    + discriminate H.
  - intros H. apply in_flat_map in H as (x & _ & H). destruct (str_eqb x (firstn 2 w)).
    + destruct H as [H|[]]. injection H as _ _ <-. exact (skipn_ends 2 w).
    + destruct (startswith x w); [destruct H as [H|[]]; discriminate H|destruct H].
Qed.
Lemma classify_opt P w f o sep e : classify P w = COpt f o sep e -> In o (ap_opts P) /\ forall v, e = Some v -> ends w v.
Proof.
  unfold classify. destruct w as [|c t]; [discriminate|]. destruct (negb (c =? dash)); [discriminate|].
  destruct (find_opt P (c :: t)) as [o'|] eqn:E1.
  - intros H. injection H as _ <- _ <-. split; [exact (proj1 (find_opt_some P _ _ E1))|discriminate].
  - destruct t as [|d t]; [discriminate|]. destruct (partition_at equals (c :: d :: t)) as [a b] eqn:Ep.
    assert (match option_tuples P (c :: d :: t) with
            | [(f0, sep0, e0)] => match find_opt P f0 with Some o0 => COpt f0 o0 sep0 e0 | None => CUnknown end
            | _ :: _ :: _ => CAmbiguous
            | [] => if negative_number (c :: d :: t) then CArg else if existsb (N.eqb 32) (c :: d :: t) then CArg else CUnknown
            end = COpt f o sep e -> In o (ap_opts P) /\ forall v, e = Some v -> ends (c :: d :: t) v) as K.
    { destruct (option_tuples P (c :: d :: t)) as [|[[f0 s0] e0] [|y l]] eqn:Et.
      - destruct (negative_number _); [discriminate|]. destruct (existsb _ _); discriminate.
      - destruct (find_opt P f0) as [o0|] eqn:E0; [|discriminate]. intros H. injection H as <- <- <- <-.
        split; [exact (proj1 (find_opt_some P _ _ E0))|]. intros v ->. apply (tuples_end P _ f0 s0). rewrite Et. left. reflexivity.
      - discriminate. }
    destruct b as [v|]; [|exact K]. destruct (find_opt P a) as [o'|] eqn:E2; [|exact K].
    intros H. injection H as _ <- _ <-. split; [exact (proj1 (find_opt_some P _ _ E2))|]. intros v' H. injection H as <-.
    exact (partition_ends equals _ a v Ep).
Qed.
Lemma unpack_ends P n : forall o short sep ex acts last extra, (List.length ex <= n)%nat -> In o (ap_opts P) ->
  unpack P o short sep ex = Some (acts, last, extra) ->
  Forall (fun oa => In (fst oa) (ap_opts P) /\ Forall (ends ex) (snd oa)) acts /\ (forall o', last = Some o' -> In o' (ap_opts P)).
Proof.
  induction n as [|n IH]; intros o short sep ex acts last extra Hn Ho H.
  - destruct ex; [|cbn in Hn; lia]. cbn [unpack] in H. destruct (no_args o); [discriminate|]. injection H as <- <- <-.
    split; [|discriminate]. repeat constructor; [exact Ho|apply ends_refl].
  - destruct ex as [|c ex'].
    + cbn [unpack] in H. destruct (no_args o); [discriminate|]. injection H as <- <- <-. split; [|discriminate]. repeat constructor; [exact Ho|apply ends_refl].
    + cbn [unpack] in H. destruct (no_args o).
      2:{ injection H as <- <- <-. split; [|discriminate]. repeat constructor; [exact Ho|apply ends_refl]. }
      destruct short; [|discriminate]. destruct (sep || (c =? dash)); [discriminate|].
      destruct (find_opt P [dash; c]) as [o'|] eqn:E.
      2:{ injection H as <- <- <-. split; [|discriminate]. repeat constructor. exact Ho. }
      pose proof (proj1 (find_opt_some P _ _ E)) as Ho'.
      destruct ex' as [|d ex''].
      { injection H as <- <- <-. split; [repeat constructor; exact Ho|]. intros o2 E2. injection E2 as <-. exact Ho'. }
      assert (exists s' ex1, (ex1 = ex'' \/ ex1 = d :: ex'') /\ exists a l e, unpack P o' true s' ex1 = Some (a, l, e) /\ acts = (o, []) :: a /\ last = l) as (s' & ex1 & Hex & a & l & e & Hu & -> & ->).
      { destruct (d =? equals).
        - exists true, ex''. split; [left; reflexivity|]. destruct (unpack P o' true true ex'') as [[[a l] e]|]; [|discriminate]. injection H as <- <- <-. exists a, l, e. repeat split.
        - exists false, (d :: ex''). split; [right; reflexivity|]. destruct (unpack P o' true false (d :: ex'')) as [[[a l] e]|]; [|discriminate]. injection H as <- <- <-. exists a, l, e. repeat split. }
      assert (List.length ex1 <= n)%nat as Hl by (cbn in Hn; destruct Hex as [-> | ->]; cbn; lia).
      destruct (IH o' true s' ex1 a l e Hl Ho' Hu) as [I1 I2]. split; [|exact I2].
      constructor; [split; [exact Ho|constructor]|]. eapply Forall_impl; [|exact I1]. intros [o2 args] [X Y]. split; [exact X|].
      eapply Forall_impl; [|exact Y]. intros s Hs. apply ends_cons. destruct Hex as [-> | ->]; [apply ends_cons; exact Hs|exact Hs].
Qed.

Lemma sset_key {A} k x (v : A) (l : list (str * A)) : In x (map fst (sset k v l)) -> x = k \/ In x (map fst l).
Proof.
  rewrite sset_keys_gen. destruct (sget k l); [intros H; right; exact H|]. intros H. apply in_app_or in H as [H|[H|[]]]; [right; exact H|left; symmetry; exact H].
Qed.
Section All.
  Variables (P : aparser) (C : command) (ws : list str).
  Hypothesis HT : table_okb P C = true.
  Hypothesis HM : forallb (fun o => match ao_kind o, ao_default o with KMaybe, Some _ => false | _, _ => true end) (ap_opts P) = true.
  Hypothesis HN : forall o, In o (ap_opts P) -> real o -> ~ In (ao_dest o) (ap_pos P).

  Definition word_text (s : str) : Prop := exists w, In w ws /\ ends w s.
  Definition value_fits (o : aopt) (v : aval) : Prop :=
    match ao_kind o with
    | KFlag => v = ABool true
    | KHelp => False
    | KOne => exists s, get_value o s = Some v /\ word_text s
    | KMaybe => exists l, v = AList l /\ Forall (fun x => x = ABool true \/ exists s, get_value o s = Some x /\ word_text s) l
    | KMany => exists l, v = AList l /\ Forall (fun x => exists s, get_value o s = Some x /\ word_text s) l
    end.
  Record fits_all (st : pstate) : Prop := {
    fa_opts : forall o, In o (ap_opts P) -> real o ->
      (sget (ao_dest o) (ps_ns st) = Some (ao_default o) /\ ~ In (ao_dest o) (ps_seen st))
      \/ exists v, sget (ao_dest o) (ps_ns st) = Some (Some v) /\ value_fits o v;
    fa_left : forall p, In p (ps_left st) -> In p (ap_pos P);
    fa_pos : forall p, In p (ap_pos P) -> In p (ps_left st) \/ exists w, sget p (ps_ns st) = Some (Some (AStr w)) /\ In w ws;
    fa_keys : NoDup (map fst (ps_ns st));
    fa_only : forall k, In k (map fst (ps_ns st)) -> In k (map fst (defaults P)) }.

  Lemma fits_start : fits_all (start_state P).
  Proof.
    constructor.
    - intros o Ho R. left. split; [|intros []]. exact (start_default P C HT o Ho R).
    - intros p H. exact H.
    - intros p H. left. exact H.
    - exact (proj2 (proj2 (proj2 (proj2 (proj2 (table_parts P C HT)))))).
    - intros k H. exact H.
  Qed.
  Lemma fits_set st o v : fits_all st -> In o (ap_opts P) -> real o -> value_fits o v -> fits_all (set_ns (ao_dest o) v st).
  Proof.
    intros H Ho R Hv. constructor; cbn [set_ns ps_ns ps_seen ps_left].
    - intros o' Ho' R'. destruct (str_eqb_spec (ao_dest o') (ao_dest o)) as [E|E].
      + right. exists v. assert (o' = o) as -> by (apply (dest_inj P C HT); assumption). split; [apply sget_sset_eq|exact Hv].
      + destruct (fa_opts st H o' Ho' R') as [[H1 H2]|(x & H1 & H2)].
        * left. rewrite sget_sset_neq by exact E. split; [exact H1|]. intros [X|X]; [apply E; congruence|exact (H2 X)].
        * right. exists x. rewrite sget_sset_neq by exact E. split; assumption.
    - exact (fa_left st H).
    - intros p Hp. destruct (fa_pos st H p Hp) as [X|(w & X & Y)]; [left; exact X|right; exists w]. split; [|exact Y].
      rewrite sget_sset_neq; [exact X|]. intros ->. exact (HN o Ho R Hp).
    - apply sset_NoDup. exact (fa_keys st H).
    - intros k Hk. apply sset_key in Hk as [-> |Hk]; [|exact (fa_only st H k Hk)].
      unfold defaults. rewrite map_app. apply in_or_app. left. apply in_map_iff. exists (ao_dest o, ao_default o). split; [reflexivity|].
      apply in_flat_map. exists o. split; [exact Ho|]. unfold real in R. destruct (ao_kind o); try (left; reflexivity). contradiction.
  Qed.
  Lemma fits_extra st : fits_all st -> fits_all (add_extra st).
  Proof. intros [H1 H2 H3 H4 H5]. constructor; assumption. Qed.
  Lemma get_values_fit o l r : get_values o l = Some r -> Forall word_text l -> Forall (fun x => exists s, get_value o s = Some x /\ word_text s) r.
  Proof.
    revert r. induction l as [|s l IH]; intros r H Hl; cbn [get_values] in H; [injection H as <-; constructor|].
    apply Forall_cons_iff in Hl as [H1 H2]. destruct (get_value o s) as [v|] eqn:Ev; [|discriminate]. destruct (get_values o l) as [r'|]; [|discriminate].
    injection H as <-. constructor; [exists s; split; assumption|exact (IH r' eq_refl H2)].
  Qed.
  Lemma fits_take st o args st' : fits_all st -> In o (ap_opts P) -> Forall word_text args -> take_action st o args = PDone st' -> fits_all st'.
  Proof.
    intros H Ho Ha Ht. unfold take_action in Ht.
    assert (ao_kind o <> KHelp -> real o) as R by (intros X; exact X).
    destruct (ao_kind o) eqn:K.
    - injection Ht as <-. apply fits_set; [exact H|exact Ho|apply R; discriminate|]. unfold value_fits. rewrite K. reflexivity.
    - destruct args as [|s args]; [discriminate|]. destruct (get_value o s) as [v|] eqn:Ev; [|discriminate]. injection Ht as <-.
      apply fits_set; [exact H|exact Ho|apply R; discriminate|]. unfold value_fits. rewrite K. exists s. split; [exact Ev|]. apply Forall_inv in Ha. exact Ha.
    - assert (Forall (fun x => x = ABool true \/ exists s, get_value o s = Some x /\ word_text s) (items_of (sget (ao_dest o) (ps_ns st)))) as Hi.
      { destruct (fa_opts st H o Ho (R ltac:(discriminate))) as [[E _]|(x & E & Hx)]; rewrite E.
        - pose proof (proj1 (forallb_forall _ _) HM o Ho) as Hd. cbv beta in Hd. rewrite K in Hd. destruct (ao_default o); [discriminate|]. constructor.
        - unfold value_fits in Hx. rewrite K in Hx. destruct Hx as (l & -> & Hl). exact Hl. }
      destruct args as [|s args].
      + injection Ht as <-. apply fits_set; [exact H|exact Ho|apply R; discriminate|]. unfold value_fits. rewrite K. eexists. split; [reflexivity|].
        apply Forall_app. split; [exact Hi|]. constructor; [left; reflexivity|constructor].
      + destruct (get_value o s) as [v|] eqn:Ev; [|discriminate]. injection Ht as <-. apply fits_set; [exact H|exact Ho|apply R; discriminate|].
        unfold value_fits. rewrite K. eexists. split; [reflexivity|]. apply Forall_app. split; [exact Hi|].
        constructor; [right; exists s; split; [exact Ev|apply Forall_inv in Ha; exact Ha]|constructor].
    - destruct (get_values o args) as [l|] eqn:El; [|discriminate]. injection Ht as <-. apply fits_set; [exact H|exact Ho|apply R; discriminate|].
      unfold value_fits. rewrite K. exists l. split; [reflexivity|]. exact (get_values_fit o args l El Ha).
    - discriminate.
  Qed.
  Lemma fits_takes l : forall st st', fits_all st -> Forall (fun oa => In (fst oa) (ap_opts P) /\ Forall word_text (snd oa)) l ->
    take_actions st l = PDone st' -> fits_all st'.
  Proof.
    induction l as [|[o args] l IH]; intros st st' H Hl Ht; cbn [take_actions] in Ht; [injection Ht as <-; exact H|].
    apply Forall_cons_iff in Hl as [[H1 H2] H3]. destruct (take_action st o args) as [| | |s1] eqn:E; try discriminate.
    exact (IH s1 st' (fits_take st o args s1 H H1 H2 E) H3 Ht).
  Qed.
  Lemma follow_in o rest l : follow o (classified P rest) = Some l -> forall s, In s l -> In s rest.
  Proof.
    assert (forall s, In s (leading_args (classified P rest)) -> In s rest) as Hlead.
    { induction rest as [|t rest IH]; intros s Hs; [destruct Hs|]. unfold classified in Hs. cbn [map leading_args] in Hs. destruct (classify P t); try (destruct Hs; fail).
      destruct Hs as [-> |Hs]; [left; reflexivity|right; exact (IH s Hs)]. }
    unfold follow. destruct (ao_kind o).
    - intros H. injection H as <-. intros s [].
    - destruct rest as [|t rest]; [discriminate|]. cbn [classified map]. destruct (classify P t); try discriminate. intros H. injection H as <-. intros s [<- |[]]. left. reflexivity.
    - destruct rest as [|t rest]; [intros H; injection H as <-; intros s []|]. cbn [classified map]. destruct (classify P t); intros H; injection H as <-; try (intros s []; fail).
      intros s [<- |[]]. left. reflexivity.
    - intros H. injection H as <-. exact Hlead.
    - intros H. injection H as <-. intros s [].
  Qed.
  Lemma fits_consume st w f o sep e rest st' n :
    fits_all st -> In w ws -> (forall s, In s rest -> In s ws) -> classify P w = COpt f o sep e ->
    consume_optional P st f o sep e (classified P rest) = PDone (st', n) -> fits_all st'.
  Proof.
    intros H Hw Hr Hc Hd. destruct (classify_opt P w f o sep e Hc) as [Ho He]. unfold consume_optional in Hd.
    assert (exists acts last extra, match e with None => Some ([], Some o, false) | Some ex => unpack P o (negb (startswith f (u "--"))) sep ex end = Some (acts, last, extra)
            /\ Forall (fun oa => In (fst oa) (ap_opts P) /\ Forall word_text (snd oa)) acts /\ (forall o', last = Some o' -> In o' (ap_opts P))) as (acts & last & extra & Eu & A1 & A2).
    { destruct e as [ex|].
      - destruct (unpack P o (negb (startswith f (u "--"))) sep ex) as [[[acts last] extra]|] eqn:Eu; [|discriminate]. exists acts, last, extra. split; [reflexivity|].
        destruct (unpack_ends P (List.length ex) o _ sep ex acts last extra (le_n _) Ho Eu) as [B1 B2]. split; [|exact B2].
        eapply Forall_impl; [|exact B1]. intros [o2 args] [X Y]. split; [exact X|]. eapply Forall_impl; [|exact Y]. intros s [p ->].
        exists w. split; [exact Hw|]. destruct (He _ eq_refl) as [q ->]. exists (q ++ p). rewrite app_assoc. reflexivity.
      - exists [], (Some o), false. split; [reflexivity|]. split; [constructor|]. intros o' E. injection E as <-. exact Ho. }
    rewrite Eu in Hd.
    assert (exists more k, match last with None => Some ([], O) | Some o' => option_map (fun l => ([(o', l)], List.length l)) (follow o' (classified P rest)) end = Some (more, k)
            /\ Forall (fun oa => In (fst oa) (ap_opts P) /\ Forall word_text (snd oa)) more) as (more & k & Em & A3).
    { destruct last as [o'|]; [|exists [], O; split; [reflexivity|constructor]].
      destruct (follow o' (classified P rest)) as [l|] eqn:El; [|discriminate Hd]. exists [(o', l)], (List.length l). split; [reflexivity|].
      constructor; [|constructor]. split; [exact (A2 o' eq_refl)|]. apply Forall_forall. intros s Hs. exists s. split; [exact (Hr s (follow_in o' rest l El s Hs))|apply ends_refl]. }
    rewrite Em in Hd. destruct (take_actions st (acts ++ more)) as [| | |s1] eqn:Et; try discriminate. injection Hd as <- _.
    assert (fits_all s1) as H1 by (apply (fits_takes (acts ++ more) st); [exact H|apply Forall_app; split; assumption|exact Et]).
    destruct extra; [apply fits_extra; exact H1|exact H1].
  Qed.
  Lemma fits_positional st w : fits_all st -> In w ws -> fits_all (consume_positional st w).
  Proof.
    intros H Hw. unfold consume_positional. destruct (ps_left st) as [|p l] eqn:El; [apply fits_extra; exact H|]. destruct H as [H1 H2 H3 H4 H5]. rewrite El in *.
    constructor; cbn [ps_ns ps_seen ps_left].
    - intros o Ho R. rewrite sget_sset_neq; [exact (H1 o Ho R)|]. intros E. apply (HN o Ho R). rewrite E. apply H2. left. reflexivity.
    - intros q Hq. apply H2. right. exact Hq.
    - intros q Hq. destruct (str_eqb_spec q p) as [-> |N0].
      + right. exists w. split; [apply sget_sset_eq|exact Hw].
      + rewrite sget_sset_neq by exact N0. destruct (H3 q Hq) as [[X|X]|X]; [destruct N0; congruence|left; exact X|right; exact X].
    - apply sset_NoDup. exact H4.
    - intros k Hk. apply sset_key in Hk as [-> |Hk]; [|exact (H5 k Hk)].
      unfold defaults. rewrite map_app. apply in_or_app. right. rewrite map_map. cbn [fst]. rewrite map_id. apply H2. left. reflexivity.
  Qed.
  Lemma fits_words : forall l st skip st', fits_all st -> (forall s, In s l -> In s ws) ->
    parse_words P st skip (classified P l) = PDone st' -> fits_all st'.
  Proof.
    induction l as [|w l IH]; intros st skip st' H Hl Hp; cbn [classified map parse_words] in Hp.
    - injection Hp as <-. exact H.
    - assert (In w ws) as Hw by (apply Hl; left; reflexivity). assert (forall s, In s l -> In s ws) as Hr by (intros s Hs; apply Hl; right; exact Hs).
      destruct skip as [|k]; [|exact (IH st k st' H Hr Hp)]. destruct (classify P w) as [|f o sep e| |] eqn:Ec.
      + exact (IH _ _ st' (fits_positional st w H Hw) Hr Hp).
      + fold (classified P l) in Hp. destruct (consume_optional P st f o sep e (classified P l)) as [| | |[s1 n]] eqn:Ed; try discriminate.
        exact (IH s1 n st' (fits_consume st w f o sep e l s1 n H Hw Hr Ec Ed) Hr Hp).
      + exact (IH _ _ st' (fits_extra st H) Hr Hp).
      + discriminate.
  Qed.
  Theorem fits_parsed st : parse_sub P ws = PDone st -> fits_all st /\ all_there P st = true.
  Proof.
    unfold parse_sub. destruct (ambiguous (classified P ws)); [discriminate|].
    destruct (parse_words P (start_state P) O (classified P ws)) as [| | |s1] eqn:E; try discriminate.
    destruct (all_there P s1) eqn:Ea; [|discriminate]. intros H. injection H as <-. split; [|exact Ea].
    exact (fits_words ws _ _ _ fits_start (fun s Hs => Hs) E).
  Qed.

  (** seen from the arguments *)
  Section Arguments.
    Variable st : pstate.
    Hypotheses (HF : fits_all st) (HA : all_there P st = true).
    Let kw := kwargs_from_parsed_args (ps_ns st).
    Lemma all_one o : In o (ap_opts P) -> ao_kind o = KOne -> ao_int o = false ->
      (exists s, sget (ao_dest o) kw = Some (AStr s) /\ word_text s /\ (forall l, ao_choices o = Some l -> In s l))
      \/ (sget (ao_dest o) kw = ao_default o /\ ao_required o = false).
    Proof.
      intros Ho K Hi. unfold kw. rewrite (kwargs_get _ _ (fa_keys st HF)).
      destruct (fa_opts st HF o Ho ltac:(unfold real; rewrite K; discriminate)) as [[E Hs]|(v & E & Hv)]; rewrite E.
      - right. split; [reflexivity|]. unfold all_there in HA. apply andb_true_iff in HA as [_ HA']. pose proof (proj1 (forallb_forall _ _) HA' o Ho) as Hq. cbv beta in Hq.
        destruct (ao_required o); [|reflexivity]. cbn [negb orb] in Hq. apply str_mem_In in Hq. contradiction.
      - left. unfold value_fits in Hv. rewrite K in Hv. destruct Hv as (s & Hg & Hw). unfold get_value in Hg. rewrite Hi in Hg. exists s.
        destruct (ao_choices o) as [l|].
        + destruct (str_mem s l) eqn:Em; [|discriminate]. injection Hg as <-. split; [reflexivity|]. split; [exact Hw|]. intros l' El. injection El as <-. apply str_mem_In. exact Em.
        + injection Hg as <-. split; [reflexivity|]. split; [exact Hw|]. discriminate.
    Qed.
    Lemma all_str o d : In o (ap_opts P) -> ao_kind o = KOne -> ao_int o = false -> ao_default o = None ->
      kw_str (ao_dest o) d kw = d \/ word_text (kw_str (ao_dest o) d kw).
    Proof.
      intros Ho K Hi Hd. unfold kw_str. destruct (all_one o Ho K Hi) as [(s & -> & Hs & _)|[-> _]]; [right; exact Hs|left; rewrite Hd; reflexivity].
    Qed.
    Lemma all_opt o s : In o (ap_opts P) -> ao_kind o = KOne -> ao_int o = false ->
      kw_opt (ao_dest o) kw = Some s -> ao_default o = Some (AStr s) \/ word_text s.
    Proof.
      intros Ho K Hi. unfold kw_opt. destruct (all_one o Ho K Hi) as [(s' & -> & Hs & _)|[-> _]].
      - intros H. injection H as <-. right. exact Hs.
      - intros H. left. destruct (ao_default o) as [[x|x|x|x]|]; try discriminate. injection H as <-. reflexivity.
    Qed.
    Lemma all_many o l s : In o (ap_opts P) -> ao_kind o = KMany -> ao_int o = false -> ao_choices o = None -> ao_default o = None ->
      kw_strs (ao_dest o) kw = Some l -> In s l -> word_text s.
    Proof.
      intros Ho K Hi Hc Hd. unfold kw_strs, kw. rewrite (kwargs_get _ _ (fa_keys st HF)).
      destruct (fa_opts st HF o Ho ltac:(unfold real; rewrite K; discriminate)) as [[E _]|(v & E & Hv)]; rewrite E.
      - rewrite Hd. discriminate.
      - unfold value_fits in Hv. rewrite K in Hv. destruct Hv as (r & -> & Hr). intros H. injection H as <-. intros Hs. apply in_flat_map in Hs as (x & Hx & Hs).
        pose proof (proj1 (Forall_forall _ _) Hr x Hx) as (s' & Hg & Hw). unfold get_value in Hg. rewrite Hi, Hc in Hg. injection Hg as <-. destruct Hs as [<- |[]]. exact Hw.
    Qed.
    Lemma all_roll o s : In o (ap_opts P) -> ao_kind o = KMaybe -> ao_int o = false -> ao_choices o = None -> ao_default o = None ->
      forall l, kw_roll (ao_dest o) kw = RollList l -> In (RPath s) l -> word_text s.
    Proof.
      intros Ho K Hi Hc Hd l. unfold kw_roll, kw. rewrite (kwargs_get _ _ (fa_keys st HF)).
      destruct (fa_opts st HF o Ho ltac:(unfold real; rewrite K; discriminate)) as [[E _]|(v & E & Hv)]; rewrite E.
      - rewrite Hd. discriminate.
      - unfold value_fits in Hv. rewrite K in Hv. destruct Hv as (r & -> & Hr). intros H. injection H as <-. intros Hs. apply in_flat_map in Hs as (x & Hx & Hs).
        pose proof (proj1 (Forall_forall _ _) Hr x Hx) as [-> |(s' & Hg & Hw)]; [destruct Hs as [Hs|[]]; discriminate Hs|].
        unfold get_value in Hg. rewrite Hi, Hc in Hg. injection Hg as <-. destruct Hs as [Hs|[]]. injection Hs as <-. exact Hw.
    Qed.
    Lemma all_input p : ap_pos P = [p] -> In (kw_str p [] kw) ws.
    Proof.
      intros Ep. unfold kw_str, kw. rewrite (kwargs_get _ _ (fa_keys st HF)).
      unfold all_there in HA. destruct (ps_left st) eqn:El; [|discriminate HA].
      destruct (fa_pos st HF p ltac:(rewrite Ep; left; reflexivity)) as [X|(w & E & Hw)]; [rewrite El in X; destruct X|]. rewrite E. exact Hw.
    Qed.
  End Arguments.
End All.

(** ** Every call *)
Lemma main_called : forall l st skip st' name sub,
  parse_main st skip (classified main_parser l) = PDone (st', Some (name, sub)) ->
  exists P rest s, sget name subparsers = Some P /\ parse_sub P rest = PDone s /\ sub = ps_ns s /\ (forall x, In x rest -> In x l).
Proof.
  induction l as [|w l IH]; intros st skip st' name sub H; cbn [classified map parse_main] in H; [discriminate|].
  assert (forall st0 k, parse_main st0 k (classified main_parser l) = PDone (st', Some (name, sub)) ->
    exists P rest s, sget name subparsers = Some P /\ parse_sub P rest = PDone s /\ sub = ps_ns s /\ (forall x, In x rest -> In x (w :: l))) as K.
  { intros st0 k H0. destruct (IH st0 k st' name sub H0) as (P & rest & s & H1 & H2 & H3 & H4). exists P, rest, s.
    split; [exact H1|]. split; [exact H2|]. split; [exact H3|]. intros x Hx. right. exact (H4 x Hx). }
  fold (classified main_parser l) in H. destruct skip as [|k]; [|exact (K st k H)]. destruct (classify main_parser w) as [|f o sep e| |].
  - destruct (sget w subparsers) as [P|] eqn:E; [|discriminate]. unfold classified in H. rewrite map_map in H. cbn [fst] in H. rewrite map_id in H.
    destruct (parse_sub P l) as [| | |s] eqn:Ep; try discriminate. injection H as _ <- <-. exists P, l, s.
    split; [exact E|]. split; [exact Ep|]. split; [reflexivity|]. intros x Hx. right. exact Hx.
  - destruct (consume_optional main_parser st f o sep e (classified main_parser l)) as [| | |[s1 n]]; try discriminate. exact (K s1 n H).
  - exact (K _ _ H).
  - discriminate.
Qed.
Lemma no_pos P p : ap_pos P = [p] -> forallb (fun o => negb (str_eqb (ao_dest o) p)) (ap_opts P) = true ->
  forall o, In o (ap_opts P) -> real o -> ~ In (ao_dest o) (ap_pos P).
Proof.
  intros E H o Ho _. rewrite E. intros [X|[]]. pose proof (proj1 (forallb_forall _ _) H o Ho) as Y. cbv beta in Y. rewrite X, str_eqb_refl in Y. discriminate.
Qed.
Lemma text_from ws argv s : (forall x, In x ws -> In x argv) -> word_text ws s -> from_words argv s.
Proof. intros H (w & Hw & p & E). exists w, p. split; [exact (H w Hw)|exact E]. Qed.

(** a parameter that is a text, one that may be missing *)
Definition told (argv : list str) (s : str) : Prop := In s unused_values \/ from_words argv s.
Section Told.
  Variables (P : aparser) (C : command) (ws argv : list str) (st : pstate).
  Hypotheses (HF : fits_all P ws st) (HA : all_there P st = true) (Hin : forall x, In x ws -> In x argv).
  Let kw := kwargs_from_parsed_args (ps_ns st).
  Lemma told_str o d s : In o (ap_opts P) -> ao_kind o = KOne -> ao_int o = false -> ao_default o = None -> str_mem d unused_values = true ->
    kw_str (ao_dest o) d kw = s -> told argv s.
  Proof.
    intros H1 H2 H3 H4 Hd <-. destruct (all_str P ws st HF HA o d H1 H2 H3 H4) as [X|X].
    - left. unfold kw. rewrite X. apply str_mem_In. exact Hd.
    - right. exact (text_from ws argv _ Hin X).
  Qed.
  Lemma told_opt o s : In o (ap_opts P) -> ao_kind o = KOne -> ao_int o = false ->
    (match ao_default o with None => true | Some (AStr d) => str_mem d unused_values | _ => false end) = true ->
    In s (maybe (kw_opt (ao_dest o) kw)) -> told argv s.
  Proof.
    intros H1 H2 H3 H4 Hm. destruct (kw_opt (ao_dest o) kw) as [z|] eqn:E; [|destruct Hm]. destruct Hm as [-> |[]].
    destruct (all_opt P ws st HF HA o s H1 H2 H3 E) as [X|X]; [|right; exact (text_from ws argv _ Hin X)].
    rewrite X in H4. left. apply str_mem_In. exact H4.
  Qed.
  Lemma told_choice o d l : In o (ap_opts P) -> ao_kind o = KOne -> ao_int o = false -> ao_default o = None -> ao_choices o = Some l -> str_mem d l = true ->
    In (kw_str (ao_dest o) d kw) l.
  Proof.
    intros H1 H2 H3 H4 H5 Hd. unfold kw_str, kw. destruct (all_one P ws st HF HA o H1 H2 H3) as [(s & -> & _ & Hc)|[-> _]]; [exact (Hc l H5)|].
    rewrite H4. apply str_mem_In. exact Hd.
  Qed.
  Lemma told_required o d : In o (ap_opts P) -> ao_kind o = KOne -> ao_int o = false -> ao_required o = true ->
    from_words argv (kw_str (ao_dest o) d kw) /\ exists s, kw_opt (ao_dest o) kw = Some s /\ forall l, ao_choices o = Some l -> In s l.
  Proof.
    intros H1 H2 H3 H4. unfold kw_str, kw_opt, kw. destruct (all_one P ws st HF HA o H1 H2 H3) as [(s & -> & Hw & Hc)|[_ E]]; [|rewrite H4 in E; discriminate E].
    split; [exact (text_from ws argv _ Hin Hw)|]. exists s. split; [reflexivity|exact Hc].
  Qed.
  Lemma told_input p : ap_pos P = [p] -> In (kw_str p [] kw) argv.
  Proof. intros Ep. apply Hin. exact (all_input P ws st HF HA p Ep). Qed.
End Told.

Ltac t_str K o := refine (K o _ _ _ _ _ _ _); [member|reflexivity|reflexivity|reflexivity|reflexivity|eassumption].
Ltac t_opt K o := refine (K o _ _ _ _ _ _); [member|reflexivity|reflexivity|reflexivity|eassumption].
Lemma told_all argv l : Forall (told argv) l -> forall s, In s l -> told argv s.
Proof. intros H. apply Forall_forall. exact H. Qed.
Lemma told_maybe argv o : (forall s, In s (maybe o) -> told argv s) -> Forall (told argv) (maybe o).
Proof. intros H. apply Forall_forall. exact H. Qed.

Theorem any_call argv loud c : call_for argv = PDone (Some (loud, c)) ->
  call_stands argv c /\ forall s, In s (call_texts c) -> In s unused_values \/ from_words argv s.
Proof.
  unfold call_for. destruct (parse_args argv) as [| | |[ns [[name sub]|]]] eqn:Ea; try discriminate.
  unfold parse_args in Ea. destruct (str_mem (u "--") argv); [discriminate|]. destruct (ambiguous (classified main_parser argv)); [discriminate|].
  destruct (parse_main (start_state main_parser) 0 (classified main_parser argv)) as [| | |[st1 sub1]] eqn:Em; try discriminate.
  destruct (ps_extra st1); [discriminate|]. injection Ea as _ ->. destruct (main_called _ _ _ _ _ _ Em) as (P & ws & st & Hn & Hs & -> & Hin). clear Em st1.
  intros H. remember (kwargs_from_parsed_args (ps_ns st)) as kw eqn:Ekw. unfold call_of in H.
  destruct (kw_int (u "truncation_length") 3 kw <? 0)%Z; [discriminate|].
  remember (Z.to_nat (kw_int (u "truncation_length") 3 kw)) as n eqn:En. clear En.
  apply sget_In in Hn. destruct Hn as [E|[E|[E|[]]]]; injection E as <- <-.
  - change (str_eqb (u "create-template") (u "create-template")) with true in H. injection H as _ <-.
    destruct template_ok as [_ HT].
    assert (forall o, In o (ap_opts template_parser) -> real o -> ~ In (ao_dest o) (ap_pos template_parser)) as HN by (intros o _ _ []).
    destruct (fits_parsed template_parser template_command ws HT eq_refl HN st Hs) as [HF HA].
    pose proof (told_str template_parser ws argv st HF HA Hin) as S1. pose proof (told_opt template_parser ws argv st HF HA Hin) as S2.
    rewrite <- Ekw in S1, S2. split.
    + cbn [call_stands template_call c_schema c_format]. split.
      * rewrite Ekw. refine (proj1 (told_required template_parser ws argv st HF HA Hin (opt_required [u "-s"; u "--schema"]) [] _ eq_refl eq_refl eq_refl)). member.
      * rewrite Ekw. refine (told_choice template_parser ws st HF HA (opt_choice [u "-f"; u "--output-format"] output_formats false) (u "all") _ _ eq_refl eq_refl eq_refl eq_refl eq_refl). member.
    + apply told_all. cbn [call_texts template_call c_schema c_format c_main c_root_id c_term c_output app].
      repeat (apply Forall_cons).
      * refine (S1 (opt_required [u "-s"; u "--schema"]) [] _ _ eq_refl eq_refl eq_refl eq_refl eq_refl). member.
      * refine (S1 (opt_choice [u "-f"; u "--output-format"] output_formats false) (u "all") _ _ eq_refl eq_refl eq_refl eq_refl eq_refl). member.
      * refine (S1 (opt_one [u "-m"; u "--main-sheet-name"]) (u "main") _ _ eq_refl eq_refl eq_refl eq_refl eq_refl). member.
      * refine (S1 (opt_one [u "-r"; u "--root-id"]) [] _ _ eq_refl eq_refl eq_refl eq_refl eq_refl). member.
      * refine (S1 (opt_one [u "--line-terminator"]) (u "CRLF") _ _ eq_refl eq_refl eq_refl eq_refl eq_refl). member.
      * apply told_maybe. intros s. refine (S2 (opt_one [u "-o"; u "--output-name"]) s _ eq_refl eq_refl eq_refl). member.
  - change (str_eqb (u "flatten") (u "create-template")) with false in H. change (str_eqb (u "flatten") (u "flatten")) with true in H. injection H as _ <-.
    destruct flatten_ok as [_ HT].
    assert (forall o, In o (ap_opts flatten_parser) -> real o -> ~ In (ao_dest o) (ap_pos flatten_parser)) as HN by (apply (no_pos flatten_parser (u "input_name")); reflexivity).
    destruct (fits_parsed flatten_parser flatten_command ws HT eq_refl HN st Hs) as [HF HA].
    pose proof (told_str flatten_parser ws argv st HF HA Hin) as S1. pose proof (told_opt flatten_parser ws argv st HF HA Hin) as S2.
    pose proof (told_input flatten_parser ws argv st HF HA Hin (u "input_name") eq_refl) as S3.
    rewrite <- Ekw in S1, S2, S3. split.
    + cbn [call_stands flatten_call f_input f_format]. split; [exact S3|].
      rewrite Ekw. refine (told_choice flatten_parser ws st HF HA (opt_choice [u "-f"; u "--output-format"] output_formats false) (u "all") _ _ eq_refl eq_refl eq_refl eq_refl eq_refl). member.
    + apply told_all. cbn [call_texts flatten_call f_input f_schema f_format f_main f_path f_prefix f_preserve f_root_id f_id_name f_term f_output f_filter_field f_filter_value f_roll app].
      apply Forall_cons; [right; exists (kw_str (u "input_name") [] kw), []; split; [exact S3|reflexivity]|].
      apply Forall_cons; [refine (S1 (opt_one [u "-s"; u "--schema"]) [] _ _ eq_refl eq_refl eq_refl eq_refl eq_refl); member|].
      apply Forall_cons; [refine (S1 (opt_choice [u "-f"; u "--output-format"] output_formats false) (u "all") _ _ eq_refl eq_refl eq_refl eq_refl eq_refl); member|].
      apply Forall_cons; [refine (S1 (opt_one [u "-m"; u "--main-sheet-name"]) (u "main") _ _ eq_refl eq_refl eq_refl eq_refl eq_refl); member|].
      apply Forall_cons; [refine (S1 (opt_one [u "--root-list-path"]) (u "main") _ _ eq_refl eq_refl eq_refl eq_refl eq_refl); member|].
      apply Forall_cons; [refine (S1 (opt_one [u "--sheet-prefix"]) [] _ _ eq_refl eq_refl eq_refl eq_refl eq_refl); member|].
      apply Forall_cons; [refine (S1 (opt_one [u "--preserve-fields"]) [] _ _ eq_refl eq_refl eq_refl eq_refl eq_refl); member|].
      apply Forall_cons; [refine (S1 (opt_one [u "-r"; u "--root-id"]) [] _ _ eq_refl eq_refl eq_refl eq_refl eq_refl); member|].
      apply Forall_cons; [refine (S1 (opt_one [u "--id-name"]) (u "id") _ _ eq_refl eq_refl eq_refl eq_refl eq_refl); member|].
      apply Forall_cons; [refine (S1 (opt_one [u "--line-terminator"]) (u "CRLF") _ _ eq_refl eq_refl eq_refl eq_refl eq_refl); member|].
      apply Forall_app. split; [apply told_maybe; intros s; refine (S2 (opt_one [u "-o"; u "--output-name"]) s _ eq_refl eq_refl eq_refl); member|].
      apply Forall_app. split; [apply told_maybe; intros s; refine (S2 (opt_one [u "--filter-field"]) s _ eq_refl eq_refl eq_refl); member|].
      apply Forall_app. split; [apply told_maybe; intros s; refine (S2 (opt_one [u "--filter-value"]) s _ eq_refl eq_refl eq_refl); member|].
      destruct (kw_roll (u "rollup") kw) as [| |l] eqn:Er; [constructor|constructor|]. apply Forall_forall. intros s Hl. unfold roll_paths in Hl. apply in_flat_map in Hl as (x & Hx & Hl).
      destruct x as [|p]; [destruct Hl|]. destruct Hl as [-> |[]]. right. apply (text_from ws); [exact Hin|]. rewrite Ekw in Er.
      refine (all_roll flatten_parser ws st HF (opt_maybe [u "--rollup"]) s _ eq_refl eq_refl eq_refl eq_refl l Er Hx). member.
  - change (str_eqb (u "unflatten") (u "create-template")) with false in H. change (str_eqb (u "unflatten") (u "flatten")) with false in H. injection H as _ <-.
    destruct unflatten_ok as [_ HT].
    assert (forall o, In o (ap_opts unflatten_parser) -> real o -> ~ In (ao_dest o) (ap_pos unflatten_parser)) as HN by (apply (no_pos unflatten_parser (u "input_name")); reflexivity).
    destruct (fits_parsed unflatten_parser unflatten_command ws HT eq_refl HN st Hs) as [HF HA].
    pose proof (told_str unflatten_parser ws argv st HF HA Hin) as S1. pose proof (told_opt unflatten_parser ws argv st HF HA Hin) as S2.
    pose proof (told_input unflatten_parser ws argv st HF HA Hin (u "input_name") eq_refl) as S3.
    rewrite <- Ekw in S1, S2, S3. split.
    + cbn [call_stands unflatten_call u_input u_format]. split; [exact S3|].
      destruct (told_required unflatten_parser ws argv st HF HA Hin (opt_choice [u "-f"; u "--input-format"] input_formats true) [] ltac:(member) eq_refl eq_refl eq_refl) as (_ & s & E & Hc).
      exists s. split; [rewrite Ekw; exact E|exact (Hc _ eq_refl)].
    + apply told_all. cbn [call_texts unflatten_call u_input u_zone u_root_id u_schema u_cells u_heads u_meta_schema u_conf u_base u_format u_output u_path u_id_name u_meta u_xsds u_comment app].
      apply Forall_cons; [right; exists (kw_str (u "input_name") [] kw), []; split; [exact S3|reflexivity]|].
      apply Forall_cons; [refine (S1 (opt_one [u "--timezone-name"]) (u "UTC") _ _ eq_refl eq_refl eq_refl eq_refl eq_refl); member|].
      apply Forall_cons; [refine (S1 (opt_one [u "-r"; u "--root-id"]) [] _ _ eq_refl eq_refl eq_refl eq_refl eq_refl); member|].
      apply Forall_cons; [refine (S1 (opt_one [u "-s"; u "--schema"]) [] _ _ eq_refl eq_refl eq_refl eq_refl eq_refl); member|].
      apply Forall_cons; [refine (S1 (opt_one [u "-c"; u "--cell-source-map"]) [] _ _ eq_refl eq_refl eq_refl eq_refl eq_refl); member|].
      apply Forall_cons; [refine (S1 (opt_one [u "-a"; u "--heading-source-map"]) [] _ _ eq_refl eq_refl eq_refl eq_refl eq_refl); member|].
      apply Forall_cons; [refine (S1 (opt_one [u "--metatab-schema"]) [] _ _ eq_refl eq_refl eq_refl eq_refl eq_refl); member|].
      apply Forall_cons; [refine (S1 (opt_one [u "--default-configuration"]) [] _ _ eq_refl eq_refl eq_refl eq_refl eq_refl); member|].
      apply Forall_cons; [refine (S1 (opt_one [u "-e"; u "--encoding"]) (u "utf8") _ _ eq_refl eq_refl eq_refl eq_refl eq_refl); member|].
      apply Forall_app. split; [apply told_maybe; intros s; refine (S2 (opt_one [u "-b"; u "--base-json"]) s _ eq_refl eq_refl eq_refl); member|].
      apply Forall_app. split; [apply told_maybe; intros s; refine (S2 (opt_choice [u "-f"; u "--input-format"] input_formats true) s _ eq_refl eq_refl eq_refl); member|].
      apply Forall_app. split; [apply told_maybe; intros s; refine (S2 (opt_one [u "-o"; u "--output-name"]) s _ eq_refl eq_refl eq_refl); member|].
      apply Forall_app. split; [apply told_maybe; intros s; refine (S2 (opt_one [u "-m"; u "--root-list-path"]) s _ eq_refl eq_refl eq_refl); member|].
      apply Forall_app. split; [apply told_maybe; intros s; refine (S2 (opt_one [u "--id-name"]) s _ eq_refl eq_refl eq_refl); member|].
      apply Forall_app. split; [apply told_maybe; intros s; refine (S2 (opt_one [u "--metatab-name"]) s _ eq_refl eq_refl eq_refl); member|].
      apply Forall_app. split; [|apply told_maybe; intros s; refine (S2 (opt_default [u "--xml-comment"] (u "XML generated by flatten-tool")) s _ eq_refl eq_refl eq_refl); member].
      destruct (kw_strs (u "xml_schemas") kw) as [l|] eqn:Er; [|constructor]. apply Forall_forall. intros s Hl. right. apply (text_from ws); [exact Hin|]. rewrite Ekw in Er.
      refine (all_many unflatten_parser ws st HF (opt_many [u "--xml-schema"] (u "xml_schemas")) l s _ eq_refl eq_refl eq_refl eq_refl Er Hl). member.
Qed.

(** the two kinds of line that are not modelled *)
Lemma cut_told P ws st : fits_all P ws st ->
  (forall o, In o (ap_opts P) -> ao_dest o = u "truncation_length" -> ao_kind o = KOne /\ ao_int o = true /\ ao_default o = Some (AInt 3)) ->
  ~ In (u "truncation_length") (ap_pos P) ->
  kw_int (u "truncation_length") 3 (kwargs_from_parsed_args (ps_ns st)) = 3%Z
  \/ exists s, word_text ws s /\ parse_int s = Some (kw_int (u "truncation_length") 3 (kwargs_from_parsed_args (ps_ns st))).
Proof.
  intros HF Hall Hpos. unfold kw_int. rewrite (kwargs_get _ _ (fa_keys P ws st HF)).
  destruct (sget (u "truncation_length") (ps_ns st)) as [v|] eqn:E; [|left; reflexivity].
  assert (In (u "truncation_length") (map fst (defaults P))) as Hk.
  { apply (fa_only P ws st HF). apply sget_In in E. apply in_map_iff. eexists. split; [|exact E]. reflexivity. }
  unfold defaults in Hk. rewrite map_app in Hk. apply in_app_or in Hk as [Hk|Hk].
  - apply in_map_iff in Hk as ([k d] & Ek & Hk). cbn [fst] in Ek. subst k. apply in_flat_map in Hk as (o & Ho & Hk).
    destruct (ao_kind o) eqn:K; try (destruct Hk as [Hk|[]]; injection Hk as Hd _); [| | | |destruct Hk];
      destruct (Hall o Ho Hd) as (K1 & Hi & Hdef); try (rewrite K1 in K; discriminate K).
    destruct (fa_opts P ws st HF o Ho ltac:(unfold real; rewrite K1; discriminate)) as [[Es _]|(x & Es & Hv)]; rewrite Hd, E in Es; injection Es as ->.
    + left. rewrite Hdef. reflexivity.
    + right. unfold value_fits in Hv. rewrite K1 in Hv. destruct Hv as (s & Hg & Hw). exists s. split; [exact Hw|].
      unfold get_value in Hg. rewrite Hi in Hg. destruct (parse_int s); [|discriminate Hg]. injection Hg as <-. reflexivity.
  - rewrite map_map in Hk. cbn [fst] in Hk. rewrite map_id in Hk. contradiction.
Qed.
Lemma not_outside_take st o a : take_action st o a <> POutside.
Proof. unfold take_action. destruct (ao_kind o); try discriminate; destruct a; try discriminate; repeat match goal with |- context [match ?x with _ => _ end] => destruct x end; discriminate. Qed.
Lemma not_outside_takes l : forall st, take_actions st l <> POutside.
Proof.
  induction l as [|[o a] l IH]; intros st; cbn [take_actions]; [discriminate|]. pose proof (not_outside_take st o a) as H.
  destruct (take_action st o a); try discriminate; [contradiction|apply IH].
Qed.
Lemma not_outside_consume P st f o sep e rest : consume_optional P st f o sep e rest <> POutside.
Proof.
  unfold consume_optional. destruct (match e with None => _ | Some _ => _ end) as [[[acts last] extra]|]; [|discriminate].
  destruct (match last with None => _ | Some _ => _ end) as [[more n]|]; [|discriminate].
  pose proof (not_outside_takes (acts ++ more) st) as H. destruct (take_actions st (acts ++ more)); try discriminate. contradiction.
Qed.
Lemma not_outside_words P : forall l st skip, parse_words P st skip l <> POutside.
Proof.
  induction l as [|[w c] l IH]; intros st skip; cbn [parse_words]; [discriminate|]. destruct skip; [|apply IH].
  destruct c as [|f o sep e| |]; try apply IH; [|discriminate]. pose proof (not_outside_consume P st f o sep e l) as H.
  destruct (consume_optional P st f o sep e l) as [| | |[st' n]]; try discriminate; [contradiction|apply IH].
Qed.
Lemma not_outside_sub P ws : parse_sub P ws <> POutside.
Proof.
  unfold parse_sub. destruct (ambiguous (classified P ws)); [discriminate|]. pose proof (not_outside_words P (classified P ws) (start_state P) 0) as H.
  destruct (parse_words P (start_state P) 0 (classified P ws)) as [| | |s]; try discriminate; [contradiction|]. destruct (all_there P s); discriminate.
Qed.
Lemma not_outside_main : forall l st skip, parse_main st skip l <> POutside.
Proof.
  induction l as [|[w c] l IH]; intros st skip; cbn [parse_main]; [discriminate|]. destruct skip; [|apply IH].
  destruct c as [|f o sep e| |]; try apply IH; [| |discriminate].
  - destruct (sget w subparsers) as [P|]; [|discriminate]. pose proof (not_outside_sub P (map fst l)) as H. destruct (parse_sub P (map fst l)); try discriminate. contradiction.
  - pose proof (not_outside_consume main_parser st f o sep e l) as H.
    destruct (consume_optional main_parser st f o sep e l) as [| | |[st' n]]; try discriminate; [contradiction|apply IH].
Qed.
Theorem only_outside argv : call_for argv = POutside ->
  In (u "--") argv \/ exists s z, from_words argv s /\ parse_int s = Some z /\ (z < 0)%Z.
Proof.
  unfold call_for. destruct (parse_args argv) as [| | |[ns [[name sub]|]]] eqn:Ea; try discriminate.
  - intros _. left. unfold parse_args in Ea. destruct (str_mem (u "--") argv) eqn:Em; [apply str_mem_In; exact Em|].
    destruct (ambiguous (classified main_parser argv)); [discriminate|]. pose proof (not_outside_main (classified main_parser argv) (start_state main_parser) 0) as H.
    destruct (parse_main (start_state main_parser) 0 (classified main_parser argv)) as [| | |[st1 sub1]]; try discriminate; [contradiction|]. destruct (ps_extra st1); discriminate.
  - unfold parse_args in Ea. destruct (str_mem (u "--") argv); [discriminate|]. destruct (ambiguous (classified main_parser argv)); [discriminate|].
    destruct (parse_main (start_state main_parser) 0 (classified main_parser argv)) as [| | |[st1 sub1]] eqn:Em; try discriminate.
    destruct (ps_extra st1); [discriminate|]. injection Ea as _ ->. destruct (main_called _ _ _ _ _ _ Em) as (P & ws & st & Hn & Hs & -> & Hin). clear Em st1.
    intros H. right. unfold call_of in H.
    destruct (kw_int (u "truncation_length") 3 (kwargs_from_parsed_args (ps_ns st)) <? 0)%Z eqn:El.
    2: { destruct (str_eqb name (u "create-template")); [discriminate|]. destruct (str_eqb name (u "flatten")); discriminate. }
    apply Z.ltb_lt in El. clear H.
    assert (kw_int (u "truncation_length") 3 (kwargs_from_parsed_args (ps_ns st)) = 3%Z
            \/ exists s, word_text ws s /\ parse_int s = Some (kw_int (u "truncation_length") 3 (kwargs_from_parsed_args (ps_ns st)))) as [E|(s & Hw & E)].
    + apply sget_In in Hn. destruct Hn as [E|[E|[E|[]]]]; injection E as <- <-.
      * destruct template_ok as [_ HT]. destruct (fits_parsed template_parser template_command ws HT eq_refl ltac:(intros o _ _ []) st Hs) as [HF _].
        refine (cut_told template_parser ws st HF _ _); [ |intros []]. intros o Ho Hd. cbn [template_parser ap_opts] in Ho. repeat (destruct Ho as [<- |Ho]; [try discriminate Hd; repeat split; reflexivity|]). destruct Ho.
      * destruct flatten_ok as [_ HT].
        destruct (fits_parsed flatten_parser flatten_command ws HT eq_refl ltac:(apply (no_pos flatten_parser (u "input_name")); reflexivity) st Hs) as [HF _].
        refine (cut_told flatten_parser ws st HF _ _); [ |intros [X|[]]; discriminate X]. intros o Ho Hd. cbn [flatten_parser ap_opts] in Ho. repeat (destruct Ho as [<- |Ho]; [try discriminate Hd; repeat split; reflexivity|]). destruct Ho.
      * destruct unflatten_ok as [_ HT].
        destruct (fits_parsed unflatten_parser unflatten_command ws HT eq_refl ltac:(apply (no_pos unflatten_parser (u "input_name")); reflexivity) st Hs) as [HF _].
        refine (cut_told unflatten_parser ws st HF _ _); [ |intros [X|[]]; discriminate X]. intros o Ho Hd. cbn [unflatten_parser ap_opts] in Ho. repeat (destruct Ho as [<- |Ho]; [try discriminate Hd; repeat split; reflexivity|]). destruct Ho.
    + rewrite E in El. discriminate El.
    + exists s. eexists. split; [exact (text_from ws argv s Hin Hw)|]. split; [exact E|exact El].
Qed.
