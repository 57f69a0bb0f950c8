(** The sheets made from a schema with titles are what the flattener needs. *)
From Verif.Base Require Import PyStr PyNum PyVal PyDict Outcome.
From Verif.Model Require Import Flatten Titles Schema.
From Coq Require Import Permutation.
From Verif.Spec Require Import Headings Flat SchemaFields SchemaTitled Titled TitledTrip.
From Verif.Proofs Require Import SchemaTrace SchemaRun SchemaColumns SchemaState SchemaReady.

Section TitledReady.
  Variable O : sopts.
  Hypothesis F : so_titles O = true.

  (** an id column of an object inside others: the titles of some of these, then a word *)
  Definition under (a c : str) : Prop := exists a' rest x, a = a' ++ rest /\ c = a' ++ x /\ ~ In 58%N x.
  Definition marked (c : str) : Prop := In 47%N c \/ In 58%N c.
  Definition deep (q : place) : Prop := In 47%N (at_path q) /\ forall a, at_titles q = Some a -> In 58%N a.

  Lemma own_id S p c : In c (ids_at O S p) -> In c (at_ids p) \/
    exists r d ps i, S = VO r d /\ (exists r', sget (u "properties") d = Some (VO r' ps)) /\ sget (u "id") ps = Some i /\
      c = (match at_titles p with Some t => t | None => at_path p end) ++ match i with VO _ e => match sget (u "title") e with Some (VS (SStr (c :: t))) => c :: t | _ => u "id" end | _ => u "id" end.
  Proof.
    unfold ids_at. destruct S as [|?|r d]; auto. destruct (sget (u "properties") d) as [[|?|r' ps]|] eqn:Ep; auto. destruct (sget (u "id") ps) as [i|] eqn:Ei; auto.
    intros H. apply in_app_or in H as [H|[<-|[]]]; [auto|]. right. exists r, d, ps, i. split; [reflexivity|]. split; [eauto|]. split; [exact Ei|]. rewrite F. reflexivity.
  Qed.

  Section In.
    Variables (S0 : sv).
    Hypothesis W : worded O S0.
    Hypothesis R0 : sv.
    Hypothesis TR : top S0 R0.

    Lemma id_word S r d r' ps i : within O R0 S -> S = VO r d -> sget (u "properties") d = Some (VO r' ps) -> sget (u "id") ps = Some i ->
      ~ In 58%N (match i with VO _ e => match sget (u "title") e with Some (VS (SStr (c :: t))) => c :: t | _ => u "id" end | _ => u "id" end).
    Proof.
      intros Hw -> Ep Ei. assert (Q : ~ In 58%N (u "id")) by (intros [H|[H|[]]]; discriminate H). destruct i as [|?|r2 e]; auto. destruct (sget (u "title") e) as [[[| | | | |[|x t]|]|?|? ?]|] eqn:Et; auto.
      destruct (W R0 (VO r d) r' ps (u "id") (VO r2 e) TR Hw) as (_ & _ & _ & Wt & _); [exists r, d; auto|apply sget_In; exact Ei|]. destruct (Wt r2 e _ eq_refl Et) as (_ & C & _). exact C.
    Qed.
    Definition below_under (q : place) : Prop := forall c a, at_titles q = Some a -> In c (at_ids q) -> under a c.
    Definition first_or_marked (q : place) : Prop := forall c, In c (at_ids q) -> In c (ids_at O R0 whole) \/ marked c.
    Lemma ids_under S q : within O R0 S -> below_under q -> forall c a, at_titles q = Some a -> In c (ids_at O S q) -> under a c.
    Proof.
      intros Hw B c a E H. apply own_id in H as [H|(r & d & ps & i & ES & (r' & Ep) & Ei & ->)]; [eapply B; eauto|]. rewrite E. exists a, [], (match i with VO _ e => match sget (u "title") e with Some (VS (SStr (c :: t))) => c :: t | _ => u "id" end | _ => u "id" end).
      rewrite app_nil_r. split; [reflexivity|]. split; [reflexivity|]. eapply id_word; eauto.
    Qed.
    Lemma ids_marked S q : (q = whole /\ S = R0) \/ deep q -> first_or_marked q -> forall c, In c (ids_at O S q) -> In c (ids_at O R0 whole) \/ marked c.
    Proof.
      intros [[-> ->]|[D1 D2]] B c H; [auto|]. apply own_id in H as [H|(r & d & ps & i & ES & _ & _ & ->)]; [auto|]. right. unfold marked. rewrite !in_app_iff.
      destruct (at_titles q) as [a|]; [right|left]; left; auto.
    Qed.
    Lemma objects_good S p T q : objects_at O S p T q -> within O R0 S -> ((p = whole /\ S = R0) \/ deep p) -> below_under p -> first_or_marked p ->
      within O R0 T /\ ((q = whole /\ T = R0) \/ deep q) /\ below_under q /\ first_or_marked q.
    Proof.
      assert (St : forall S p n v sep, within O R0 S -> ((p = whole /\ S = R0) \/ deep p) -> below_under p -> first_or_marked p -> In 47%N sep ->
        deep (below O S p n v sep) /\ below_under (below O S p n v sep) /\ first_or_marked (below O S p n v sep)).
      { intros S1 p1 n v sep Hw D B M Hs. split; [|split].
        - split; [cbn; rewrite !in_app_iff; auto|]. cbn. intros a. destruct (at_titles p1) as [a1|]; [|discriminate]. destruct (title_of v) as [b|]; [|discriminate]. intros [= <-]. rewrite !in_app_iff. right. right. left. reflexivity.
        - intros c a. cbn. destruct (at_titles p1) as [a1|] eqn:E1; [|discriminate]. destruct (title_of v) as [b|]; [|discriminate]. intros [= <-] H.
          destruct (ids_under S1 p1 Hw B c a1 E1 H) as (a' & rest & x & -> & -> & Hx). exists a', (rest ++ b ++ u ":"), x. rewrite !app_assoc. auto.
        - intros c H. exact (ids_marked S1 p1 D M c H). }
      induction 1 as [S p|S p n v T q Hp Ho A IH|S p n v i T q Hp Ho A IH]; intros Hw D B M; [auto| |].
      - destruct (St S p n v (u "/") Hw D B M) as (D' & B' & M'); [left; reflexivity|]. apply IH; auto.
        clear - Hw Hp Ho. induction Hw as [S1|S1 n1 v1 T1 P1 O1 W1 IW|S1 n1 v1 i1 T1 P1 O1 W1 IW]; [eapply within_object; eauto; apply within_here|eapply within_object; eauto|eapply within_array; eauto].
      - destruct (St S p n v (u "/0/") Hw D B M) as (D' & B' & M'); [left; reflexivity|]. apply IH; auto.
        clear - Hw Hp Ho. induction Hw as [S1|S1 n1 v1 T1 P1 O1 W1 IW|S1 n1 v1 i1 T1 P1 O1 W1 IW]; [eapply within_array; eauto; apply within_here|eapply within_object; eauto|eapply within_array; eauto].
    Qed.
  End In.

  Lemma array_ids S q ids n v i : worded O S -> array_in O S q ids n v i -> forall c, In c ids ->
    (forall a, at_titles q = Some a -> under a c) /\ ((exists R, top S R /\ In c (ids_at O R whole)) \/ marked c).
  Proof.
    intros W (R & T & TR & A & _ & _ & ->) c H.
    destruct (objects_good S W R TR R whole T q A) as (Hw & D & B & M); [apply within_here|auto|intros x a _ []|intros x []|]. split.
    - intros a E. eapply ids_under; eauto.
    - destruct (ids_marked R T q D M c H); eauto.
  Qed.

  Theorem titled_parsed_ready S st w : parse_schema O S = Ok st w -> named_fields O S -> worded O S -> sheets_apart O S ->
    ~ In 47%N (so_root_id O) -> ~ In 58%N (so_root_id O) -> (forall R, top S R -> ~ In (so_root_id O) (ids_at O R whole)) ->
    forall P, po_schema P = Some (schema_info_of st) -> schema_ready P.
  Proof.
    intros H N0 Wd A R1 R2 R3 P HP. unfold schema_ready. rewrite HP. clear HP. pose proof (named_fields_named O S N0) as N. unfold schema_info_of. cbn [sci_subs sci_main].
    pose proof (sub_ids O S st w H N) as Hi. pose proof (sub_columns O S st w H N) as Hc.
    destruct (parse_facts O S st w H N) as (tr & R & Or & _ & _). destruct (runs_state O tr _ _ _ _ [] R (start_good O) (Or []) (fun _ H => match H with end)) as (G & _).
    destruct G as (G1 & G2 & (G3 & _ & G4 & _) & G5). split; [exact G1|]. split; [unfold header; rewrite G4, G5; exact G3|].
    apply Forall_forall. intros [sn s] Hs. cbn [snd]. pose proof (In_sget _ _ _ G1 Hs) as Es. destruct (G2 sn s Es) as (L1 & L2 & L3 & L4). split; [exact L4|].
    unfold header. rewrite L3. specialize (Hi sn s Es). specialize (Hc sn s Es).
    assert (Qi : forall c, In c (sh_idcols s) -> exists q ids n v i, array_in O S q ids n v i /\ sn = sheet_of O q n v /\
      (forall a, at_titles q = Some a -> under a c) /\ ((exists R, top S R /\ In c (ids_at O R whole)) \/ marked c)).
    { intros c X. apply Hi in X as (q & ids & n & v & i & X1 & X2 & X3). exists q, ids, n, v, i. split; [exact X1|]. split; [exact X2|]. eapply array_ids; eauto. }
    assert (Qc : forall c, In c (sh_cols s) -> exists q ids n v i a b x, array_in O S q ids n v i /\ sn = sheet_of O q n v /\ at_titles q = Some a /\ c = a ++ b ++ u ":" ++ x).
    { intros c X. apply Hc in X as (q & ids & n & v & i & f & t & X1 & X2 & _ & X3). unfold sub_heading in X3. rewrite F in X3. destruct X3 as (a & b & x & X3 & _ & _ & X4). exists q, ids, n, v, i, a, b, x. auto. }
    apply NoDup_three; auto.
    - destruct (so_root_id O); [constructor|repeat constructor; intros []].
    - intros x Hx. assert (x = so_root_id O) as -> by (destruct (so_root_id O); [destruct Hx|destruct Hx as [<-|[]]; reflexivity]). split.
      + intros X. destruct (Qi _ X) as (q & ids & n & v & i & _ & _ & _ & [(R0 & T0 & X0)|[X0|X0]]); [exact (R3 R0 T0 X0)|exact (R1 X0)|exact (R2 X0)].
      + intros X. destruct (Qc _ X) as (q & ids & n & v & i & a & b & y & _ & _ & _ & E). apply R2. rewrite E, !in_app_iff. right. right. left. left. reflexivity.
    - intros x X Y. destruct (Qi _ X) as (q & ids & n & v & i & A1 & E1 & U & _). destruct (Qc _ Y) as (q' & ids' & n' & v' & i' & a & b & y & A2 & E4 & E5 & E6).
      destruct (A _ _ _ _ _ _ _ _ _ _ A1 A2) as [<- <-]; [congruence|]. destruct (U a E5) as (a' & rest & z & E7 & E8 & Hz). rewrite E7, E8, <- app_assoc in E6. apply app_inv_head in E6. apply Hz. rewrite E6, !in_app_iff. right. right. left. left. reflexivity.
  Qed.
End TitledReady.

Theorem titled_run_ready SO S st w O : parse_schema SO S = Ok st w -> so_titles SO = true -> po_titles O = true -> po_schema O = Some (schema_info_of st) ->
  readable_titles SO S -> ~ In 47%N (so_root_id SO) -> ~ In 58%N (so_root_id SO) -> (forall i, property SO S (u "id") i -> title_of i <> Some (so_root_id SO)) ->
  po_xml O = false -> po_wkt O = false -> (forall l, Permutation l (po_set_order O l)) -> po_rollup O = [] -> po_filter O = None -> po_preserve O = [] ->
  own_words SO S (po_root_id O) -> own_words SO S (po_id_name O) -> titled_run SO S O.
Proof.
  intros E T1 T2 Hsc (C & K & PN & NF & W & A & I & _) R1 R2 R3 X1 X2 Pm Ro Fi Pr W1 W2.
  split; [exists st, w; auto|]. split; [|auto 8]. split; [|auto].
  apply (titled_parsed_ready SO T1 S st w E NF W A R1 R2); [|exact Hsc].
  intros R [(l & Al & _)|[_ ->]]; [destruct (proj1 C _ Al)|]. intros H. apply own_id in H as [[]|(r & d & ps & i & ES & (r' & Ep) & Ei & Q)]; [|exact T1].
  destruct (I S r' ps i) as (Hp & _ & r2 & e & t & -> & Et & Ht); [apply within_here|exists r, d; auto|exact Ei|]. apply (R3 _ Hp). rewrite Ht. f_equal. cbn [at_titles whole app] in Q. rewrite Et in Q.
  destruct t as [|x t]; [|symmetry; exact Q]. exfalso. clear - Et Ht. unfold title_of in Ht. destruct (own_title (VO r2 e)) as [[[| | | | |[|? ?]|]|?|? ?]|]; discriminate Ht.
Qed.
