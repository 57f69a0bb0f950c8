(** Consequences for well-behaved schemas: a path is of one kind; the sheets made
    from the schema are what the flattener needs. *)
From Verif.Base Require Import PyStr PyNum PyVal PyDict Outcome.
From Verif.Model Require Import Flatten Titles Schema.
From Verif.Spec Require Import Headings Flat SchemaFields.
From Verif.Proofs Require Import SchemaTrace SchemaRun SchemaColumns SchemaState SchemaTypes.

Section Ready.
  Variable O : sopts.

  Lemma objects_within S P T q : objects_at O S P T q -> within O S T.
  Proof. induction 1; [apply within_here|eapply within_object; eauto|eapply within_array; eauto]. Qed.
  Lemma named_fields_named S : named_fields O S -> named O S.
  Proof. intros N R T T0 q n v A B. apply (N R T0 n v T); [|exact B]. eapply objects_within. exact A. Qed.

  (** ** One kind *)
  Lemma along_names_ne S p v : along O S p v -> names_of p <> [].
  Proof. destruct 1; discriminate. Qed.
  Lemma along_once S p v : along O S p v -> (forall T n v w, within O S T -> property O T n v -> property O T n w -> v = w) ->
    forall p' v', along O S p' v' -> names_of p = names_of p' -> v = v'.
  Proof.
    induction 1 as [S n v Hp|S n v p w Hp Ho A IH|S n v i k p w Hp Ho A IH]; intros U p' v' A' E.
    - destruct A' as [S n' v' Hp'|S n' v' p' w' Hp' Ho' A'|S n' v' i' k' p' w' Hp' Ho' A']; cbn in E.
      + injection E as <-. apply (U S n); auto using within_here.
      + injection E as _ E. symmetry in E. destruct (along_names_ne _ _ _ A' E).
      + injection E as _ E. symmetry in E. destruct (along_names_ne _ _ _ A' E).
    - destruct A' as [S n' v' Hp'|S n' v' p' w' Hp' Ho' A'|S n' v' i' k' p' w' Hp' Ho' A']; cbn in E.
      + injection E as _ E. destruct (along_names_ne _ _ _ A E).
      + injection E as <- E. assert (v' = v) as -> by (apply (U S n); auto using within_here). apply (IH (fun T m a b X => U T m a b (within_object _ _ _ _ _ Hp Ho X)) p'); auto.
      + injection E as <- E. assert (v' = v) as -> by (apply (U S n); auto using within_here). destruct (kinds_an_object O _ Ho) as [_ Q]. destruct (Q _ Ho').
    - destruct A' as [S n' v' Hp'|S n' v' p' w' Hp' Ho' A'|S n' v' i' k' p' w' Hp' Ho' A']; cbn in E.
      + injection E as _ E. destruct (along_names_ne _ _ _ A E).
      + injection E as <- E. assert (v' = v) as -> by (apply (U S n); auto using within_here). destruct (kinds_an_object O _ Ho') as [_ Q]. destruct (Q _ Ho).
      + injection E as <- E. assert (v' = v) as -> by (apply (U S n); auto using within_here). destruct (kinds_objects O _ _ Ho) as (_ & _ & _ & Q). rewrite (Q _ Ho') in A'.
        apply (IH (fun T m a b X => U T m a b (within_array _ _ _ _ _ _ Hp Ho X)) p'); auto.
  Qed.
  Lemma names_text S S' p p' v v' : plains O S -> plains O S' -> along O S p v -> along O S' p' v' -> path_text p = path_text p' -> names_of p = names_of p'.
  Proof.
    intros N N' A A' E. unfold path_text in E. change (u "/") with [47%N] in E. change (join [47%N] (names_of p) = join [47%N] (names_of p')) in E.
    assert (Q : forall S p v, plains O S -> along O S p v -> split_on 47%N (join [47%N] (names_of p)) = names_of p).
    { intros S0 p0 v0 N0 A0. apply split_join; [eapply along_names_ne; exact A0|]. intros x Hx. unfold names_of in Hx. apply in_flat_map in Hx as (s & Hs & Hx). destruct s as [k|]; [|destruct Hx]. destruct Hx as [<-|[]].
      destruct (along_plain O _ _ _ N0 A0 _ Hs) as [_ X]. exact X. }
    rewrite <- (Q _ _ _ N A), <- (Q _ _ _ N' A'), E. reflexivity.
  Qed.
  Theorem one_kind_clear S : plain_names O S -> keys_once O S -> (forall o, ~ alternatives S o) -> forall k, one_kind O S k.
  Proof.
    intros N K NA k R R' p p' v v' t t' T T' A A' E E' Kv Kv'.
    assert (R = S) as ->. { destruct T as [(l & Al & _)|[_ Q]]; [destruct (NA _ Al)|exact Q]. }
    assert (R' = S) as ->. { destruct T' as [(l & Al & _)|[_ Q]]; [destruct (NA _ Al)|exact Q]. }
    assert (v = v') as <-. { apply (along_once S p v A) with (p' := p'); auto; [intros T0 n a b W; apply (K S T0 n a b T W)|]. eapply (names_text S S); eauto using plains_named. congruence. }
    eapply kind_fun; eauto.
  Qed.

  (** ** Ready for the flattener *)
  Definition id_like (P c : str) : Prop := exists a b, P = a ++ b /\ c = a ++ u "id" /\ (a = [] \/ In 47%N a).
  Lemma ids_at_like S p : so_titles O = false -> (forall c, In c (at_ids p) -> id_like (at_path p) c) -> (at_path p = [] \/ In 47%N (at_path p)) ->
    forall c, In c (ids_at O S p) -> id_like (at_path p) c.
  Proof.
    intros F H Hp c. unfold ids_at. destruct S as [|?|r d]; try exact (H c). destruct (sget (u "properties") d) as [[|?|r' ps]|]; try exact (H c). destruct (sget (u "id") ps); [|exact (H c)].
    rewrite F. intros Hc. apply in_app_or in Hc as [Hc|[<-|[]]]; [exact (H c Hc)|]. exists (at_path p), []. rewrite app_nil_r. auto.
  Qed.
  Lemma below_like S p n v sep : so_titles O = false -> (forall c, In c (at_ids p) -> id_like (at_path p) c) -> (at_path p = [] \/ In 47%N (at_path p)) -> In 47%N sep ->
    (forall c, In c (at_ids (below O S p n v sep)) -> id_like (at_path (below O S p n v sep)) c) /\ (at_path (below O S p n v sep) = [] \/ In 47%N (at_path (below O S p n v sep))).
  Proof.
    intros F H Hp Hs. split; [|right; cbn; rewrite !in_app_iff; auto]. cbn. intros c Hc. destruct (ids_at_like S p F H Hp c Hc) as (a & b & E & E2 & Ha). exists a, (b ++ n ++ sep). rewrite E. repeat split; auto. rewrite !app_assoc. reflexivity.
  Qed.
  Lemma objects_at_like S p T q : objects_at O S p T q -> so_titles O = false -> (forall c, In c (at_ids p) -> id_like (at_path p) c) -> (at_path p = [] \/ In 47%N (at_path p)) ->
    (forall c, In c (at_ids q) -> id_like (at_path q) c) /\ (at_path q = [] \/ In 47%N (at_path q)).
  Proof.
    induction 1 as [S p|S p n v T q Hp Ho A IH|S p n v i T q Hp Ho A IH]; intros F H1 H2; [auto| |];
      apply IH; auto; apply (below_like S p n v _ F H1 H2); cbn; auto.
  Qed.
  Lemma array_in_like S q ids n v i : so_titles O = false -> array_in O S q ids n v i -> forall c, In c ids -> id_like (at_path q) c.
  Proof.
    intros F (R & T & _ & A & _ & _ & ->) c. destruct (objects_at_like _ _ _ _ A F) as [H1 H2]; [intros ? []|left; reflexivity|]. apply ids_at_like; assumption.
  Qed.
  Lemma NoDup_three (a b c : list str) : NoDup a -> NoDup b -> NoDup c -> (forall x, In x a -> ~ In x b /\ ~ In x c) -> (forall x, In x b -> ~ In x c) -> NoDup (a ++ b ++ c).
  Proof.
    assert (Q : forall a b : list str, NoDup a -> NoDup b -> (forall x, In x a -> ~ In x b) -> NoDup (a ++ b)).
    { clear. induction a as [|x a IH]; intros b Ha Hb H; [exact Hb|]. cbn. inversion Ha; subst. constructor; [rewrite in_app_iff; intros [?|Hx]; [contradiction|apply (H x); [left; reflexivity|exact Hx]]|]. apply IH; auto. intros y Hy. apply H. right. exact Hy. }
    intros Ha Hb Hc H1 H2. apply Q; [exact Ha|apply Q; assumption|]. intros x Hx. rewrite in_app_iff. destruct (H1 x Hx). tauto.
  Qed.
  Theorem parsed_ready S st w : parse_schema O S = Ok st w -> named_fields O S -> sheets_apart O S -> so_titles O = false ->
    ~ In 47%N (so_root_id O) -> so_root_id O <> u "id" -> forall P, po_schema P = Some (schema_info_of st) -> schema_ready P.
  Proof.
    intros H N0 A F R1 R2 P HP. unfold schema_ready. rewrite HP. clear HP. pose proof (named_fields_named S N0) as N. unfold schema_info_of, schema_ready. cbn [sci_subs sci_main].
    pose proof (sub_ids O S st w H N) as Hi. pose proof (sub_columns O S st w H N) as Hc.
    destruct (parse_facts O S st w H N) as (tr & R & Or & _ & _). destruct (runs_state O tr _ _ _ _ [] R (start_good O) (Or []) (fun _ H => match H with end)) as (G & _).
    destruct G as (G1 & G2 & (G3 & _ & G4 & _) & G5). split; [exact G1|]. split; [unfold header; rewrite G4, G5; exact G3|].
    apply Forall_forall. intros [sn s] Hs. cbn [snd]. pose proof (In_sget _ _ _ G1 Hs) as Es. destruct (G2 sn s Es) as (L1 & L2 & L3 & L4). split; [exact L4|].
    unfold header. rewrite L3. specialize (Hi sn s Es). specialize (Hc sn s Es).
    assert (Qi : forall c, In c (sh_idcols s) -> exists q ids n v i, array_in O S q ids n v i /\ sn = sheet_of O q n v /\ id_like (at_path q) c).
    { intros c X. apply Hi in X as (q & ids & n & v & i & X1 & X2 & X3). exists q, ids, n, v, i. split; [exact X1|]. split; [exact X2|]. eapply array_in_like; eauto. }
    assert (Qc : forall c, In c (sh_cols s) -> exists q ids n v i f, array_in O S q ids n v i /\ sn = sheet_of O q n v /\ c = at_path q ++ n ++ u "/0/" ++ f).
    { intros c X. apply Hc in X as (q & ids & n & v & i & f & t & X1 & X2 & _ & X3). unfold sub_heading in X3. rewrite F in X3. exists q, ids, n, v, i, f. auto. }
    apply NoDup_three; auto.
    - destruct (so_root_id O); [constructor|repeat constructor; intros []].
    - intros x Hx. assert (x = so_root_id O) as -> by (destruct (so_root_id O); [destruct Hx|destruct Hx as [<-|[]]; reflexivity]). split.
      + intros X. destruct (Qi _ X) as (q & ids & n & v & i & _ & _ & a & b & _ & E & [-> |Ha]); [exact (R2 E)|]. apply R1. rewrite E. apply in_or_app. auto.
      + intros X. destruct (Qc _ X) as (q & ids & n & v & i & f & _ & _ & E). apply R1. rewrite E, !in_app_iff. right. right. left. cbn. auto.
    - intros x X Y. destruct (Qi _ X) as (q & ids & n & v & i & A1 & E1 & a & b & E2 & E3 & _). destruct (Qc _ Y) as (q' & ids' & n' & v' & i' & f & A2 & E4 & E5).
      destruct (A _ _ _ _ _ _ _ _ _ _ A1 A2) as [<- <-]; [congruence|]. rewrite E3, E2 in E5. apply (f_equal (@List.length BinNums.N)) in E5. rewrite !app_length in E5. cbn in E5.
      destruct A1 as (R0 & T0 & T1 & T2 & T3 & _). pose proof (N0 R0 T0 n v T1 (objects_within _ _ _ _ T2) T3). destruct n; [congruence|]. cbn in E5. lia.
  Qed.
End Ready.
