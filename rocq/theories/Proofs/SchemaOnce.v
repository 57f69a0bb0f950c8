(** A schema whose fields have different plain names gives a column one title. *)
From Verif.Base Require Import PyStr PyNum PyVal PyDict Outcome.
From Verif.Model Require Import Flatten Titles Schema.
From Verif.Spec Require Import Headings Flat SchemaFields SchemaTitled.
From Verif.Proofs Require Import SchemaTrace SchemaRun SchemaColumns SchemaState SchemaTypes SchemaTotal SchemaReady SchemaCheck SchemaHeadings.

Lemma cut_eq (a b x y : str) : ~ In 47%N a -> ~ In 47%N b -> a ++ u "/" ++ x = b ++ u "/" ++ y -> a = b /\ x = y.
Proof.
  revert b. induction a as [|c a IH]; intros [|d b] Ha Hb E; cbn in E.
  - injection E as ->. auto.
  - injection E as <- _. destruct Hb. left. reflexivity.
  - injection E as -> _. destruct Ha. left. reflexivity.
  - injection E as -> E. destruct (IH b) as [-> ->]; [intros H; apply Ha; right; exact H|intros H; apply Hb; right; exact H|exact E|auto].
Qed.
Lemma cut_no (a b x : str) : ~ In 47%N a -> a <> b ++ u "/" ++ x.
Proof. intros H ->. apply H. apply in_or_app. right. left. reflexivity. Qed.

Section Once.
  Variable O : sopts.
  Definition slashless (S : sv) : Prop := forall T n v, within O S T -> property O T n v -> ~ In 47%N n.
  Definition once (S : sv) : Prop := forall T n v w, within O S T -> property O T n v -> property O T n w -> v = w.
  Lemma once_object S n v : property O S n v -> an_object O v -> slashless S /\ once S -> slashless v /\ once v.
  Proof. intros P Ob [A B]. split; [intros T m x W; apply (A T m x)|intros T m x y W; apply (B T m x y)]; eapply within_object; eauto. Qed.
  Lemma once_array S n v i : property O S n v -> objects v i -> slashless S /\ once S -> slashless i /\ once i.
  Proof. intros P Ob [A B]. split; [intros T m x W; apply (A T m x)|intros T m x y W; apply (B T m x y)]; eapply within_array; eauto. Qed.

  Lemma gives_once S f t : gives O S f t -> slashless S /\ once S -> forall t', gives O S f t' -> t = t'.
  Proof.
    induction 1 as [S n v ty P L|S n v f t P Ob G IH|S n v i f t P Ob G IH R]; intros H t' G';
      apply column_iff in G' as (n' & v' & P' & [(ty' & L' & E & ->)|[(Ob' & f' & t2 & G2 & E & ->)|(i' & f' & t2 & Ob' & G2 & _ & E & ->)]]);
      pose proof (proj1 H S _ _ (within_here O S) P) as N1; pose proof (proj1 H S _ _ (within_here O S) P') as N2.
    - rewrite <- E in P'. rewrite (proj2 H S n v v' (within_here O S) P P'). reflexivity.
    - destruct (cut_no _ _ _ N1 E).
    - exfalso. exact (cut_no n n' (u "0/" ++ f') N1 E).
    - destruct (cut_no _ _ _ N2 (eq_sym E)).
    - destruct (cut_eq n n' _ _ N1 N2 E) as [<- <-]. assert (v' = v) as -> by exact (proj2 H S n v' v (within_here O S) P' P). rewrite (IH (once_object _ _ _ P Ob H) t2 G2). reflexivity.
    - destruct (cut_eq n n' f (u "0/" ++ f') N1 N2 E) as [<- _]. assert (v' = v) as -> by exact (proj2 H S n v' v (within_here O S) P' P). destruct (proj2 (kinds_an_object O v Ob) _ Ob').
    - exfalso. exact (cut_no n' n (u "0/" ++ f) N2 (eq_sym E)).
    - destruct (cut_eq n n' (u "0/" ++ f) f' N1 N2 E) as [<- _]. assert (v' = v) as -> by exact (proj2 H S n v' v (within_here O S) P' P). destruct (proj2 (kinds_an_object O v Ob') _ Ob).
    - destruct (cut_eq n n' (u "0/" ++ f) (u "0/" ++ f') N1 N2 E) as [<- E1]. apply app_inv_head in E1 as <-. assert (v' = v) as -> by exact (proj2 H S n v' v (within_here O S) P' P).
      assert (i' = i) as -> by exact (proj2 (proj2 (proj2 (kinds_objects O v i Ob))) _ Ob'). rewrite (IH (once_array _ _ _ _ P Ob H) t2 G2). reflexivity.
  Qed.

  Lemma at_longer S p T q : objects_at O S p T q -> exists r, at_path q = at_path p ++ r.
  Proof.
    induction 1 as [S p|S p n v T q P Ob A (r & E)|S p n v i T q P Ob A (r & E)]; [exists []; rewrite app_nil_r; reflexivity| |]; rewrite E; unfold below; cbn [at_path]; rewrite <- app_assoc; eauto.
  Qed.
  Lemma longer_ne (a b c : str) : c <> [] -> a <> (a ++ c) ++ b.
  Proof. intros H E. rewrite <- app_assoc in E. rewrite <- (app_nil_r a) in E at 1. apply app_inv_head in E. symmetry in E. apply app_eq_nil in E as [-> _]. congruence. Qed.
  Lemma sep_ne (n s : str) c : n ++ s ++ [c] <> [].
  Proof. intros E. apply app_eq_nil in E as [_ E]. apply app_eq_nil in E as [_ E]. discriminate. Qed.
  Lemma places_once S p T q : objects_at O S p T q -> slashless S /\ once S -> forall T' q', objects_at O S p T' q' -> at_path q = at_path q' -> T = T' /\ q = q'.
  Proof.
    assert (Cut : forall (a n n' s s' r r' : str), ~ In 47%N n -> ~ In 47%N n' -> (a ++ n ++ u "/" ++ s) ++ r = (a ++ n' ++ u "/" ++ s') ++ r' -> n = n' /\ s ++ r = s' ++ r').
    { intros a n n' s s' r r' A B E. rewrite <- !app_assoc in E. apply app_inv_head in E. exact (cut_eq n n' (s ++ r) (s' ++ r') A B E). }
    induction 1 as [S p|S p n v T q P Ob A IH|S p n v i T q P Ob A IH]; intros H T' q' A' E;
      inversion A' as [S' p'|S' p' n' v' T2 q2 P' Ob' A2|S' p' n' v' i' T2 q2 P' Ob' A2]; subst.
    - auto.
    - exfalso. destruct (at_longer _ _ _ _ A2) as (r & Er). unfold below in Er; cbn [at_path] in Er. rewrite <- E in Er. exact (longer_ne _ _ _ (sep_ne n' [] 47%N) Er).
    - exfalso. destruct (at_longer _ _ _ _ A2) as (r & Er). unfold below in Er; cbn [at_path] in Er. rewrite <- E in Er. exact (longer_ne _ _ _ (sep_ne n' (u "/0") 47%N) Er).
    - exfalso. destruct (at_longer _ _ _ _ A) as (r & Er). unfold below in Er; cbn [at_path] in Er. rewrite E in Er. exact (longer_ne _ _ _ (sep_ne n [] 47%N) Er).
    - pose proof (proj1 H S _ _ (within_here O S) P) as N1. pose proof (proj1 H S _ _ (within_here O S) P') as N2.
      destruct (at_longer _ _ _ _ A) as (r & Er). destruct (at_longer _ _ _ _ A2) as (r' & Er'). unfold below in Er, Er'; cbn [at_path] in Er, Er'. rewrite Er, Er' in E.
      destruct (Cut (at_path p) n n' [] [] r r' N1 N2 E) as [<- _]. assert (v' = v) as -> by exact (proj2 H S n v' v (within_here O S) P' P).
      apply (IH (once_object _ _ _ P Ob H) T' q' A2). rewrite Er, Er'. exact E.
    - pose proof (proj1 H S _ _ (within_here O S) P) as N1. pose proof (proj1 H S _ _ (within_here O S) P') as N2.
      destruct (at_longer _ _ _ _ A) as (r & Er). destruct (at_longer _ _ _ _ A2) as (r' & Er'). unfold below in Er, Er'; cbn [at_path] in Er, Er'. rewrite Er, Er' in E.
      destruct (Cut (at_path p) n n' [] (u "0/") r r' N1 N2 E) as [<- _]. assert (v' = v) as -> by exact (proj2 H S n v' v (within_here O S) P' P). destruct (proj2 (kinds_an_object O v Ob) _ Ob').
    - exfalso. destruct (at_longer _ _ _ _ A) as (r & Er). unfold below in Er; cbn [at_path] in Er. rewrite E in Er. exact (longer_ne _ _ _ (sep_ne n (u "/0") 47%N) Er).
    - pose proof (proj1 H S _ _ (within_here O S) P) as N1. pose proof (proj1 H S _ _ (within_here O S) P') as N2.
      destruct (at_longer _ _ _ _ A) as (r & Er). destruct (at_longer _ _ _ _ A2) as (r' & Er'). unfold below in Er, Er'; cbn [at_path] in Er, Er'. rewrite Er, Er' in E.
      destruct (Cut (at_path p) n n' (u "0/") [] r r' N1 N2 E) as [<- _]. assert (v' = v) as -> by exact (proj2 H S n v' v (within_here O S) P' P). destruct (proj2 (kinds_an_object O v Ob') _ Ob).
    - pose proof (proj1 H S _ _ (within_here O S) P) as N1. pose proof (proj1 H S _ _ (within_here O S) P') as N2.
      destruct (at_longer _ _ _ _ A) as (r & Er). destruct (at_longer _ _ _ _ A2) as (r' & Er'). unfold below in Er, Er'; cbn [at_path] in Er, Er'. rewrite Er, Er' in E.
      destruct (Cut (at_path p) n n' (u "0/") (u "0/") r r' N1 N2 E) as [<- _]. assert (v' = v) as -> by exact (proj2 H S n v' v (within_here O S) P' P).
      assert (i' = i) as -> by exact (proj2 (proj2 (proj2 (kinds_objects O v i Ob))) _ Ob').
      apply (IH (once_array _ _ _ _ P Ob H) T' q' A2). rewrite Er, Er'. exact E.
  Qed.

  (** what a field has one of *)
  Lemma top_once S : (forall o, ~ alternatives S o) -> forall R, top S R -> R = S.
  Proof. intros NA R [(l & A & _)|[_ E]]; [destruct (NA _ A)|exact E]. Qed.
  Definition plain_schema (S : sv) : Prop := (forall o, ~ alternatives S o) /\ slashless S /\ once S.
  Theorem main_once S : plain_schema S -> forall c t, main_title O S c t -> only (main_title O S c) t.
  Proof.
    intros (NA & H) c t (R & HR & G). split; [exists R; auto|]. intros t' (R' & HR' & G'). rewrite (top_once S NA R HR) in G. rewrite (top_once S NA R' HR') in G'.
    pose proof (gives_once S _ _ G H _ G') as E. congruence.
  Qed.
  Lemma arrays_once S : plain_schema S -> forall q ids n v i ids' v' i', array_in O S q ids n v i -> array_in O S q ids' n v' i' -> v = v' /\ i = i' /\ ids = ids'.
  Proof.
    intros (NA & H) q ids n v i ids' v' i' (R & T & HR & A & P & Ob & ->) (R' & T' & HR' & A' & P' & Ob' & ->).
    rewrite (top_once S NA R HR) in A. rewrite (top_once S NA R' HR') in A'. destruct (places_once S whole T q A H T' q A' eq_refl) as [<- _].
    pose proof (proj2 H T n v v' (objects_within O _ _ _ _ A) P P') as <-. rewrite (proj2 (proj2 (proj2 (kinds_objects O v i Ob))) _ Ob'). auto.
  Qed.
  Lemma heading_once q n v f x a b : sub_heading O q n v f x a -> sub_heading O q n v f x b -> a = b.
  Proof.
    unfold sub_heading. destruct (so_titles O); [|congruence]. intros (a1 & b1 & x1 & A1 & B1 & C1 & ->) (a2 & b2 & x2 & A2 & B2 & C2 & ->). congruence.
  Qed.
  Lemma array_below S q ids n v i : array_in O S q ids n v i -> plain_schema S -> slashless i /\ once i.
  Proof.
    intros (R & T & HR & A & P & Ob & _) (NA & H1 & H2). rewrite (top_once S NA R HR) in A. pose proof (objects_within O _ _ _ _ A) as W.
    assert (Wi : forall X, within O i X -> within O S X) by (intros X HX; eapply within_trans; [exact W|]; eapply within_array; eauto).
    split; [intros X m x HX; apply (H1 X m x)|intros X m x y HX; apply (H2 X m x y)]; apply Wi; exact HX.
  Qed.
  Theorem item_once S : plain_schema S -> sheets_apart O S -> forall sn c t, item_title O S sn c t -> only (item_title O S sn c) t.
  Proof.
    intros Pl Ap sn c t H. split; [exact H|]. intros t' H'. destruct H as (q & ids & n & v & i & f & x & A & -> & G & -> & Hs). destruct H' as (q' & ids' & n' & v' & i' & f' & x' & A' & Es & G' & Ec & Hs').
    destruct (Ap _ _ _ _ _ _ _ _ _ _ A A' Es) as [<- <-]. destruct (arrays_once S Pl _ _ _ _ _ _ _ _ A A') as (<- & <- & _).
    apply app_inv_head in Ec. apply app_inv_head in Ec. apply app_inv_head in Ec as <-. pose proof (gives_once i _ _ G (array_below S q ids n v i A Pl) _ G') as <-. exact (heading_once _ _ _ _ _ _ _ Hs' Hs).
  Qed.
  Theorem sheet_once S : plain_schema S -> forall p n sn, sheet_title O S p n sn -> only (sheet_title O S p n) sn.
  Proof.
    intros (NA & H) p n sn Hs. split; [exact Hs|]. destruct Hs as (q & ids & v & i & a & (R & T & HR & A & P & Ob & _) & Ep & _ & ->). intros sn' (q' & ids' & v' & i' & a' & (R' & T' & HR' & A' & P' & Ob' & _) & Ep' & _ & ->).
    rewrite (top_once S NA R HR) in A. rewrite (top_once S NA R' HR') in A'. destruct (places_once S whole T q A H T' q' A' ltac:(congruence)) as [<- <-].
    rewrite (proj2 H T n v v' (objects_within O _ _ _ _ A) P P'). reflexivity.
  Qed.
  Lemma plain_of S : (forall o, ~ alternatives S o) -> keys_once O S -> worded O S -> plain_schema S.
  Proof.
    intros NA K W. assert (HT : top S S) by (right; auto). split; [exact NA|]. split.
    - intros T n v HW P. exact (proj1 (proj1 (property_worded O S W S T n v HT HW P))).
    - intros T n v w HW. exact (K S T n v w HT HW).
  Qed.

  (** a check *)
  Definition wordb (t : str) : bool := negb (mem_c 47%N t) && negb (mem_c 58%N t) && negb (str_eqb (trim t) (u "0")).
  Lemma wordb_ok t : wordb t = true -> word t.
  Proof.
    unfold wordb, word. intros H. apply andb_true_iff in H as [H C]. apply andb_true_iff in H as [A B].
    assert (M : forall c, negb (mem_c c t) = true -> ~ In c t) by (intros c Hc X; assert (Y : mem_c c t = true) by (apply existsb_exists; exists c; auto using N.eqb_refl); rewrite Y in Hc; discriminate).
    split; [apply M; exact A|]. split; [apply M; exact B|]. destruct (str_eqb_spec (trim t) (u "0")); [discriminate|assumption].
  Qed.
  Definition wordedb (n : str) (v : sv) : bool :=
    negb (mem_c 47%N n) && negb (str_eqb n (u "0")) && match title_of v with Some t => wordb t | None => true end &&
    match ent (u "title") v with Some (VS (SStr t)) => wordb t | _ => true end &&
    (negb (typedb (u "object") v || typedb (u "array") v) || match title_of v with Some _ => true | None => false end).
  Lemma worded_ok S : noaltb S = true -> all_within O S (fun T => match ent (u "properties") T with Some (VO _ d) => forallb (fun nv => wordedb (fst nv) (snd nv)) d | _ => true end) = true -> worded O S.
  Proof.
    intros Na H R T r d n v Tp HW E Hin. rewrite (top_noalt S R Na Tp) in HW. pose proof (all_within_ok O S _ H T HW) as Q. cbn beta in Q. apply ent_entry in E. rewrite E in Q. rewrite forallb_forall in Q. specialize (Q _ Hin). cbn [fst snd] in Q.
    unfold wordedb in Q. apply andb_true_iff in Q as [Q Q5]. apply andb_true_iff in Q as [Q Q4]. apply andb_true_iff in Q as [Q Q3]. apply andb_true_iff in Q as [Q1 Q2].
    split; [intros X; assert (Y : mem_c 47%N n = true) by (apply existsb_exists; exists 47%N; auto using N.eqb_refl); rewrite Y in Q1; discriminate|].
    split; [intros ->; discriminate Q2|]. split; [intros t Et; rewrite Et in Q3; apply wordb_ok; exact Q3|].
    split; [intros r' e t -> Et; cbn [ent] in Q4; rewrite Et in Q4; apply wordb_ok; exact Q4|].
    intros Ob. assert (Y : typedb (u "object") v || typedb (u "array") v = true) by (apply orb_true_iff; destruct Ob as [[Ty _]|(i & (_ & Ty & _) & _)]; [left|right]; apply typedb_ok; exact Ty).
    rewrite Y in Q5. cbn in Q5. destruct (title_of v); [discriminate|discriminate Q5].
  Qed.
End Once.
