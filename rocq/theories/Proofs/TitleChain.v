(** Fields of a schema that have titles all the way, and the headings they give. *)
From Coq Require Import Lia.
From Verif.Base Require Import PyStr PyNum PyVal PyDict Outcome.
From Verif.Model Require Import Flatten Titles Schema.
From Verif.Spec Require Import Headings SchemaFields SchemaTitled.
From Verif.Proofs Require Import SchemaTrace SchemaColumns SchemaTypes SchemaTitles SchemaLines SchemaReady SchemaHeadings SchemaOnce.

Definition keys (p : hpath) : list str := flat_map (fun s => match s with HKey k => [k] | HPos _ => [] end) p.
Definition hpart (s : hstep) : str := match s with HKey k => k | HPos _ => u "0" end.
Definition joint (l : list str) : str := join (u ":") l.
Lemma joint_cons t l : l <> [] -> joint (t :: l) = t ++ u ":" ++ joint l.
Proof. destruct l; [congruence|reflexivity]. Qed.
Lemma joint_prefix a l : l <> [] -> joint (a ++ l) = prefix a ++ joint l.
Proof.
  intros Hl. induction a as [|x a IH]; [reflexivity|]. cbn [app prefix flat_map]. rewrite joint_cons by (destruct a; [exact Hl|discriminate]). rewrite IH. unfold prefix. rewrite <- !app_assoc. reflexivity.
Qed.

Section Chain.
  Variable SO : sopts.
  Inductive chain : sv -> hpath -> list str -> Prop :=
  | chain_leaf S n v ty t : property SO S n v -> leaf SO v ty -> title_of v = Some t -> chain S [HKey n] [t]
  | chain_object S n v t p ts : property SO S n v -> an_object SO v -> title_of v = Some t -> chain v p ts -> chain S (HKey n :: p) (t :: ts)
  | chain_array S n v i t p ts : property SO S n v -> objects v i -> title_of v = Some t -> chain i p ts -> chain S (HKey n :: HPos 0 :: p) (t :: ts).

  Lemma chain_ne S p ts : chain S p ts -> p <> [] /\ ts <> [] /\ keys p <> [].
  Proof. intros []; repeat split; discriminate. Qed.
  Lemma chain_inv S p ts : chain S p ts -> exists n v t, property SO S n v /\ title_of v = Some t /\
    ((exists ty, leaf SO v ty /\ p = [HKey n] /\ ts = [t]) \/
     (exists p' ts', an_object SO v /\ chain v p' ts' /\ p = HKey n :: p' /\ ts = t :: ts') \/
     (exists i p' ts', objects v i /\ chain i p' ts' /\ p = HKey n :: HPos 0 :: p' /\ ts = t :: ts')).
  Proof. intros [S0 n v ty t P L T|S0 n v t p' ts' P Ob T C|S0 n v i t p' ts' P Ob T C]; exists n, v, t; (split; [exact P|]); (split; [exact T|]); [left|right; left|right; right]; eauto 8. Qed.

  Lemma leaf_alone v ty c : leaf SO v ty -> ~ holds SO v c.
  Proof.
    intros L [[Ob _]|Ob].
    - pose proof (kind_fun SO v _ _ (kind_leaf SO v ty L) (kind_object SO v Ob)) as E. apply leaf_not_object in L. rewrite E in L. discriminate.
    - pose proof (kind_fun SO v _ _ (kind_leaf SO v ty L) (kind_array SO v c Ob)) as E. inversion L; subst; discriminate.
  Qed.
  Lemma kinds_apart v i : an_object SO v -> objects v i -> False.
  Proof. intros [A _] [[B _] _]. contradiction. Qed.
  Lemma objects_fun v i j : objects v i -> objects v j -> i = j.
  Proof. intros [(_ & _ & (r & d & -> & E)) _] [(_ & _ & (r' & d' & E' & E2)) _]. injection E' as <- <-. congruence. Qed.

  (** what is known of all the fields within a schema *)
  Lemma within_objects S n v T : property SO S n v -> an_object SO v -> within SO v T -> within SO S T.
  Proof. intros. eapply within_object; eauto. Qed.
  Definition each (S : sv) (Pr : sv -> str -> sv -> Prop) : Prop := forall T n v, within SO S T -> property SO T n v -> Pr T n v.
  Lemma each_object S n v Pr : property SO S n v -> an_object SO v -> each S Pr -> each v Pr.
  Proof. intros P Ob A T m x W. apply (A T m x). eapply within_object; eauto. Qed.
  Lemma each_array S n v i Pr : property SO S n v -> objects v i -> each S Pr -> each i Pr.
  Proof. intros P Ob A T m x W. apply (A T m x). eapply within_array; eauto. Qed.
  Lemma each_here S n v Pr : each S Pr -> property SO S n v -> Pr S n v.
  Proof. intros A P. apply (A S n v); [apply within_here|exact P]. Qed.

  Lemma chain_titles S p ts : chain S p ts -> forall Pt : str -> Prop, each S (fun _ _ v => forall t, title_of v = Some t -> Pt t) -> Forall Pt ts.
  Proof.
    induction 1 as [S n v ty t P L T|S n v t p ts P Ob T C IH|S n v i t p ts P Ob T C IH]; intros Pt H; constructor.
    all: try (exact (each_here _ _ _ _ H P t T)).
    - constructor.
    - apply IH. eapply each_object; eauto.
    - apply IH. eapply each_array; eauto.
  Qed.
  Lemma chain_keys S p ts : chain S p ts -> forall Pn : str -> Prop, each S (fun _ n _ => Pn n) -> Forall Pn (keys p).
  Proof.
    induction 1 as [S n v ty t P L T|S n v t p ts P Ob T C IH|S n v i t p ts P Ob T C IH]; intros Pn H; unfold keys; cbn [flat_map app]; constructor.
    all: try (exact (each_here _ _ _ _ H P)).
    - constructor.
    - apply IH. eapply each_object; eauto.
    - apply IH. eapply each_array; eauto.
  Qed.
  Definition unnumbered_titles (S : sv) : Prop := each S (fun _ _ v => forall t, title_of v = Some t -> parse_int t = None).
  Lemma chain_resolved S p ts : chain S p ts -> unnumbered_titles S -> resolved SO S ts (keys p).
  Proof.
    induction 1 as [S n v ty t P L T|S n v t p ts P Ob T C IH|S n v i t p ts P Ob T C IH]; intros N; unfold keys; cbn [flat_map app].
    - apply (res_leaf SO S t n v t [] []); [exact (each_here _ _ _ _ N P t T)|exact P|exact T|reflexivity| |intros ? []|exact I]. intros c. eapply leaf_alone; exact L.
    - eapply (res_title SO S t n v t v); [exact (each_here _ _ _ _ N P t T)|exact P|exact T|reflexivity|left; auto|]. apply IH. eapply each_object; eauto.
    - eapply (res_title SO S t n v t i); [exact (each_here _ _ _ _ N P t T)|exact P|exact T|reflexivity|right; auto|]. apply IH. eapply each_array; eauto.
  Qed.
  Lemma chain_fun S p ts : chain S p ts -> once SO S -> forall p' ts', chain S p' ts' -> keys p = keys p' -> p = p' /\ ts = ts'.
  Proof.
    assert (Kne : forall S p ts, chain S p ts -> keys p <> []) by (intros S0 p0 ts0 C; apply (chain_ne _ _ _ C)).
    induction 1 as [S n v ty t P L T|S n v t p ts P Ob T C IH|S n v i t p ts P Ob T C IH]; intros On p' ts' C' E; apply chain_inv in C' as (n' & v' & t' & P' & T' & [(ty' & L' & -> & ->)|[(p2 & ts2 & Ob' & C' & -> & ->)|(i' & p2 & ts2 & Ob' & C' & -> & ->)]]); unfold keys in E; cbn [flat_map app] in E; pose proof (f_equal (hd []) E) as En; apply (f_equal (@tl str)) in E; cbn [hd tl] in En, E; subst n';
      pose proof (On S n v v' (within_here SO S) P P') as Ev; subst v'; rewrite T in T'; injection T' as <-.
    - auto.
    - exfalso. apply (Kne _ _ _ C'). symmetry. exact E.
    - exfalso. apply (Kne _ _ _ C'). symmetry. exact E.
    - exfalso. apply (Kne _ _ _ C). exact E.
    - destruct (IH (fun T0 m x y W => On T0 m x y (within_object _ _ _ _ _ P Ob W)) _ _ C' E) as [-> ->]. auto.
    - destruct (kinds_apart _ _ Ob Ob').
    - exfalso. apply (Kne _ _ _ C). exact E.
    - destruct (kinds_apart _ _ Ob' Ob).
    - pose proof (objects_fun _ _ _ Ob Ob') as <-. destruct (IH (fun T0 m x y W => On T0 m x y (within_array _ _ _ _ _ _ P Ob W)) _ _ C' E) as [-> ->]. auto.
  Qed.

  (** ** columns *)
  Lemma gives_chain S f x : gives SO S f x -> forall t, x = Some t -> exists p ts, chain S p ts /\ t = joint ts /\ f = zero_text p.
  Proof.
    induction 1 as [S n v ty P L|S n v f x P Ob G IH|S n v i f x P Ob G IH R]; intros t E.
    - exists [HKey n], [t]. split; [econstructor; eauto|]. auto.
    - unfold titled in E. destruct (title_of v) as [a|] eqn:T; [|discriminate]. destruct x as [c|]; [|discriminate]. injection E as <-. destruct (IH c eq_refl) as (p & ts & C & -> & ->). destruct (chain_ne _ _ _ C) as (N1 & N2 & _).
      exists (HKey n :: p), (a :: ts). split; [eapply chain_object; eauto|]. split; [rewrite joint_cons by exact N2; reflexivity|]. unfold zero_text. cbn [map]. destruct p; [congruence|reflexivity].
    - unfold titled in E. destruct (title_of v) as [a|] eqn:T; [|discriminate]. destruct x as [c|]; [|discriminate]. injection E as <-. destruct (IH c eq_refl) as (p & ts & C & -> & ->). destruct (chain_ne _ _ _ C) as (N1 & N2 & _).
      exists (HKey n :: HPos 0 :: p), (a :: ts). split; [eapply chain_array; eauto|]. split; [rewrite joint_cons by exact N2; reflexivity|]. unfold zero_text. cbn [map]. destruct p; [congruence|reflexivity].
  Qed.
  Lemma chain_gives S p ts : chain S p ts -> no_position p -> gives SO S (zero_text p) (Some (joint ts)).
  Proof.
    induction 1 as [S n v ty t P L T|S n v t p ts P Ob T C IH|S n v i t p ts P Ob T C IH]; intros N.
    - unfold joint, zero_text. cbn [join map]. rewrite <- T. econstructor; eauto.
    - destruct (chain_ne _ _ _ C) as (N1 & N2 & _). rewrite joint_cons by exact N2. assert (Ez : zero_text (HKey n :: p) = n ++ u "/" ++ zero_text p) by (unfold zero_text; cbn [map]; destruct p; [congruence|reflexivity]).
      rewrite Ez. assert (G : gives SO v (zero_text p) (Some (joint ts))) by (apply IH; intros i Hi; apply (N i); right; exact Hi). pose proof (col_object SO S n v (zero_text p) (Some (joint ts)) P Ob G) as Q. rewrite T in Q. exact Q.
    - exfalso. apply (N 0%Z). right. left. reflexivity.
  Qed.

  (** ** objects inside the schema *)
  Definition titled_objects (S : sv) : Prop := each S (fun _ _ v => an_object SO v \/ (exists i, objects v i) -> title_of v <> None).
  Lemma objects_chain S p0 T q : objects_at SO S p0 T q -> titled_objects S -> exists pq tq, (forall p ts, chain T p ts -> chain S (pq ++ p) (tq ++ ts)) /\
    at_titles q = option_map (fun a => a ++ prefix tq) (at_titles p0).
  Proof.
    induction 1 as [S p0|S p0 n v T q P Ob A IH|S p0 n v i T q P Ob A IH]; intros N.
    - exists [], []. split; [auto|]. destruct (at_titles p0); [cbn [option_map prefix flat_map]; rewrite app_nil_r|]; reflexivity.
    - destruct (title_of v) as [t|] eqn:Tv; [|destruct (each_here _ _ _ _ N P (or_introl Ob) Tv)]. destruct (IH (each_object _ _ _ _ P Ob N)) as (pq & tq & C & E). exists (HKey n :: pq), (t :: tq). split.
      + intros p ts H. cbn [app]. eapply chain_object; eauto.
      + rewrite E. unfold below. cbn [at_titles]. rewrite Tv. destruct (at_titles p0) as [a|]; [|reflexivity]. cbn [option_map]. unfold prefix. cbn [flat_map]. rewrite <- !app_assoc. reflexivity.
    - destruct (title_of v) as [t|] eqn:Tv; [|destruct (each_here _ _ _ _ N P (or_intror (ex_intro _ i Ob)) Tv)]. destruct (IH (each_array _ _ _ _ _ P Ob N)) as (pq & tq & C & E). exists (HKey n :: HPos 0 :: pq), (t :: tq). split.
      + intros p ts H. cbn [app]. eapply chain_array; eauto.
      + rewrite E. unfold below. cbn [at_titles]. rewrite Tv. destruct (at_titles p0) as [a|]; [|reflexivity]. cbn [option_map]. unfold prefix. cbn [flat_map]. rewrite <- !app_assoc. reflexivity.
  Qed.
  (** every id is a column, with the title that the property itself has *)
  Definition titled_ids (S : sv) : Prop := forall T r d i, within SO S T -> entry (u "properties") T (VO r d) -> sget (u "id") d = Some i ->
    property SO T (u "id") i /\ (exists ty, leaf SO i ty) /\ exists r' e t, i = VO r' e /\ sget (u "title") e = Some (VS (SStr t)) /\ title_of i = Some t.
  Lemma ids_here S p0 c a : so_titles SO = true -> at_titles p0 = Some a -> titled_ids S -> In c (ids_at SO S p0) -> In c (at_ids p0) \/ exists i t, chain S [HKey (u "id")] [t] /\ property SO S (u "id") i /\ title_of i = Some t /\ c = a ++ t.
  Proof.
    intros Ht Ea N Hc. unfold ids_at in Hc. destruct S as [| |r d]; auto. destruct (sget (u "properties") d) as [[| |r0 ps]|] eqn:Ep; auto. destruct (sget (u "id") ps) as [i|] eqn:Ei; auto.
    apply in_app_or in Hc as [Hc|[Hc|[]]]; [auto|]. right. destruct (N (VO r d) r0 ps i (within_here SO _)) as (P & (ty & L) & r' & e & t & -> & Es & T); [exists r, d; auto|exact Ei|]. rewrite Ht, Ea, Es in Hc.
    exists (VO r' e), t. assert (C : chain (VO r d) [HKey (u "id")] [t]) by (econstructor; eauto). split; [exact C|]. split; [exact P|]. split; [exact T|]. rewrite <- Hc. destruct t; [|reflexivity]. unfold title_of in T. destruct (own_title (VO r' e)) as [[[| | | | |[|? ?]|]| |]|]; discriminate.
  Qed.
  Lemma ids_chain S p0 T q : objects_at SO S p0 T q -> so_titles SO = true -> titled_objects S -> titled_ids S -> forall a, at_titles p0 = Some a -> forall c, In c (ids_at SO T q) ->
    In c (at_ids p0) \/ exists p ts, chain S (p ++ [HKey (u "id")]) ts /\ c = a ++ joint ts.
  Proof.
    intros H Ht. induction H as [S p0|S p0 n v T q P Ob A IH|S p0 n v i T q P Ob A IH]; intros N Ni a Ea c Hc.
    - destruct (ids_here S p0 c a Ht Ea Ni Hc) as [Q|(i & t & C & _ & _ & ->)]; [auto|]. right. exists [], [t]. auto.
    - destruct (title_of v) as [t|] eqn:Tv; [|destruct (each_here _ _ _ _ N P (or_introl Ob) Tv)].
      destruct (IH (each_object _ _ _ _ P Ob N)) with (a := a ++ t ++ u ":") (c := c) as [Q|(p & ts & C & ->)].
      + intros T0 r d i W. apply Ni. eapply within_object; eauto.
      + unfold below. cbn [at_titles]. rewrite Ea, Tv. reflexivity.
      + exact Hc.
      + unfold below in Q. cbn [at_ids] in Q. destruct (ids_here S p0 c a Ht Ea Ni Q) as [Q'|(i & t' & C & _ & _ & ->)]; [auto|]. right. exists [], [t']. auto.
      + right. exists (HKey n :: p), (t :: ts). split; [cbn [app]; eapply chain_object; eauto|]. destruct (chain_ne _ _ _ C) as (_ & N2 & _). rewrite joint_cons by exact N2. rewrite <- !app_assoc. reflexivity.
    - destruct (title_of v) as [t|] eqn:Tv; [|destruct (each_here _ _ _ _ N P (or_intror (ex_intro _ i Ob)) Tv)].
      destruct (IH (each_array _ _ _ _ _ P Ob N)) with (a := a ++ t ++ u ":") (c := c) as [Q|(p & ts & C & ->)].
      + intros T0 r d j W. apply Ni. eapply within_array; eauto.
      + unfold below. cbn [at_titles]. rewrite Ea, Tv. reflexivity.
      + exact Hc.
      + unfold below in Q. cbn [at_ids] in Q. destruct (ids_here S p0 c a Ht Ea Ni Q) as [Q'|(j & t' & C & _ & _ & ->)]; [auto|]. right. exists [], [t']. auto.
      + right. exists (HKey n :: HPos 0 :: p), (t :: ts). split; [cbn [app]; eapply chain_array; eauto|]. destruct (chain_ne _ _ _ C) as (_ & N2 & _). rewrite joint_cons by exact N2. rewrite <- !app_assoc. reflexivity.
  Qed.

  (** ** paths *)
  Lemma along_chain S p v : along SO S p v -> titled_objects S -> (forall i, In (HPos i) p -> i = 0%Z) -> forall ty t, leaf SO v ty -> title_of v = Some t -> exists ts, chain S p ts.
  Proof.
    induction 1 as [S n v P|S n v p w P Ob A IH|S n v i k p w P Ob A IH]; intros N Hz ty t L T.
    - exists [t]. econstructor; eauto.
    - destruct (title_of v) as [t'|] eqn:Tv; [|destruct (each_here _ _ _ _ N P (or_introl Ob) Tv)]. destruct (IH (each_object _ _ _ _ P Ob N) (fun i Hi => Hz i (or_intror Hi)) ty t L T) as (ts & C). exists (t' :: ts). eapply chain_object; eauto.
    - destruct (title_of v) as [t'|] eqn:Tv; [|destruct (each_here _ _ _ _ N P (or_intror (ex_intro _ i Ob)) Tv)]. destruct (IH (each_array _ _ _ _ _ P Ob N) (fun i Hi => Hz i (or_intror (or_intror Hi))) ty t L T) as (ts & C). exists (t' :: ts).
      rewrite (Hz k (or_intror (or_introl eq_refl))). eapply chain_array; eauto.
  Qed.
  (** the array before a position *)
  Lemma chain_position S p ts : chain S p ts -> forall a n i b, p = a ++ HKey n :: HPos i :: b -> exists v, along SO S (a ++ [HKey n]) v /\ kind SO v (u "array").
  Proof.
    induction 1 as [S n v ty t P L T|S n v t p ts P Ob T C IH|S n v i t p ts P Ob T C IH]; intros a m j b E.
    - destruct a as [|? [|? ?]]; discriminate.
    - destruct a as [|x a]; [injection E as <- E; subst p; destruct (chain_inv _ _ _ C) as (? & ? & ? & _ & _ & [(? & _ & Q & _)|[(? & ? & _ & _ & Q & _)|(? & ? & ? & _ & _ & Q & _)]]); discriminate|].
      injection E as <- E. destruct (IH a m j b E) as (w & A & K). exists w. split; [cbn [app]; eapply along_object; eauto|exact K].
    - destruct a as [|x a]; [injection E as <- _ _; exists v; split; [constructor; exact P|eapply kind_array; eauto]|].
      injection E as <- E. destruct a as [|y a]; [discriminate|]. injection E as <- E. destruct (IH a m j b E) as (w & A & K). exists w. split; [cbn [app]; eapply along_array; eauto|exact K].
  Qed.
End Chain.
