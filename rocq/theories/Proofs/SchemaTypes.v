(** The types the schema parser records. *)
From Verif.Base Require Import PyStr PyNum PyVal PyDict Outcome.
From Verif.Model Require Import Flatten Titles Schema.
From Verif.Spec Require Import Headings SchemaFields.
From Verif.Proofs Require Import SchemaTrace SchemaRun SchemaColumns SchemaState.

(** ** str.replace *)
Lemma replace_fuel_more old new : old <> [] -> forall n m s, (length s <= n)%nat -> (length s <= m)%nat -> replace_fuel n old new s = replace_fuel m old new s.
Proof.
  intros Ho. induction n as [|n IH]; intros m s Hn Hm.
  - destruct s; [|cbn in Hn; lia]. destruct m; reflexivity.
  - destruct s as [|x s]; [destruct m; reflexivity|]. destruct m as [|m]; [cbn in Hm; lia|]. cbn [replace_fuel]. cbn [length] in *.
    assert (L : (length (skipn (length old) (x :: s)) <= length s)%nat) by (rewrite skipn_length; destruct old; [congruence|cbn; lia]).
    destruct (startswith (x :: s) old); f_equal; apply IH; lia.
Qed.
Lemma replace_step old new x s : old <> [] ->
  replace old new (x :: s) = if startswith (x :: s) old then new ++ replace old new (skipn (length old) (x :: s)) else x :: replace old new s.
Proof.
  intros Ho. unfold replace at 1. cbn [length replace_fuel].
  assert (L : (length (skipn (length old) (x :: s)) <= length s)%nat) by (rewrite skipn_length; destruct old; [congruence|cbn; lia]).
  destruct (startswith (x :: s) old); [|reflexivity]. f_equal. apply replace_fuel_more; [exact Ho|exact L|lia].
Qed.
Definition at_start (P : str) : Prop := P = [] \/ exists P', P = P' ++ sl.
Lemma at_start_tail x P : at_start (x :: P) -> at_start P.
Proof. intros [H|([|y P'] & H)]; [discriminate|injection H as _ ->; left; reflexivity|injection H as _ ->; right; exists P'; reflexivity]. Qed.
Definition no_zero (r : str) : Prop := startswith r [48%N; 47%N] = false.
Lemma replace_app P r : at_start P -> no_zero r -> replace zero_sl sl (P ++ r) = replace zero_sl sl P ++ replace zero_sl sl r.
Proof.
  intros HP Hr. remember (length P) as n eqn:En. revert P HP En. induction n as [n IH] using lt_wf_ind. intros P HP ->.
  destruct P as [|x P]; [reflexivity|]. assert (Hz : zero_sl <> []) by discriminate. cbn [app]. rewrite !replace_step by exact Hz.
  assert (Eq : startswith (x :: P ++ r) zero_sl = startswith (x :: P) zero_sl).
  { unfold zero_sl. change (u "/0/") with [47%N; 48%N; 47%N]. destruct P as [|y [|z P]].
    - destruct HP as [H|([|? P'] & H)]; [discriminate| |destruct P'; discriminate]. injection H as ->. cbn [app]. change (startswith (47%N :: r) [47%N; 48%N; 47%N]) with (startswith r [48%N; 47%N]). rewrite Hr. reflexivity.
    - destruct HP as [H|([|? [|? P']] & H)]; [discriminate|discriminate| |destruct P'; discriminate]. injection H as -> ->. cbn. rewrite !andb_false_r. reflexivity.
    - cbn. destruct (x =? 47)%N, (y =? 48)%N, (z =? 47)%N; (destruct P; [destruct r|]; reflexivity). }
  rewrite Eq. destruct (startswith (x :: P) zero_sl) eqn:Es.
  - apply startswith_spec in Es as [Q Es]. unfold zero_sl in Es. change (u "/0/") with [47%N; 48%N; 47%N] in Es. injection Es as -> ->. cbn [app skipn length zero_sl]. change (length zero_sl) with 3%nat. cbn [skipn].
    rewrite (IH (length Q)); [rewrite <- app_assoc; reflexivity|cbn; lia| |reflexivity].
    apply at_start_tail, at_start_tail, at_start_tail in HP. exact HP.
  - cbn [app]. f_equal. apply (IH (length P)); [cbn; lia|eapply at_start_tail; exact HP|reflexivity].
Qed.
Definition plain (n : str) : Prop := field_name n /\ ~ In 47%N n.
Lemma replace_name n r : ~ In 47%N n -> replace zero_sl sl (n ++ r) = n ++ replace zero_sl sl r.
Proof.
  induction n as [|x n IH]; intros H; [reflexivity|]. cbn [app]. rewrite replace_step by discriminate.
  assert (Es : startswith (x :: n ++ r) zero_sl = false).
  { unfold zero_sl. change (u "/0/") with [47%N; 48%N; 47%N]. cbn [startswith]. destruct (N.eqb_spec x 47) as [->|]; [|reflexivity]. destruct H. left. reflexivity. }
  rewrite Es. f_equal. apply IH. intros Hn. apply H. right. exact Hn.
Qed.
Lemma plain_no_zero n r : plain n -> no_zero (n ++ sl ++ r).
Proof.
  intros [[Hne Hi] Hs]. unfold no_zero. destruct (startswith (n ++ sl ++ r) [48%N; 47%N]) eqn:E; [|reflexivity]. exfalso.
  destruct n as [|x n]; [congruence|]. cbn in E. apply andb_true_iff in E as [Ex E]. apply N.eqb_eq in Ex as ->.
  destruct n as [|y n]; [discriminate Hi|]. cbn in E. apply andb_true_iff in E as [Ey E]. apply N.eqb_eq in Ey as ->. apply Hs. right. left. reflexivity.
Qed.
Lemma replace_object P n : at_start P -> plain n -> replace zero_sl sl (P ++ n ++ sl) = replace zero_sl sl P ++ n ++ sl.
Proof. intros HP Hn. rewrite replace_app; [|exact HP|apply (plain_no_zero n [] Hn)]. f_equal. rewrite (replace_name n sl (proj2 Hn)). reflexivity. Qed.
Lemma replace_array P n : at_start P -> plain n -> replace zero_sl sl (P ++ n ++ zero_sl) = replace zero_sl sl P ++ n ++ sl.
Proof. intros HP Hn. rewrite replace_app; [|exact HP|apply (plain_no_zero n [48%N; 47%N] Hn)]. f_equal. rewrite (replace_name n zero_sl (proj2 Hn)). reflexivity. Qed.

(** ** texts of paths *)
Definition zero_text (p : hpath) : str := join sl (map (fun s => match s with HKey k => k | HPos _ => [48%N] end) p).
Lemma path_text_key n p : p <> [] -> path_text p <> [] \/ True -> path_text (HKey n :: p) = match flat_map (fun s => match s with HKey k => [k] | HPos _ => [] end) p with [] => n | _ => n ++ sl ++ path_text p end.
Proof. intros _ _. unfold path_text. cbn [flat_map app]. destruct (flat_map _ p); reflexivity. Qed.

Section Types.
  Variable O : sopts.
  Lemma along_key S p v : along O S p v -> exists n q, p = HKey n :: q.
  Proof. intros H. destruct H; eauto. Qed.
  Lemma along_text S p v n : along O S p v -> path_text (HKey n :: p) = n ++ sl ++ path_text p.
  Proof. intros H. destruct (along_key _ _ _ H) as (m & q & ->). reflexivity. Qed.
  Lemma along_text_pos S p v n i : along O S p v -> path_text (HKey n :: HPos i :: p) = n ++ sl ++ path_text p.
  Proof. intros H. destruct (along_key _ _ _ H) as (m & q & ->). reflexivity. Qed.
  Lemma along_zero S p v n : along O S p v -> zero_text (HKey n :: p) = n ++ sl ++ zero_text p.
  Proof. intros H. destruct (along_key _ _ _ H) as (m & q & ->). reflexivity. Qed.
  Lemma along_zero_pos S p v n i : along O S p v -> zero_text (HKey n :: HPos i :: p) = n ++ zero_sl ++ zero_text p.
  Proof. intros H. destruct (along_key _ _ _ H) as (m & q & ->). reflexivity. Qed.

  (** the key under which the parser records the type of the property at [p] *)
  Definition rk (P : str) (p : hpath) (t : str) : str :=
    if str_eqb t (u "object") then P ++ zero_text p else replace zero_sl sl P ++ path_text p.

  (** ** the last type recorded *)
  Fixpoint last_type (k : str) (tr : list act) : option str :=
    match tr with
    | [] => None
    | AType k' t :: tr' => match last_type k tr' with Some x => Some x | None => if str_eqb k' k then Some t else None end
    | _ :: tr' => last_type k tr'
    end.
  Lemma last_type_app k a b : last_type k (a ++ b) = match last_type k b with Some x => Some x | None => last_type k a end.
  Proof.
    induction a as [|x a IH]; cbn [app last_type]; [destruct (last_type k b); reflexivity|]. destruct x; try exact IH. rewrite IH. destruct (last_type k b); reflexivity.
  Qed.
  Lemma last_type_object k n t tr : last_type k (flat_map (lift_object n t) tr) = last_type k tr.
  Proof. induction tr as [|a tr IH]; [reflexivity|]. cbn [flat_map]. rewrite last_type_app, IH. destruct a; cbn; try (destruct (last_type k tr); reflexivity). Qed.
  Lemma last_type_objects k sn pp n pt t up tr : last_type k (flat_map (lift_objects O sn pp n pt t up) tr) = last_type k tr.
  Proof.
    induction tr as [|a tr IH]; [reflexivity|]. cbn [flat_map]. rewrite last_type_app, IH. destruct a; cbn [lift_objects]; try (cbn; destruct (last_type k tr); reflexivity).
    cbn [last_type]. destruct (last_type k tr); [reflexivity|]. rewrite last_type_app.
    unfold roll_act, sub_col. destruct (up f); cbn; (destruct (so_titles O); [destruct t0; [destruct pt; [destruct t|]|]|]; reflexivity).
  Qed.
  Lemma last_type_none k tr : Forall (fun a => match a with AType _ _ => False | _ => True end) tr -> last_type k tr = None.
  Proof. induction 1 as [|a tr Ha _ IH]; [reflexivity|]. destruct a; cbn; try exact IH. destruct Ha. Qed.

  Record tfacts (tr : list act) (rel : str -> str -> Prop) : Prop := {
    tf_sound : forall k t, last_type k tr = Some t -> rel k t;
    tf_comp : forall k t, rel k t -> last_type k tr <> None }.
  Lemma tfacts_none tr : (forall k, last_type k tr = None) -> tfacts tr (fun _ _ => False).
  Proof. intros H. split; [intros k t E; rewrite H in E; discriminate|intros k t []]. Qed.
  Lemma tfacts_app a b ra rb : tfacts a ra -> tfacts b rb -> tfacts (a ++ b) (fun k t => ra k t \/ rb k t).
  Proof.
    intros [A1 A2] [B1 B2]. split.
    - intros k t. rewrite last_type_app. destruct (last_type k b) eqn:E; intros H; [right; apply B1; congruence|left; apply A1; exact H].
    - intros k t H. rewrite last_type_app. destruct (last_type k b) eqn:E; [discriminate|]. destruct H as [H|H]; [exact (A2 _ _ H)|]. destruct (B2 _ _ H E).
  Qed.
  Lemma tfacts_eq tr r r' : tfacts tr r -> (forall k t, r k t <-> r' k t) -> tfacts tr r'.
  Proof. intros [A B] H. split; [intros k t E; apply H, A, E|intros k t E; apply H in E; exact (B _ _ E)]. Qed.
  Lemma tfacts_same a b r : (forall k, last_type k a = last_type k b) -> tfacts b r -> tfacts a r.
  Proof. intros E [A B]. split; intros k t; rewrite E; [apply A|apply B]. Qed.
  Lemma tfacts_type k t : tfacts [AType k t] (fun k' t' => k' = k /\ t' = t).
  Proof.
    split; intros k' t'; cbn; destruct (str_eqb_spec k k') as [->|N]; try discriminate; [intros [= <-]; auto|intros [-> _]; congruence].
  Qed.
  Lemma last_intable k lk t n : last_type k (in_table lk t n) = None.
  Proof. destruct t; reflexivity. Qed.

  (** ** of a schema *)
  Definition drel (v : sv) (P : str) (k t : str) : Prop := exists p w, along O v p w /\ kind O w t /\ k = rk P p t.
  Definition prel (n : str) (v : sv) (P : str) (k t : str) : Prop :=
    (kind O v t /\ k = rk P [HKey n] t) \/
    (an_object O v /\ exists p w, along O v p w /\ kind O w t /\ k = rk P (HKey n :: p) t) \/
    (exists i, objects v i /\ exists p w, along O i p w /\ kind O w t /\ k = rk P (HKey n :: HPos 0 :: p) t).
  Lemma rk_pos P n i j p t : rk P (HKey n :: HPos i :: p) t = rk P (HKey n :: HPos j :: p) t.
  Proof. reflexivity. Qed.
  Lemma drel_iff v P k t : drel v P k t <-> exists n w, property O v n w /\ prel n w P k t.
  Proof.
    split.
    - intros (p & w & A & K & E). destruct A as [S n v Pr|S n v p w Pr Ob A|S n v i z p w Pr Ob A]; exists n, v; (split; [exact Pr|]).
      + left. auto.
      + right. left. split; [exact Ob|]. exists p, w. auto.
      + right. right. exists i. split; [exact Ob|]. exists p, w. split; [exact A|]. split; [exact K|]. rewrite E. apply rk_pos.
    - intros (n & w & Pr & [[K E]|[(Ob & p & x & A & K & E)|(i & Ob & p & x & A & K & E)]]).
      + exists [HKey n], w. split; [apply along_here; exact Pr|auto].
      + exists (HKey n :: p), x. split; [eapply along_object; eauto|auto].
      + exists (HKey n :: HPos 0 :: p), x. split; [eapply along_array; eauto|auto].
  Qed.
  Definition plains (v : sv) : Prop := forall p n w, along O v (p ++ [HKey n]) w -> plain n.
  Definition plains_prop (n : str) (v : sv) : Prop := plain n /\ (an_object O v -> plains v) /\ (forall i, objects v i -> plains i).
  Lemma plains_property v n w : plains v -> property O v n w -> plains_prop n w.
  Proof.
    intros H Pr. split; [apply (H [] n w), along_here; exact Pr|]. split.
    - intros Ob p m x A. apply (H (HKey n :: p) m x). eapply along_object; eauto.
    - intros i Ob p m x A. apply (H (HKey n :: HPos 0 :: p) m x). eapply along_array; eauto.
  Qed.
  Lemma slashed_start pp : at_start (slashed pp).
  Proof. destruct pp; [left; reflexivity|right; eexists; reflexivity]. Qed.
  Lemma slashed_ne pp : pp <> [] -> slashed pp = pp ++ sl.
  Proof. destruct pp; [congruence|reflexivity]. Qed.
  Lemma rk_object P n p w v t : at_start P -> plain n -> along O v p w -> rk (P ++ n ++ sl) p t = rk P (HKey n :: p) t.
  Proof.
    intros HP Hn A. unfold rk. rewrite (along_zero _ _ _ n A), (along_text _ _ _ n A), (replace_object P n HP Hn), <- !app_assoc. reflexivity.
  Qed.
  Lemma rk_array P n p w v t : at_start P -> plain n -> along O v p w -> rk (P ++ n ++ zero_sl) p t = rk P (HKey n :: HPos 0 :: p) t.
  Proof.
    intros HP Hn A. unfold rk. rewrite (along_zero_pos _ _ _ n 0%Z A), (along_text_pos _ _ _ n 0%Z A), (replace_array P n HP Hn), <- !app_assoc. reflexivity.
  Qed.
  Lemma leaf_not_object v ty : leaf O v ty -> str_eqb ty (u "object") = false.
  Proof. intros L. destruct L; reflexivity. Qed.
  Lemma is_str_dec k v : v = VS (SStr k) \/ v <> VS (SStr k).
  Proof. destruct (is_str k v) eqn:E; [left; apply is_str_true; exact E|right; intros Q; apply is_str_true in Q; congruence]. Qed.
  Lemma leaf_fun v t t' : leaf O v t -> leaf O v t' -> t = t'.
  Proof.
    intros L L'. destruct L, L'; try reflexivity; try contradiction;
      repeat match goal with
      | H : an_array _ _ |- _ => destruct H as (? & ? & ?)
      | H : entry ?k ?v ?x, H' : entry ?k ?v ?y |- _ => lazymatch x with y => fail | _ => pose proof (entry_fun _ _ _ _ H H'); subst end
      end; try contradiction; try tauto.
    all: exfalso; repeat match goal with H : _ \/ _ |- _ => destruct H | H : types ?i = [] |- _ => unfold typed in *; rewrite H in *; cbn in * end; tauto.
  Qed.
  Lemma kind_fun v t t' : kind O v t -> kind O v t' -> t = t'.
  Proof.
    intros K K'. destruct K as [t L|Ob|i Ob], K' as [t' L'|Ob'|j Ob']; try reflexivity.
    - exact (leaf_fun v t t' L L').
    - destruct (proj1 (kinds_an_object O v Ob') _ L).
    - destruct (proj1 (proj2 (kinds_objects O v j Ob')) _ L).
    - destruct (proj1 (kinds_an_object O v Ob) _ L').
    - destruct (proj2 (kinds_an_object O v Ob) _ Ob').
    - destruct (proj1 (proj2 (kinds_objects O v i Ob)) _ L').
    - destruct (proj2 (kinds_an_object O v Ob') _ Ob).
  Qed.

  Theorem trace_types :
    (forall pp ids pt lk k v tr, dict_tr O pp ids pt lk k v tr -> (forall o, ~ alternatives v o) -> plains v -> tfacts tr (drel v (slashed pp))) /\
    (forall pp ids pt lk k l tr, alts_tr O pp ids pt lk k l tr -> pp = [] -> (forall v, In v l -> entry (u "type") v (VS (SStr (u "object"))) -> plains v) ->
       tfacts tr (fun k t => exists v, In v l /\ entry (u "type") v (VS (SStr (u "object"))) /\ drel v pp k t)) /\
    (forall pp ids pt lk k l tr, props_tr O pp ids pt lk k l tr -> at_start pp -> (forall n v, In (n, v) l -> kept O v -> plains_prop n v) ->
       tfacts tr (fun k t => exists n v, In (n, v) l /\ kept O v /\ prel n v pp k t)) /\
    (forall pp ids pt lk k n v tr, prop_tr O pp ids pt lk k n v tr -> at_start pp -> (kept O v -> plains_prop n v) ->
       tfacts tr (fun k t => kept O v /\ prel n v pp k t)).
  Proof.
    apply trace_ind.
    - intros pp ids pt lk k v l tr A _ _ N. destruct (N _ A).
    - intros pp ids pt lk k v o A _ N. destruct (N _ A).
    - intros pp ids pt lk k v r d tr _ Ep _ IH _ N.
      eapply tfacts_eq; [apply IH; [apply slashed_start|]|].
      + intros n w Hin Hk. apply (plains_property v); [exact N|]. exists r, d. auto.
      + intros q t. rewrite drel_iff. split; intros (n & w & H).
        * destruct H as (H1 & H2 & H3). exists n, w. split; [exists r, d; auto|exact H3].
        * destruct H as ((r' & d' & E & H1 & H2) & H3). pose proof (entry_fun _ _ _ _ Ep E) as Q. injection Q as <- <-. exists n, w. auto.
    - intros pp ids pt lk k v _ NP _ _. eapply tfacts_eq; [apply tfacts_none; reflexivity|].
      intros q t. split; [intros []|]. intros C. apply drel_iff in C as (n & w & (r & d & E & _) & _). exact (NP _ E).
    - intros pp ids pt lk k _ _. eapply tfacts_eq; [apply tfacts_none; reflexivity|]; intros q t; (split; [intros []|intros (v & [] & _)]).
    - intros pp ids pt lk k v l tr Ne _ IH Ep N. eapply tfacts_eq; [apply IH; [exact Ep|]|].
      + intros x Hx. apply N. right. exact Hx.
      + intros q t. split; intros (x & Hx & E & H); exists x; (split; [|auto]); [right; exact Hx|]. destruct Hx as [<-|Hx]; [contradiction|exact Hx].
    - intros pp ids pt lk k v l t1 t2 E _ IH1 _ IH2 Ep N. subst pp.
      eapply tfacts_eq; [apply tfacts_app; [apply IH1|apply IH2]|].
      + apply typed_object_no_alts. destruct E as (r & d & -> & E). unfold typed, types. rewrite E. left. reflexivity.
      + apply N; [left; reflexivity|exact E].
      + reflexivity.
      + intros x Hx. apply N. right. exact Hx.
      + intros f t. split; [intros [H|(x & Hx & Ex & H)]; [exists v|exists x]; cbn; auto|]. intros (x & [<-|Hx] & Ex & H); [left; exact H|right; exists x; auto].
    - intros pp ids pt lk k _ _. eapply tfacts_eq; [apply tfacts_none; reflexivity|]; intros q t; (split; [intros []|intros (n & v & [] & _)]).
    - intros pp ids pt lk k n v l t1 t2 _ IH1 _ IH2 P N.
      eapply tfacts_eq; [apply tfacts_app; [apply (IH1 P)|apply (IH2 P)]|].
      + intros Hk. apply N; [left; reflexivity|exact Hk].
      + intros m w Hm. apply N. right. exact Hm.
      + intros f t. split; [intros [[Hk H]|(m & w & Hm & Hk & H)]; [exists n, v|exists m, w]; cbn; auto|]. intros (m & w & [Eq|Hm] & Hk & H); [injection Eq as <- <-; left; auto|right; exists m, w; auto].
    - intros pp ids pt lk k n v Hn Hd P _. eapply tfacts_eq; [apply tfacts_none; reflexivity|]; intros q t; (split; [intros []|intros [Hk _]; exact (Hk Hn Hd)]).
    - intros pp ids pt lk k n v Hk NL NO NA P _. eapply tfacts_eq; [apply tfacts_none; intros; apply last_intable|].
      intros q t. split; [intros []|]. intros [_ [[K _]|[(Ob & _)|(i & Ob & _)]]]; [destruct K as [ty L|Ob|i Ob]|contradiction|]; [exact (NL _ L)|exact (NO Ob)|exact (NA _ Ob)|exact (NA _ Ob)].
    - intros pp ids pt lk k n v ty pre Hk L Hp P N.
      assert (NO : ~ an_object O v) by (intros Ob; exact (proj1 (kinds_an_object O v Ob) _ L)).
      assert (NA : forall i, ~ objects v i) by (intros i Ob; exact (proj1 (proj2 (kinds_objects O v i Ob)) _ L)).
      eapply tfacts_eq; [eapply tfacts_same; [|apply (tfacts_type (replace zero_sl sl pp ++ n) ty)]|].
      + intros q. rewrite !last_type_app, last_intable. destruct Hp as [-> | ->]; cbn [last_type]; destruct (str_eqb (replace zero_sl sl pp ++ n) q); reflexivity.
      + assert (Ek : forall t, str_eqb t (u "object") = false -> rk pp [HKey n] t = replace zero_sl sl pp ++ n) by (intros t Et; unfold rk; rewrite Et; reflexivity).
        intros q t. split.
        * intros [-> ->]. split; [exact Hk|]. left. split; [apply kind_leaf; exact L|]. rewrite Ek; [reflexivity|eapply leaf_not_object; exact L].
        * intros [_ [[K ->]|[(Ob & _)|(i & Ob & _)]]]; [|contradiction|destruct (NA _ Ob)]. pose proof (kind_fun v _ _ K (kind_leaf O v ty L)) as ->. split; [|reflexivity]. apply Ek. eapply leaf_not_object; exact L.
    - intros pp ids pt lk k n v child tr Hk Ob _ _ IH P N. destruct (N Hk) as (Nn & N1 & _). specialize (N1 Ob). destruct (kinds_an_object O v Ob) as (NL & NA).
      specialize (IH (typed_object_no_alts v (proj1 Ob)) N1). rewrite slashed_ne, <- app_assoc in IH by (destruct Nn as [[Q _] _]; intros E; apply app_eq_nil in E as [_ E]; congruence).
      eapply tfacts_eq; [eapply tfacts_app; [apply tfacts_none; intros; apply last_intable|apply (tfacts_app [AType (pp ++ n) (u "object")]); [apply tfacts_type|eapply tfacts_same; [intros; apply last_type_object|exact IH]]]|].
      intros q t. split.
      + intros [[]|[[-> ->]|(p & w & A & K & ->)]]; (split; [exact Hk|]); [left; split; [apply kind_object; exact Ob|reflexivity]|].
        right. left. split; [exact Ob|]. exists p, w. split; [exact A|]. split; [exact K|]. exact (rk_object pp n p w v t P Nn A).
      + intros [_ [[K ->]|[(_ & p & w & A & K & ->)|(i & A & _)]]]; [| |destruct (NA _ A)].
        * right. left. pose proof (kind_fun v _ _ K (kind_object O v Ob)) as ->. auto.
        * right. right. exists p, w. split; [exact A|]. split; [exact K|]. symmetry. exact (rk_object pp n p w v t P Nn A).
    - intros pp ids pt lk k n v i child up sn tr Hk Ob _ Hup Esn _ IH P N. destruct (N Hk) as (Nn & _ & N1). specialize (N1 i Ob). destruct (kinds_objects O v i Ob) as (_ & NL & NO & U).
      specialize (IH (typed_object_no_alts i (proj1 (proj2 Ob))) N1). rewrite slashed_ne in IH by (intros E; apply app_eq_nil in E as [_ E]; apply app_eq_nil in E as [_ E]; discriminate).
      rewrite <- !app_assoc in IH. change ((pp ++ n ++ sl ++ [48%N] ++ sl)) with (pp ++ n ++ zero_sl) in IH.
      eapply tfacts_eq; [eapply tfacts_app; [apply tfacts_none; intros; apply last_intable|apply (tfacts_app [AType (replace zero_sl sl pp ++ n) (u "array")]); [apply tfacts_type|eapply tfacts_same; [|exact IH]]]|].
      + intros q. rewrite last_type_app. cbn [last_type]. rewrite last_type_app, last_type_objects.
        assert (E1 : last_type q (map (fun f => AId sn f lk) ids) = None) by (apply last_type_none; apply Forall_forall; intros a Ha; apply in_map_iff in Ha as (f & <- & _); exact I).
        rewrite E1. destruct (last_type q tr); [reflexivity|]. destruct (so_titles O); [destruct pt|]; reflexivity.
      + intros q t. split.
        * intros [[]|[[-> ->]|(p & w & A & K & ->)]]; (split; [exact Hk|]); [left; split; [eapply kind_array; exact Ob|reflexivity]|].
          right. right. exists i. split; [exact Ob|]. exists p, w. split; [exact A|]. split; [exact K|]. exact (rk_array pp n p w i t P Nn A).
        * intros [_ [[K ->]|[(A & _)|(j & A & p & w & Al & K & ->)]]]; [|contradiction|].
          -- right. left. pose proof (kind_fun v _ _ K (kind_array O v i Ob)) as ->. auto.
          -- rewrite (U j A) in Al. right. right. exists p, w. split; [exact Al|]. split; [exact K|]. symmetry. exact (rk_array pp n p w i t P Nn Al).
  Qed.

  (** ** the state *)
  Lemma main_emit_flat x f t st x1 st1 w : main_emit O x f t st = Ok (x1, st1) w -> sp_flat st1 = sp_flat st.
  Proof. unfold main_emit. destruct (so_titles O); [destruct t|]; intros [= _ <- _]; reflexivity. Qed.
  Lemma runs_flat tr : forall x st x' st', runs O (main_emit O) tr x st x' st' ->
    forall k, sget k (sp_flat st') = match last_type k tr with Some t => Some t | None => sget k (sp_flat st) end.
  Proof.
    induction tr as [|a tr IH]; intros x st x' st' H k; [destruct H as [_ ->]; reflexivity|].
    destruct a; cbn [runs] in H; try (rewrite (IH _ _ _ _ H k); reflexivity).
    - rewrite (IH _ _ _ _ H k). cbn [last_type]. destruct title; reflexivity.
    - rewrite (IH _ _ _ _ H k). cbn [last_type do_act set_type upd_flat sp_flat]. destruct (last_type k tr); [reflexivity|].
      destruct (str_eqb_spec k0 k) as [->|N]; [apply sget_sset_eq|apply sget_sset_neq; congruence].
    - destruct H as (x1 & st1 & w & E & H). rewrite (IH _ _ _ _ H k), (main_emit_flat _ _ _ _ _ _ _ E). reflexivity.
  Qed.

  Lemma top_types pp ids pt lk k v tr : dict_tr O pp ids pt lk k v tr -> pp = [] -> (forall R, top v R -> plains R) ->
    tfacts tr (fun k t => exists R, top v R /\ drel R [] k t).
  Proof.
    intros T E N.
    assert (Plain : (forall o, ~ alternatives v o) -> tfacts tr (fun k t => exists R, top v R /\ drel R [] k t)).
    { intros NA. assert (Tv : top v v) by (right; auto).
      assert (U : forall R, top v R -> R = v) by (intros R [(l & A & _)|[_ H]]; [destruct (NA _ A)|exact H]).
      eapply tfacts_eq; [apply (proj1 trace_types _ _ _ _ _ _ _ T NA (N v Tv))|].
      rewrite E. intros f t. split; [intros H; exists v; auto|]. intros (R & HR & H). rewrite (U R HR) in H. exact H. }
    destruct T as [pp ids pt lk k v l tr A T|pp ids pt lk k v o A Nl|pp ids pt lk k v r d tr NA Ep T|pp ids pt lk k v NA NP]; [| |apply Plain; exact NA|apply Plain; exact NA]; clear Plain.
    - rewrite E in T. cbn [slashed] in T.
      assert (Tv : forall R, top v R <-> In R l /\ entry (u "type") R (VS (SStr (u "object")))).
      { intros R. split.
        - intros [(l' & A' & H1 & H2)|[NA _]]; [|destruct (NA _ A)]. pose proof (alternatives_fun _ _ _ A A') as Q. injection Q as <-. auto.
        - intros [H1 H2]. left. exists l. auto. }
      eapply tfacts_eq; [apply (proj1 (proj2 trace_types) _ _ _ _ _ _ _ T eq_refl)|].
      + intros R H1 H2. apply N. apply Tv. auto.
      + intros f t. split; intros (R & H); exists R; rewrite Tv in *; tauto.
    - assert (NT : forall R, ~ top v R).
      { intros R [(l' & A' & _)|[NA _]]; [|destruct (NA _ A)]. destruct (Nl _ (alternatives_fun _ _ _ A A')). }
      eapply tfacts_eq; [apply tfacts_none; reflexivity|]; intros f t; (split; [intros []|intros (R & HR & _); exact (NT R HR)]).
  Qed.

  Lemma plains_named S : plain_names O S -> forall R, top S R -> plains R.
  Proof. intros H R T p n w A. exact (H R p n w T A). Qed.
  Theorem flat_facts S st w : parse_schema O S = Ok st w -> plain_names O S ->
    (forall k t, sget k (sp_flat st) = Some t -> exists R, top S R /\ drel R [] k t) /\
    (forall R k t, top S R -> drel R [] k t -> exists t', sget k (sp_flat st) = Some t').
  Proof.
    unfold parse_schema. intros H N. apply bind_ok in H as ([x st'] & w1 & w2 & H & E & _). cbn [snd] in E. injection E as <- _.
    assert (K : keeps (main_emit O)).
    { intros x0 f t st0 x1 st1 w0 E. unfold main_emit in E. destruct (so_titles O); [destruct t|]; injection E as _ <- _; reflexivity. }
    destruct (dict_runs O _ unit (main_emit O) K _ _ _ _ _ _ _ _ _ _ H) as (tr & T & R).
    { repeat constructor. } { cbn. auto. }
    destruct (top_types _ _ _ _ _ _ _ T eq_refl (plains_named S N)) as [A B].
    pose proof (runs_flat tr _ _ _ _ R) as Fl. split.
    - intros k t E. rewrite Fl in E. destruct (last_type k tr) eqn:El; [|discriminate E]. injection E as <-. exact (A _ _ El).
    - intros R0 k t T0 D. rewrite Fl. destruct (last_type k tr) eqn:El; [eauto|]. destruct (B k t (ex_intro _ R0 (conj T0 D)) El).
  Qed.

  (** texts determine the names *)
  Definition names_of (p : hpath) : list str := flat_map (fun s => match s with HKey k => [k] | HPos _ => [] end) p.
  Definition zeros_of (p : hpath) : list str := map (fun s => match s with HKey k => k | HPos _ => [48%N] end) p.
  Lemma along_prefix S p v : along O S p v -> forall n, In (HKey n) p -> exists q r w, p = q ++ HKey n :: r /\ along O S (q ++ [HKey n]) w.
  Proof.
    induction 1 as [S n v Pr|S n v p w Pr Ob A IH|S n v i z p w Pr Ob A IH]; intros m Hm.
    - destruct Hm as [[= <-]|[]]. exists [], [], v. split; [reflexivity|apply along_here; exact Pr].
    - destruct Hm as [[= <-]|Hm]; [exists [], p, v; split; [reflexivity|apply along_here; exact Pr]|]. destruct (IH m Hm) as (q & r & x & -> & H).
      exists (HKey n :: q), r, x. split; [reflexivity|]. eapply along_object; eauto.
    - destruct Hm as [[= <-]|[Hm|Hm]]; [exists [], (HPos z :: p), v; split; [reflexivity|apply along_here; exact Pr]|discriminate|]. destruct (IH m Hm) as (q & r & x & -> & H).
      exists (HKey n :: HPos z :: q), r, x. split; [reflexivity|]. eapply along_array; eauto.
  Qed.
  Lemma along_plain S p v : plains S -> along O S p v -> forall n, In (HKey n) p -> plain n.
  Proof. intros N A n Hn. destruct (along_prefix _ _ _ A n Hn) as (q & r & w & _ & H). exact (N q n w H). Qed.
  Lemma texts_same S S' p p' v v' : plains S -> plains S' -> along O S p v -> along O S' p' v' -> zero_text p' = path_text p -> no_position p'.
  Proof.
    intros N N' A A' E i Hi. unfold zero_text, path_text in E. fold (names_of p) in E. fold (zeros_of p') in E.
    assert (Np : forall x, In x (names_of p) -> plain x).
    { intros x Hx. unfold names_of in Hx. apply in_flat_map in Hx as (s & Hs & Hx). destruct s; [|destruct Hx]. destruct Hx as [<-|[]]. exact (along_plain S p v N A k Hs). }
    assert (Nz : forall x, In x (zeros_of p') -> ~ In 47%N x).
    { intros x Hx. unfold zeros_of in Hx. apply in_map_iff in Hx as (s & <- & Hs). destruct s; [apply (along_plain S' p' v' N' A' k Hs)|]. intros [Q|[]]. discriminate. }
    apply (f_equal (split_on 47%N)) in E. unfold sl in E. change (u "/") with [47%N] in E. rewrite !split_join in E.
    - assert (Hz : In [48%N] (zeros_of p')) by (apply in_map_iff; exists (HPos i); auto). rewrite E in Hz. apply Np in Hz as [[_ Hz] _]. discriminate.
    - destruct (along_key _ _ _ A) as (n & q & ->). discriminate.
    - intros x Hx. apply Np in Hx. apply Hx.
    - destruct (along_key _ _ _ A') as (n & q & ->). discriminate.
    - exact Nz.
  Qed.
  Lemma zero_no_position p : no_position p -> zero_text p = path_text p.
  Proof.
    intros H. unfold zero_text, path_text. f_equal. induction p as [|s p IH]; [reflexivity|]. destruct s as [k|i]; [|destruct (H i); left; reflexivity]. cbn [map flat_map app].
    f_equal. apply IH. intros j Hj. apply (H j). right. exact Hj.
  Qed.
  Lemma rk_nil p t : rk [] p t = if str_eqb t (u "object") then zero_text p else path_text p.
  Proof. reflexivity. Qed.

  Theorem type_recorded S st w : parse_schema O S = Ok st w -> plain_names O S -> forall R p v t, top S R -> along O R p v -> kind O v t ->
    (t = u "object" -> no_position p) -> one_kind O S (path_text p) -> sget (path_text p) (sp_flat st) = Some t.
  Proof.
    intros H N R p v t T A K Hp Hk. destruct (flat_facts _ _ _ H N) as [Snd Cmp].
    assert (E : rk [] p t = path_text p).
    { rewrite rk_nil. destruct (str_eqb_spec t (u "object")) as [->|]; [apply zero_no_position, Hp; reflexivity|reflexivity]. }
    destruct (Cmp R (path_text p) t T) as (t' & E').
    { exists p, v. rewrite E. auto. }
    rewrite E'. f_equal. destruct (Snd _ _ E') as (R' & T' & p' & v' & A' & K' & Ek). rewrite rk_nil in Ek.
    assert (Et : path_text p' = path_text p).
    { destruct (str_eqb t' (u "object")); [|congruence]. rewrite <- (zero_no_position p'); [congruence|]. eapply (texts_same R R' p p'); eauto using plains_named. }
    symmetry. apply (Hk R R' p p' v v' t t'); auto.
  Qed.
  Theorem type_sound S st w : parse_schema O S = Ok st w -> plain_names O S -> forall k t, sget k (sp_flat st) = Some t ->
    exists R p v, top S R /\ along O R p v /\ kind O v t /\ (path_text p = k \/ (t = u "object" /\ ~ no_position p /\ k = zero_text p)).
  Proof.
    intros H N k t E. destruct (flat_facts _ _ _ H N) as [Snd _]. destruct (Snd _ _ E) as (R & T & p & v & A & K & Ek). rewrite rk_nil in Ek.
    exists R, p, v. split; [exact T|]. split; [exact A|]. split; [exact K|].
    destruct (str_eqb_spec t (u "object")) as [->|]; [|auto].
    destruct (existsb (fun s => match s with HPos _ => true | _ => false end) p) eqn:Ex.
    - right. split; [reflexivity|]. split; [|exact Ek]. intros Hn. apply existsb_exists in Ex as (s & Hs & Q). destruct s; [discriminate|]. exact (Hn _ Hs).
    - left. rewrite Ek. symmetry. apply zero_no_position. intros i Hi. assert (Q : existsb (fun s => match s with HPos _ => true | _ => false end) p = true) by (apply existsb_exists; exists (HPos i); auto). congruence.
  Qed.
End Types.
