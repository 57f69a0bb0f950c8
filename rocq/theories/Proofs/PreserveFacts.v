From Verif.Base Require Import PyStr PyNum PyVal PyDict Outcome.
From Verif.Model Require Import Flatten.
From Verif.Spec Require Import Flat Sites Paths Preserve.
From Verif.Proofs Require Import FlattenPaths.

(** ** the path of an object without array positions *)
Notation rf n s := (replace_fuel n (u "/0") [] s).
Lemma rf_char n x s : x <> 47%N -> rf (S n) (x :: s) = x :: rf n s.
Proof.
  intros H. cbn [replace_fuel]. assert (E : startswith (x :: s) (u "/0") = false) by (change (u "/0") with [47%N; 48%N]; cbn [startswith]; destruct (N.eqb_spec x 47); [contradiction|reflexivity]).
  rewrite E. reflexivity.
Qed.
Lemma rf_zero n s : rf (S n) (47%N :: 48%N :: s) = rf n s.
Proof. cbn [replace_fuel]. destruct s; reflexivity. Qed.
Lemma rf_slash n s : not_zero s -> rf (S n) (47%N :: s) = 47%N :: rf n s.
Proof.
  intros H. cbn [replace_fuel]. assert (E : startswith (47%N :: s) (u "/0") = false).
  { change (u "/0") with [47%N; 48%N]. cbn [startswith]. rewrite N.eqb_refl. destruct s as [|c s]; [reflexivity|]. cbn [andb startswith]. simpl in H. destruct (N.eqb_spec c 48); [contradiction|reflexivity]. }
  rewrite E. reflexivity.
Qed.
Lemma rf_key k : key_ok k -> forall n s, (length (k ++ s) <= n)%nat -> rf n (k ++ s) = k ++ rf (n - length k) s.
Proof.
  induction k as [|c k IH]; intros Hk n s Hn; [simpl; rewrite Nat.sub_0_r; reflexivity|]. destruct n as [|n]; [simpl in Hn; lia|].
  cbn [app]. rewrite rf_char by (intros ->; apply Hk; left; reflexivity). rewrite IH; [reflexivity|intros H; apply Hk; right; exact H|simpl in Hn; lia].
Qed.
Lemma rf_pre q : keys_ok q -> forall n, (length (pre q) <= n)%nat -> rf n (pre q) = slashed (keys_of q).
Proof.
  induction q as [|[k o] q IH]; intros H n Hn; [destruct n; reflexivity|]. apply Forall_cons_iff in H as [[Hk Hz] H]. cbn [fst] in Hk, Hz.
  assert (NZ : not_zero (pre q)).
  { destruct q as [|[k2 o2] q]; [exact I|]. apply Forall_cons_iff in H as [[_ Hz2] _]. cbn [fst] in Hz2. rewrite pre_cons. destruct k2 as [|c k2]; [|exact Hz2].
    destruct o2; [rewrite step_item|rewrite step_key]; simpl; discriminate. }
  change (slashed (keys_of ((k, o) :: q))) with ((k ++ u "/") ++ slashed (keys_of q)). rewrite <- app_assoc. change (u "/" ++ slashed (keys_of q)) with (47%N :: slashed (keys_of q)).
  rewrite pre_cons in *. destruct o as [i|].
  - rewrite step_item in *. rewrite <- app_assoc in *. rewrite rf_key by assumption. f_equal. change (u "/0/" ++ pre q) with (47%N :: 48%N :: 47%N :: pre q) in *.
    rewrite app_length in Hn. cbn [length] in Hn. destruct (n - length k)%nat as [|[|[|m]]] eqn:E; try lia. rewrite rf_zero, rf_slash by exact NZ. f_equal. apply IH; [exact H|lia].
  - rewrite step_key in *. rewrite <- app_assoc in *. rewrite rf_key by assumption. f_equal. change (u "/" ++ pre q) with (47%N :: pre q) in *.
    rewrite app_length in Hn. cbn [length] in Hn. destruct (n - length k)%nat as [|m] eqn:E; try lia. rewrite rf_slash by exact NZ. f_equal. apply IH; [exact H|lia].
Qed.
Lemma object_path_pre q : keys_ok q -> object_path (pre q) = slashed (keys_of q).
Proof. intros H. apply rf_pre; [exact H|reflexivity]. Qed.
Lemma slashed_join ks k : slashed ks ++ k = join (u "/") (ks ++ [k]).
Proof.
  induction ks as [|x ks IH]; [reflexivity|]. cbn [slashed flat_map app]. fold (slashed ks). destruct (ks ++ [k]) as [|y l] eqn:E; [destruct ks; discriminate|].
  rewrite join_cons, <- IH, <- !app_assoc. reflexivity.
Qed.
Lemma join_inj ks ls : ks <> [] -> ls <> [] -> Forall key_ok ks -> Forall key_ok ls -> join (u "/") ks = join (u "/") ls -> ks = ls.
Proof.
  intros H1 H2 F1 F2 E. apply (f_equal (split_on 47%N)) in E. rewrite Forall_forall in F1, F2.
  change (u "/") with [47%N] in E. rewrite (split_join _ ks H1 F1), (split_join _ ls H2 F2) in E. exact E.
Qed.

(** ** the set of preserved fields *)
Section File.
  Variables (lines : list str) (R : list request).
  Hypothesis HW : Forall2 written lines R.
  Hypothesis HR : Forall request_ok R.

  Lemma last_not_slash r : request_ok r -> rstrip is_slash (join (u "/") r) = join (u "/") r.
  Proof.
    intros [Hne Hr]. destruct (exists_last Hne) as (l & k & ->). apply rstrip_id. intros x Hx. apply Forall_app in Hr as [_ Hr].
    apply Forall_cons_iff in Hr as [[Hk Ho] _]. rewrite <- slashed_join, rev_app_distr in Hx. destruct (exists_last Hk) as (k' & c & ->).
    rewrite rev_app_distr in Hx. simpl in Hx. injection Hx as ->. unfold is_slash, slash_c. apply N.eqb_neq. intros ->. apply Ho. apply in_or_app. right. left. reflexivity.
  Qed.
  Lemma rsplit_join l k : Forall key_ok (l ++ [k]) -> rsplit1 slash_c (join (u "/") (l ++ [k])) = match l with [] => [k] | _ => [join (u "/") l; k] end.
  Proof.
    intros H. unfold rsplit1. change slash_c with 47%N. change (u "/") with [47%N]. rewrite split_join; [|destruct l; discriminate|intros x Hx; rewrite Forall_forall in H; exact (H x Hx)].
    rewrite rev_app_distr. change (rev [k]) with [k]. cbn [app]. destruct l as [|a l]; [reflexivity|]. destruct (rev (a :: l)) as [|b m] eqn:E.
    - apply (f_equal (@length _)) in E. rewrite rev_length in E. discriminate.
    - rewrite <- E, rev_involutive. reflexivity.
  Qed.
  Lemma line_parts line r f : written line r -> request_ok r -> In f (preserve_line line) <->
    (f = join (u "/") r \/ exists l k, r = l ++ [k] /\ ((l <> [] /\ f = join (u "/") l) \/ f = k)).
  Proof.
    intros HL Hr. unfold preserve_line. rewrite HL, last_not_slash by exact Hr. destruct Hr as [Hne Hr]. destruct (exists_last Hne) as (l & k & ->).
    assert (HK : Forall key_ok (l ++ [k])) by (eapply Forall_impl; [|exact Hr]; intros x [_ Q]; exact Q).
    rewrite (rsplit_join l k HK). rewrite in_app_iff. simpl. split.
    - intros [Q|[<-|[]]]; [|left; reflexivity]. right. exists l, k. split; [reflexivity|]. destruct l as [|a l]; [destruct Q as [<-|[]]; right; reflexivity|].
      destruct Q as [<-|[<-|[]]]; [left; split; [discriminate|reflexivity]|right; reflexivity].
    - intros [-> |(l' & k' & E & Q)]; [right; left; reflexivity|]. apply app_inj_tail in E as [<- <-]. left. destruct l as [|a l]; [destruct Q as [[Q _]|Q]; [congruence|left; auto]|].
      destruct Q as [[_ Q]|Q]; [left; auto|right; left; auto].
  Qed.
  Lemma fields_In f : In f (preserve_fields lines) <->
    exists r, In r R /\ (f = join (u "/") r \/ exists l k, r = l ++ [k] /\ ((l <> [] /\ f = join (u "/") l) \/ f = k)).
  Proof.
    unfold preserve_fields. rewrite in_flat_map. split.
    - intros (line & Hl & Hf). assert (G : exists r, In r R /\ written line r).
      { clear - HW Hl. induction HW as [|a b la lb Hab H IH]; [destruct Hl|]. destruct Hl as [<-|Hl]; [exists b; split; [left; reflexivity|exact Hab]|].
        destruct (IH H Hl) as (r & Hr & Q). exists r. split; [right; exact Hr|exact Q]. }
      destruct G as (r & Hr & HL). exists r. split; [exact Hr|]. rewrite Forall_forall in HR. exact (proj1 (line_parts line r f HL (HR r Hr)) Hf).
    - intros (r & Hr & Hf). assert (G : exists line, In line lines /\ written line r).
      { clear - HW Hr. induction HW as [|a b la lb Hab H IH]; [destruct Hr|]. destruct Hr as [<-|Hr]; [exists a; split; [left; reflexivity|exact Hab]|].
        destruct (IH H Hr) as (line & Hl & Q). exists line. split; [right; exact Hl|exact Q]. }
      destruct G as (line & Hl & HL). exists line. split; [exact Hl|]. rewrite Forall_forall in HR. exact (proj2 (line_parts line r f HL (HR r Hr)) Hf).
  Qed.

  Variable O : popts.
  Hypothesis PF : po_preserve O = preserve_fields lines.
  Hypothesis RN : R <> [].

  Lemma str_mem_In f l : str_mem f l = true <-> In f l.
  Proof.
    unfold str_mem. rewrite existsb_exists. split; [intros (x & Hx & E); destruct (str_eqb_spec f x); [subst; exact Hx|discriminate]|].
    intros H. exists f. split; [exact H|]. destruct (str_eqb_spec f f); congruence.
  Qed.
  Lemma some_fields : po_preserve O <> [].
  Proof.
    rewrite PF. intros E. destruct (exists_last RN) as (l & r & ER).
    assert (Q : In (join (u "/") r) (preserve_fields lines)).
    { apply fields_In. exists r. split; [rewrite ER; apply in_or_app; right; left; reflexivity|left; reflexivity]. }
    rewrite E in Q. destruct Q.
  Qed.
  (** one step *)
  Lemma kept_step q k : keys_ok q -> kept O (pre q) k = true <->
    In (join (u "/") (keys_of q ++ [k])) (preserve_fields lines) \/ (forall f, In f (preserve_fields lines) -> contains f (slashed (keys_of q)) = false).
  Proof.
    intros Hq. unfold kept. rewrite (object_path_pre q Hq), slashed_join. pose proof some_fields as SF. rewrite PF in SF |- *. destruct (preserve_fields lines) as [|f0 F] eqn:EF; [congruence|].
    rewrite orb_true_iff, str_mem_In, negb_true_iff. apply or_iff_compat_l. rewrite <- not_true_iff_false, existsb_exists. split.
    - intros H f Hf. apply not_true_iff_false. intros C. apply H. exists f. auto.
    - intros H (f & Hf & C). rewrite (H f Hf) in C. discriminate.
  Qed.
  Lemma asked_field ks : ks <> [] -> asked R ks -> In (join (u "/") ks) (preserve_fields lines).
  Proof.
    intros Hne (r & Hr & [-> |(x & ->)]); apply fields_In; [exists ks|exists (ks ++ [x])]; (split; [exact Hr|]); [left; reflexivity|].
    right. exists ks, x. split; [reflexivity|]. left. auto.
  Qed.

  (** fields asked for all the way are kept *)
  Lemma keeps_gen q Q : keys_ok (q ++ Q) ->
    (forall Q1 k o Q2, Q = Q1 ++ (k, o) :: Q2 -> kept O (pre (q ++ Q1)) k = true) -> keeps_from O (pre q) Q = true.
  Proof.
    revert q. induction Q as [|[k o] Q IH]; intros q Hok H; [reflexivity|]. cbn [keeps_from]. apply andb_true_iff. split.
    - specialize (H [] k o Q eq_refl). rewrite app_nil_r in H. exact H.
    - replace (pre q ++ step_text (k, o)) with (pre (q ++ [(k, o)])) by (rewrite pre_app; cbn [pre flat_map]; rewrite app_nil_r; reflexivity).
      apply IH; [rewrite <- app_assoc; exact Hok|]. intros Q1 k1 o1 Q2 E. rewrite <- app_assoc. apply (H ((k, o) :: Q1) k1 o1 Q2). rewrite E. reflexivity.
  Qed.
  Lemma keeps_inv q Q : keeps_from O (pre q) Q = true -> forall Q1 k o Q2, Q = Q1 ++ (k, o) :: Q2 -> kept O (pre (q ++ Q1)) k = true.
  Proof.
    revert q. induction Q as [|[k o] Q IH]; intros q H Q1 k1 o1 Q2 E; [destruct Q1; discriminate|]. cbn [keeps_from] in H. apply andb_true_iff in H as [H1 H].
    destruct Q1 as [|st Q1]; [injection E as <- <- <-; rewrite app_nil_r; exact H1|]. injection E as <- E.
    replace (pre q ++ step_text (k, o)) with (pre (q ++ [(k, o)])) in H by (rewrite pre_app; cbn [pre flat_map]; rewrite app_nil_r; reflexivity).
    specialize (IH _ H Q1 k1 o1 Q2 E). rewrite <- app_assoc in IH. exact IH.
  Qed.
  Lemma keys_app Q1 Q2 : keys_of (Q1 ++ Q2) = keys_of Q1 ++ keys_of Q2.
  Proof. apply map_app. Qed.

  Theorem requested_kept Q : keys_ok Q ->
    (forall ks1 ks2, keys_of Q = ks1 ++ ks2 -> ks1 <> [] -> asked R ks1 \/ exists a b, ks1 = a ++ b /\ a <> [] /\ b <> [] /\ forall r, In r R -> contains (join (u "/") r) (slashed a) = false) ->
    keeps O Q = true.
  Proof.
    intros Hok H. unfold keeps. change (@nil N) with (pre []). apply keeps_gen; [exact Hok|]. intros Q1 k o Q2 ->. cbn [app].
    apply Forall_map in Hok. apply Forall_app in Hok as [Hok1 _]. assert (HQ1 : keys_ok Q1) by (apply Forall_map; exact Hok1).
    apply (kept_step Q1 k HQ1). destruct (H (keys_of Q1 ++ [k]) (keys_of Q2)) as [A|(a & b & E & Ha & Hb & C)].
    - rewrite keys_app. cbn [keys_of map fst]. rewrite <- app_assoc. reflexivity.
    - destruct (keys_of Q1); discriminate.
    - left. apply asked_field; [destruct (keys_of Q1); discriminate|exact A].
    - right. destruct (exists_last Hb) as (b' & z & ->). rewrite app_assoc in E. apply app_inj_tail in E as [E _]. intros f Hf. apply not_true_iff_false. intros D.
      rewrite E in D. unfold slashed in D. rewrite flat_map_app in D. fold (slashed a) in D. apply contains_spec in D as (x & y & D).
      assert (Sub : exists r, In r R /\ contains (join (u "/") r) f = true).
      { apply fields_In in Hf as (r & Hr & Q). exists r. split; [exact Hr|]. apply contains_spec. destruct Q as [-> |(l & m & -> & [[Hl ->]|Q])].
        - exists [], []. rewrite app_nil_r. reflexivity.
        - exists [], (u "/" ++ m). cbn [app]. rewrite <- slashed_join. rewrite app_assoc. f_equal. destruct (exists_last Hl) as (l' & c & ->).
          rewrite <- slashed_join. unfold slashed. rewrite flat_map_app. cbn [flat_map]. rewrite app_nil_r, !app_assoc. reflexivity.
        - subst m. exists (slashed l), []. rewrite app_nil_r. symmetry. apply slashed_join. }
      destruct Sub as (r & Hr & Sub). apply contains_spec in Sub as (x2 & y2 & Sub). specialize (C r Hr). apply not_true_iff_false in C. apply C. apply contains_spec.
      exists (x2 ++ x), (flat_map (fun k => k ++ u "/") b' ++ y ++ y2). rewrite Sub, D, <- !app_assoc. reflexivity.
  Qed.
  (** other fields are dropped *)
  Theorem unrequested_dropped Q Q1 k o Q2 : keys_ok Q -> Q = Q1 ++ (k, o) :: Q2 ->
    (exists r x, In r R /\ r = keys_of Q1 ++ x /\ x <> []) -> ~ asked R (keys_of Q1 ++ [k]) ->
    (Q1 = [] -> forall l, ~ In (l ++ [k]) R) -> keeps O Q = false.
  Proof.
    intros Hok E (r & x & Hr & Er & Hx) Hna Hlast. apply not_true_iff_false. intros HK. unfold keeps in HK. change (@nil N) with (pre []) in HK.
    pose proof (keeps_inv [] Q HK Q1 k o Q2 E) as S. cbn [app] in S. rewrite E in Hok. apply Forall_map in Hok. apply Forall_app in Hok as [Hok1 Hok2].
    assert (HQ1 : keys_ok Q1) by (apply Forall_map; exact Hok1). apply Forall_cons_iff in Hok2 as [[Hk _] _]. cbn [fst] in Hk.
    assert (KQ : Forall key_ok (keys_of Q1 ++ [k])).
    { apply Forall_app. split; [eapply Forall_impl; [|exact HQ1]; intros z [Hz _]; exact Hz|]. constructor; [exact Hk|constructor]. }
    assert (KR : forall r, In r R -> Forall key_ok r).
    { intros r' Hr'. rewrite Forall_forall in HR. destruct (HR r' Hr') as [_ F]. eapply Forall_impl; [|exact F]. intros z [_ Hz]. exact Hz. }
    apply (kept_step Q1 k HQ1) in S as [S|S].
    - apply fields_In in S as (r' & Hr' & S). assert (N1 : keys_of Q1 ++ [k] <> []) by (destruct (keys_of Q1); discriminate).
      destruct S as [S|(l & m & -> & [[Hl S]|S])].
      + apply join_inj in S; [|exact N1|rewrite Forall_forall in HR; exact (proj1 (HR r' Hr'))|exact KQ|exact (KR r' Hr')]. apply Hna. exists r'. split; [exact Hr'|]. left. auto.
      + apply join_inj in S; [|exact N1|exact Hl|exact KQ|pose proof (KR _ Hr') as F; apply Forall_app in F; exact (proj1 F)]. apply Hna. exists (l ++ [m]). split; [exact Hr'|]. right. exists m. rewrite S. reflexivity.
      + change m with (join (u "/") [m]) in S. apply join_inj in S; [|exact N1|discriminate|exact KQ|].
        * destruct Q1 as [|st Q1]; [|cbn [keys_of map app] in S; injection S as _ S; destruct (map fst Q1); discriminate S]. injection S as ->. exact (Hlast eq_refl l Hr').
        * pose proof (KR _ Hr') as F. apply Forall_app in F. exact (proj2 F).
    - assert (Hf : In (join (u "/") r) (preserve_fields lines)) by (apply fields_In; exists r; split; [exact Hr|left; reflexivity]).
      specialize (S _ Hf). apply not_true_iff_false in S. apply S. apply contains_spec. exists []. rewrite Er. destruct (exists_last Hx) as (x' & z & ->).
      exists (slashed x' ++ z). cbn [app]. rewrite app_assoc, <- slashed_join. unfold slashed. rewrite flat_map_app, <- app_assoc. reflexivity.
  Qed.
End File.
