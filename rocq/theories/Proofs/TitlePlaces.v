(** The headings of the places of documents that the schema describes. *)
From Coq Require Import Lia.
From Verif.Base Require Import PyStr PyNum PyVal PyDict Outcome.
From Verif.Model Require Import Flatten Titles Schema.
From Verif.Spec Require Import Flat Sites Paths Headings SchemaFields SchemaTitled Titled RoundTrip TitledTrip.
From Verif.Proofs Require Import FlattenPaths SchemaTrace SchemaColumns SchemaTypes SchemaTitles SchemaLines SchemaReady SchemaHeadings SchemaOnce TitledSchema TitleChain.

Lemma heading_path_app a b : heading_path (a ++ b) = heading_path a ++ heading_path b.
Proof. apply flat_map_app. Qed.
Lemma heading_path_zero Q i : In (HPos i) (heading_path Q) -> i = 0%Z.
Proof. intros H. apply in_flat_map in H as ([k [j|]] & _ & H); cbn in H; [destruct H as [H|[H|[]]]|destruct H as [H|[]]]; congruence. Qed.
Lemma heading_path_down ks : no_position (heading_path (down ks)).
Proof. intros i H. apply in_flat_map in H as ([k o] & H & Q). apply in_map_iff in H as (k' & E & _). injection E as _ <-. destruct Q as [Q|[]]. discriminate. Qed.
Lemma zero_pre Q k : zero_text (heading_path Q ++ [HKey k]) = pre Q ++ k.
Proof.
  induction Q as [|[k0 o] Q IH]; [reflexivity|]. unfold pre in *. cbn [heading_path flat_map app fst snd]. unfold step_text at 1. cbn [fst snd]. fold (heading_path Q).
  assert (Ne : heading_path Q ++ [HKey k] <> []) by (destruct (heading_path Q); discriminate).
  assert (E : forall x l, l <> [] -> join sl (x :: l) = x ++ sl ++ join sl l) by (intros x [|y l] H; [congruence|reflexivity]).
  unfold zero_text in *. destruct o as [i|].
  - cbn [app map]. rewrite !E; [| |discriminate]; [|destruct (heading_path Q); discriminate]. fold (heading_path Q). rewrite IH. unfold sl. rewrite <- !app_assoc. reflexivity.
  - cbn [app map]. rewrite E; [|destruct (heading_path Q); discriminate]. fold (heading_path Q). rewrite IH. unfold sl. rewrite <- !app_assoc. reflexivity.
Qed.

Section SheetOf.
  Variable O : popts.
  Lemma sheet_after_app r q0 a b : sheet_after O r q0 (a ++ b) = sheet_after O (sheet_after O r q0 a) (q0 ++ a) b.
  Proof. revert r q0. induction a as [|[k o] a IH]; intros r q0; cbn [app sheet_after]; [rewrite app_nil_r; reflexivity|]. rewrite IH, <- app_assoc. reflexivity. Qed.
  Lemma sheet_after_down r q0 ks : sheet_after O r q0 (down ks) = r.
  Proof. revert q0. induction ks as [|k ks IH]; intros q0; [reflexivity|]. cbn [down map sheet_after]. apply IH. Qed.
  Lemma sheet_place Q0 k i ks : sheet_of_place O (Q0 ++ (k, Some i) :: down ks) = Some (array_sheet O Q0 k).
  Proof. unfold sheet_of_place. rewrite sheet_after_app. cbn [sheet_after app]. apply sheet_after_down. Qed.
  Lemma sheet_item x : sheet_of_place O (it_path x) = Some (array_sheet O (it_at x) (it_key x)).
  Proof. unfold it_path. exact (sheet_place (it_at x) (it_key x) (it_pos x) []). Qed.
  Lemma sheet_down ks : sheet_of_place O (down ks) = None.
  Proof. apply sheet_after_down. Qed.
End SheetOf.
(** a place is inside objects only, or its last array is on the way *)
Lemma last_array (Q : jpath) : (exists ks, Q = down ks) \/ exists Q0 k i ks, Q = Q0 ++ (k, Some i) :: down ks.
Proof.
  induction Q as [|[k o] Q [(ks & ->)|(Q0 & k' & i & ks & ->)]]; [left; exists []; reflexivity| |].
  - destruct o as [i|]; [right; exists [], k, i, ks; reflexivity|left; exists (k :: ks); reflexivity].
  - right. exists ((k, o) :: Q0), k', i, ks. reflexivity.
Qed.

Section Places.
  Variable (SO : sopts).
  Lemma heading_path_cons k o Q : heading_path ((k, o) :: Q) = HKey k :: match o with Some _ => [HPos 0] | None => [] end ++ heading_path Q.
  Proof. reflexivity. Qed.
  Lemma chain_not_pos S i p ts : ~ chain SO S (HPos i :: p) ts.
  Proof. intros C. destruct (chain_inv _ _ _ _ C) as (? & ? & ? & _ & _ & [(? & _ & Q & _)|[(? & ? & _ & _ & Q & _)|(? & ? & ? & _ & _ & Q & _)]]); discriminate. Qed.
  Lemma chain_split Q0 : forall S p0 a0 k i Q ts, chain SO S (heading_path (Q0 ++ (k, Some i) :: Q)) ts -> at_titles p0 = Some a0 ->
    exists T q a v it b ts2, objects_at SO S p0 T q /\ SchemaFields.at_path q = SchemaFields.at_path p0 ++ pre Q0 /\ at_titles q = Some a /\ property SO T k v /\ SchemaFields.objects v it /\ title_of v = Some b /\
      chain SO it (heading_path Q) ts2 /\ a0 ++ joint ts = a ++ b ++ u ":" ++ joint ts2.
  Proof.
    induction Q0 as [|[k0 o] Q0 IH]; intros S p0 a0 k i Q ts C Ea; cbn [app] in C; rewrite heading_path_cons in C; cbn [app] in C; destruct (chain_inv _ _ _ _ C) as (n & v & t & P & T & [(ty & L & E & ->)|[(p' & ts' & Ob & C' & E & ->)|(i' & p' & ts' & Ob & C' & E & ->)]]).
    - discriminate.
    - injection E as <- <-. destruct (chain_not_pos _ _ _ _ C').
    - injection E as <- <-. exists S, p0, a0, v, i', t, ts'. split; [constructor|]. split; [rewrite app_nil_r; reflexivity|]. split; [exact Ea|]. split; [exact P|]. split; [exact Ob|]. split; [exact T|]. split; [exact C'|].
      rewrite joint_cons by (apply (chain_ne _ _ _ _ C')). reflexivity.
    - exfalso. injection E as _ E. destruct o; [discriminate|]. destruct Q0 as [|[? ?] ?]; discriminate.
    - injection E as -> E. destruct o as [j|]; [cbn [app] in E; subst p'; destruct (chain_not_pos _ _ _ _ C')|]. cbn [app] in E. subst p'.
      destruct (IH v (below SO S p0 n v (u "/")) (a0 ++ t ++ u ":") k i Q ts' C') as (U & q & a & v' & it & b & ts2 & Oa & Ep & Et & P' & Ob' & T' & C2 & Ej); [unfold below; cbn [at_titles]; rewrite Ea, T; reflexivity|].
      exists U, q, a, v', it, b, ts2. split; [eapply oa_object; eauto|]. split; [rewrite Ep; unfold below; cbn [SchemaFields.at_path]; unfold pre, step_text; cbn [flat_map fst snd]; rewrite <- !app_assoc; reflexivity|]. repeat (split; [assumption|]).
      rewrite joint_cons by (apply (chain_ne _ _ _ _ C')). rewrite <- Ej, <- !app_assoc. reflexivity.
    - injection E as -> E. destruct o as [j|]; cbn [app] in E; [|destruct Q0 as [|[? ?] ?]; discriminate]. injection E as E. subst p'.
      destruct (IH i' (below SO S p0 n v (u "/0/")) (a0 ++ t ++ u ":") k i Q ts' C') as (U & q & a & v' & it & b & ts2 & Oa & Ep & Et & P' & Ob' & T' & C2 & Ej); [unfold below; cbn [at_titles]; rewrite Ea, T; reflexivity|].
      exists U, q, a, v', it, b, ts2. split; [eapply oa_array; eauto|]. split; [rewrite Ep; unfold below; cbn [SchemaFields.at_path]; unfold pre, step_text; cbn [flat_map fst snd]; rewrite <- !app_assoc; reflexivity|]. repeat (split; [assumption|]).
      rewrite joint_cons by (apply (chain_ne _ _ _ _ C')). rewrite <- Ej, <- !app_assoc. reflexivity.
  Qed.

  Variable (S : sv) (O : popts).
  Hypothesis HT : titled_by SO S O.
  Hypothesis HR : readable_titles SO S.
  Lemma noalt : forall o, ~ alternatives S o. Proof. apply HR. Qed.
  Lemma top_here : top S S. Proof. right. split; [exact noalt|reflexivity]. Qed.
  Lemma top_only R : top S R -> R = S. Proof. intros [(l & A & _)|[_ ->]]; [destruct (noalt _ A)|reflexivity]. Qed.
  Lemma plain_s : plain_schema SO S.
  Proof. apply plain_of; [exact noalt| |]; apply HR. Qed.
  Lemma place_heading Q k ts : chain SO S (heading_path (Q ++ [(k, None)])) ts -> heading O (sheet_of_place O Q) (pre Q ++ k) = joint ts.
  Proof.
    destruct HR as (H1 & H2 & H3 & H4 & H5 & H6 & H7 & H8). intros C. destruct (last_array Q) as [(ks & ->)|(Q0 & kk & i & ks & ->)].
    - rewrite sheet_down. apply (given_only _ _ _ _ (main_heading SO S O HT H4 _)). apply main_once; [exact plain_s|]. exists S. split; [exact top_here|]. rewrite heading_path_app in C. cbn [heading_path flat_map fst snd app] in C.
      pose proof (chain_gives _ _ _ _ C) as G. change (flat_map _ (down ks)) with (heading_path (down ks)) in G. rewrite zero_pre in G. apply G. intros j Hj. apply in_app_or in Hj as [Hj|[Hj|[]]]; [exact (heading_path_down ks j Hj)|discriminate].
    - rewrite sheet_place. rewrite <- app_assoc in C. cbn [app] in C. destruct (chain_split Q0 S SchemaFields.whole [] kk i (down ks ++ [(k, None)]) ts C eq_refl) as (T & q & a & v & it & b & ts2 & Oa & Ep & Et & P & Ob & Tv & C2 & Ej). cbn [SchemaFields.at_path SchemaFields.whole app] in Ep, Ej.
      assert (A : array_in SO S q (ids_at SO T q) kk v it) by (exists S, T; split; [exact top_here|]; auto).
      assert (Es : array_sheet O Q0 kk = sheet_of SO q kk v).
      { apply (given_only _ _ _ _ (sheet_heading SO S O HT H4 Q0 kk)). apply sheet_once; [exact plain_s|]. exists q, (ids_at SO T q), v, it, a. auto. }
      assert (Ec : pre (Q0 ++ (kk, Some i) :: down ks) ++ k = (pre Q0 ++ kk) ++ u "/0/" ++ pre (down ks) ++ k).
      { unfold pre. rewrite flat_map_app. cbn [flat_map]. unfold step_text at 2. cbn [fst snd]. rewrite <- !app_assoc. reflexivity. }
      rewrite Ec. rewrite heading_path_app in C2. change (heading_path [(k, None)]) with [HKey k] in C2.
      assert (G : gives SO it (pre (down ks) ++ k) (Some (joint ts2))).
      { rewrite <- zero_pre. apply (chain_gives _ _ _ _ C2). intros j Hj. apply in_app_or in Hj as [Hj|[Hj|[]]]; [exact (heading_path_down ks j Hj)|discriminate]. }
      assert (I : item_title SO S (array_sheet O Q0 kk) ((pre Q0 ++ kk) ++ u "/0/" ++ pre (down ks) ++ k) (joint ts)).
      { exists q, (ids_at SO T q), kk, v, it, (pre (down ks) ++ k), (Some (joint ts2)). split; [exact A|]. split; [exact Es|]. split; [exact G|]. split; [rewrite Ep, <- !app_assoc; reflexivity|]. unfold sub_heading. destruct HT as (st & w & _ & -> & _). exists a, b, (joint ts2). auto. }
      apply (given_only _ _ _ _ (item_heading SO S O HT H4 _ _ _ H5 (or_introl (ex_intro _ _ I)))). apply item_once; [exact plain_s|exact H6|exact I].
  Qed.
End Places.

(** ** Titles read as titles *)
Lemma filter_lstrip p f s : (forall x, p x = true -> f x = false) -> filter f (lstrip p s) = filter f s.
Proof. intros H. induction s as [|x s IH]; [reflexivity|]. cbn [lstrip filter]. destruct (p x) eqn:E; [rewrite (H x E); exact IH|reflexivity]. Qed.
Lemma filter_rev' {A} f (l : list A) : filter f (rev l) = rev (filter f l).
Proof. induction l as [|x l IH]; [reflexivity|]. cbn [rev]. rewrite filter_app, IH. cbn [filter]. destruct (f x); [reflexivity|apply app_nil_r]. Qed.
Lemma remove_strip t : remove_c 32%N (strip_spaces t) = remove_c 32%N t.
Proof.
  unfold remove_c, strip_spaces, strip, rstrip. rewrite filter_rev'. rewrite filter_lstrip by (intros x E; apply N.eqb_eq in E; subst; reflexivity). rewrite filter_rev', rev_involutive. apply filter_lstrip. intros x E. apply N.eqb_eq in E. subst. reflexivity.
Qed.
Lemma lookup_two lw T i x y l : In 47%N (lookup_list lw T i (x :: y :: l)).
Proof.
  cbn [lookup_list]. destruct (parse_int x); [apply in_or_app; right; left; reflexivity|]. destruct (t_find lw T i x); [apply in_or_app; right; left; reflexivity|].
  cbn [map join]. apply in_or_app. right. left. reflexivity.
Qed.
Lemma joint_in l c : In c (joint l) -> c = 58%N \/ exists t, In t l /\ In c t.
Proof.
  induction l as [|x l IH]; [intros []|]. destruct l as [|y l]; [cbn; intros H; right; exists x; auto|]. rewrite joint_cons by discriminate. intros H. apply in_app_or in H as [H|[H|H]]; [right; exists x; split; [left; reflexivity|exact H]|left; symmetry; exact H|].
  destruct (IH H) as [E|(t & Ht & Hc)]; [auto|right; exists t; split; [right; exact Ht|exact Hc]].
Qed.
Lemma joint_two x y l : In 58%N (joint (x :: y :: l)).
Proof. rewrite joint_cons by discriminate. apply in_or_app. right. left. reflexivity. Qed.
Lemma split_joint l : l <> [] -> Forall word l -> split_on colon (joint l) = l.
Proof. intros H F. unfold joint. apply (split_join 58%N); [exact H|]. intros x Hx. rewrite Forall_forall in F. apply (F x Hx). Qed.

Section Titles.
  Variable (SO : sopts) (S : sv) (O : popts).
  Hypothesis HT : titled_by SO S O.
  Hypothesis HR : readable_titles SO S.
  Lemma each_word : each SO S (fun _ _ v => forall t, title_of v = Some t -> word t).
  Proof.
    intros T n v W (r & d & E & Hin & _). pose proof HR as (_ & _ & _ & _ & Wd & _). exact (proj1 (proj2 (proj2 (Wd S T r d n v (top_here SO S HR) W E Hin)))).
  Qed.
  Lemma chain_words p ts : chain SO S p ts -> Forall word ts.
  Proof. intros C. apply (chain_titles _ _ _ _ C). exact each_word. Qed.
  Lemma chain_unnumbered : unnumbered_titles SO S.
  Proof. intros T n v W P. pose proof HR as (_ & _ & _ & _ & _ & _ & _ & H). exact (proj2 (H T n v W P)). Qed.
  Lemma has_titles : titled_objects SO S.
  Proof. intros T n v W P H Q. pose proof HR as ((_ & Hc) & _). destruct (Hc T W) as [A _]. destruct (A n v P H) as (t & E). congruence. Qed.
  Lemma once_s : once SO S. Proof. apply (plain_s SO S HR). Qed.
  Lemma titles_fun T n v n' v' t t' : within SO S T -> property SO T n v -> property SO T n' v' -> title_of v = Some t -> title_of v' = Some t' -> same_title SO t t' -> n = n' /\ v = v'.
  Proof.
    intros W (r & d & E & Hin & L) (r' & d' & E' & Hin' & L') Tv Tv' Sm. pose proof HR as ((_ & Hc) & _). destruct (Hc T W) as [_ B].
    destruct E as (r0 & d0 & -> & E). destruct E' as (r1 & d1 & Q & E'). injection Q as <- <-. rewrite E in E'. injection E' as <- <-.
    assert (E1 : entry (u "properties") (VO r0 d0) (VO r d)) by (exists r0, d0; auto). pose proof (ForallOrdPairs_In (B r d E1) _ _ Hin Hin') as [Q|[Q|Q]].
    - injection Q as -> ->. auto.
    - exfalso. exact (Q t t' L L' Tv Tv' Sm).
    - exfalso. apply (Q t' t L' L Tv' Tv). symmetry. exact Sm.
  Qed.
  Lemma title_ne v t : title_of v = Some t -> t <> [].
  Proof. unfold title_of. destruct (own_title v) as [[[| | | | |[|? ?]|]| |]|]; intros [=]. subst. discriminate. Qed.
  Lemma joint_ne p ts : chain SO S p ts -> joint ts <> [].
  Proof.
    intros C. destruct (chain_inv _ _ _ _ C) as (n & v & t & _ & T & [(_ & _ & _ & ->)|[(? & ts' & _ & C' & _ & ->)|(? & ? & ts' & _ & C' & _ & ->)]]).
    - exact (title_ne v t T).
    - rewrite joint_cons by apply (chain_ne _ _ _ _ C'). pose proof (title_ne v t T). destruct t; [congruence|discriminate].
    - rewrite joint_cons by apply (chain_ne _ _ _ _ C'). pose proof (title_ne v t T). destruct t; [congruence|discriminate].
  Qed.
  Lemma chain_one p t : chain SO S p [t] -> exists n v, p = [HKey n] /\ property SO S n v /\ title_of v = Some t.
  Proof.
    intros C. destruct (chain_inv _ _ _ _ C) as (n & v & t' & P & T & [(ty & _ & -> & E)|[(p' & ts' & _ & C' & _ & E)|(i & p' & ts' & _ & C' & _ & E)]]).
    - injection E as <-. exists n, v. auto.
    - exfalso. injection E as _ <-. exact (proj1 (proj2 (chain_ne _ _ _ _ C')) eq_refl).
    - exfalso. injection E as _ <-. exact (proj1 (proj2 (chain_ne _ _ _ _ C')) eq_refl).
  Qed.

  (** a title of an id is not the key of a title *)
  Lemma id_again sn p n ts : own_words SO S n -> chain SO S (p ++ [HKey n]) ts -> heading O (Some sn) (joint ts) = joint ts.
  Proof.
    intros Ow C. pose proof HT as (st & w & E & Ht & Hp & Hs). pose proof HR as (Hcl & Hko & Hpn & Hnf & Hwd & Hsa & Hid & Hfn). pose proof (chain_words _ _ C) as Wts.
    unfold heading, titles_of. rewrite Hp, Hs. cbn [sci_subs schema_info_of]. destruct (sget sn (sp_subs st)) as [x|] eqn:Ex; [|reflexivity]. destruct (sget (joint ts) (sh_titles x)) as [t|] eqn:Et; [|reflexivity].
    assert (Hh : has_title st sn (joint ts) t) by (exists x; auto).
    assert (No : ~ In 47%N (joint ts)).
    { intros Hin. apply joint_in in Hin as [Hin|(t0 & Ht0 & Hin)]; [discriminate|]. rewrite Forall_forall in Wts. destruct (Wts t0 Ht0) as [W _]. contradiction. }
    set (D := fun m : str => exists T v, within SO S T /\ property SO T m v).
    destruct (start_runs SO S st w E Hnf D True) as [A _].
    { intros _ R T m v HRt W P. exists T, v. rewrite (top_only SO S HR R HRt) in W. auto. }
    destruct (A sn _ t Hh) as [(q & ids & m & v & i & f & y & _ & _ & _ & Ek & _)|(q & ids & m & v & i & lk & T & (R & T0 & Htop & Oa & _ & _ & ->) & _ & Hin & Ek & Ft)].
    { exfalso. apply No. rewrite Ek. apply in_or_app. right. apply in_or_app. right. left. reflexivity. }
    specialize (Ft I). rewrite (top_only SO S HR R Htop) in Oa.
    destruct (ids_chain SO S SchemaFields.whole T0 q Oa Ht has_titles Hid [] eq_refl t Hin) as [[]|(p' & ts' & C' & Et')]. cbn [app] in Et'. subst t.
    unfold lookup_header in Ek. rewrite split_joint in Ek; [|apply (chain_ne _ _ _ _ C')|exact (chain_words _ _ C')].
    destruct ts' as [|t' [|t2 ts']]; [destruct (proj1 (proj2 (chain_ne _ _ _ _ C')) eq_refl)| |exfalso; apply No; rewrite Ek; apply lookup_two].
    destruct (chain_one _ _ C') as (m' & i0 & Em & Pi & Ti). destruct p' as [|? p']; [|destruct p'; discriminate]. injection Em as <-.
    cbn [lookup_list] in Ek. rewrite (chain_unnumbered S (u "id") i0 (within_here SO S) Pi t' Ti) in Ek.
    assert (Single : ~ In 58%N (joint ts) -> exists t1 v1, ts = [t1] /\ property SO S n v1 /\ title_of v1 = Some t1).
    { intros N58. destruct ts as [|t1 [|t2 ts]]; [destruct (proj1 (proj2 (chain_ne _ _ _ _ C)) eq_refl)| |exfalso; apply N58; apply joint_two]. destruct (chain_one _ _ C) as (m2 & v1 & Em & P1 & T1).
      destruct p as [|? p]; [|destruct p; discriminate]. injection Em as <-. exists t1, v1. auto. }
    destruct (t_find (so_lower SO) T lk t') as [j|] eqn:Ef.
    - rewrite app_nil_r in Ek. unfold table_ok in Ft. rewrite Forall_forall in Ft. unfold t_node in Ek. destruct (nth_in_or_default j T tn_empty) as [Hj|Hj]; [|rewrite Hj in Ek; destruct (joint_ne _ _ C Ek)].
      destruct (Ft _ Hj) as [Q|(T1 & v1 & W1 & P1)]; [rewrite Q in Ek; destruct (joint_ne _ _ C Ek)|]. rewrite <- Ek in P1.
      destruct Single as (t1 & v2 & -> & P2 & T2); [apply (Hfn _ _ _ W1 P1)|]. change (joint [t1]) with t1 in *. destruct (str_eqb_spec n (u "id")) as [->|Nn].
      + pose proof (once_s S (u "id") v2 i0 (within_here SO S) P2 Pi) as <-. change (joint [t']) with t'. congruence.
      + exfalso. exact (Ow Nn v2 t1 P2 T2 T1 t1 v1 W1 P1 eq_refl).
    - cbn [map join] in Ek. pose proof (chain_words _ _ C') as Wt'. apply Forall_inv in Wt'.
      destruct Single as (t1 & v2 & -> & P2 & T2).
      { rewrite Ek. intros Hin5. apply (proj1 (proj2 Wt')). clear - Hin5. unfold strip_spaces, strip, rstrip in Hin5. rewrite <- in_rev in Hin5.
        assert (Sub : forall f (s : str) c, In c (lstrip f s) -> In c s) by (intros f s c; induction s as [|y s IH]; [auto|]; cbn [lstrip]; destruct (f y); [right; auto|auto]).
        apply Sub in Hin5. rewrite <- in_rev in Hin5. apply Sub in Hin5. exact Hin5. }
      change (joint [t1]) with t1 in *. change (joint [t']) with t'. destruct (titles_fun S n v2 (u "id") i0 t1 t' (within_here SO S) P2 Pi T2 Ti) as [-> ->]; [|congruence].
      unfold same_title. rewrite Ek, remove_strip. reflexivity.
  Qed.
End Titles.
