(** Writing the records as JSON; finding the records of a JSON document. *)
From Coq Require Import QArith Permutation Lia.
From Verif.Base Require Import PyStr PyNum PyVal PyDict Outcome.
From Verif.Model Require Import Warn Lib Convert Input Json Flatten Readers Csv Output Commands.
From Verif.Spec Require Import Sites Paths Grids CsvText Written RoundTrip Typed Trip.
From Verif.Spec Require Conversion.
From Verif.Proofs Require Import JvInd FlattenPaths CommandFacts CommandRun.
From Verif.Proofs Require ConvertFacts.
Import Spec.Conversion(truncates) ConvertFacts(truncates_int, truncates_unique, dec_trunc_ok).
Local Open Scope list_scope.
Local Open Scope res_scope.

(** a Decimal that is whole is what is left when it is cut *)
Lemma whole_truncated n c e z : py_eqb (SInt z) (SDec (DFin n c e)) = true -> py_eqb (SInt (dec_trunc n c e)) (SDec (DFin n c e)) = true.
Proof.
  intros H. assert (truncates (inject_Z (if n then - Z.of_N c else Z.of_N c) * pow10 e) z) as H1.
  { apply truncates_int. apply Qeq_sym. apply Qeq_bool_iff. exact H. }
  rewrite <- (truncates_unique _ _ _ H1 (dec_trunc_ok n c e _ eq_refl)). exact H.
Qed.
Lemma value_dumped E a b : (number a = true -> finite a) -> same_value a b -> exists j, json_scalar E b = Ok j [] /\ value_json a j.
Proof.
  intros Hf H. assert (K : number a = true /\ number b = true /\ py_eqb a b = true -> exists j, json_scalar E b = Ok j [] /\ value_json a j).
  { intros (Na & Nb & Eq). specialize (Hf Na). destruct b as [| |z|d|f|t|d]; try discriminate Nb.
    - exists (JInt z). split; [reflexivity|]. constructor; assumption.
    - destruct d as [n c e|n|n sg p].
      + cbn [json_scalar json_decimal]. cbv zeta. destruct (py_eqb (SInt (dec_trunc n c e)) (SDec (DFin n c e))) eqn:Ez.
        * exists (JInt (dec_trunc n c e)). split; [reflexivity|]. constructor; [exact Na|]. rewrite py_eqb_sym in Ez. eapply py_eqb_trans; eassumption.
        * exists (JDouble (DFin n c e)). split; [reflexivity|]. constructor; [exact Na|exact Eq|]. intros z. apply not_true_is_false. intros X. rewrite py_eqb_sym in X.
          rewrite (whole_truncated n c e z (py_eqb_trans _ _ _ X Eq)) in Ez. discriminate Ez.
      + exfalso. destruct a as [| |z|[na ca ea| |]|f|t|d]; try destruct Hf; discriminate Eq.
      + exfalso. destruct a as [| |z|[na ca ea| |]|f|t|d]; try destruct Hf; discriminate Eq.
    - exists (JFlt f). split; [reflexivity|]. constructor; assumption. }
  destruct a as [| ba|za|da|fa|ta|ta], b as [|bb|zb|db|fb|tb|tb]; cbn [same_value] in H; try (apply K; exact H); try (destruct H as (N1 & N2 & _); discriminate).
  - subst bb. exists (JBool ba). split; [reflexivity|constructor].
  - subst tb. exists (JStr ta). split; [reflexivity|constructor].
Qed.
Lemma list_dumped E l : forall m, (forall s, In (JS s) l -> number s = true -> finite s) -> Forall2 same_item l m -> exists js, json_list (json_scalar E) m = Ok js [] /\ Forall2 leaf_json l js.
Proof.
  induction l as [|x l IH]; intros m Hf F; inversion F as [|? b ? m' Hx F']; subst.
  - exists []. split; [reflexivity|constructor].
  - destruct x as [a| |]; try destruct Hx. destruct (value_dumped E a b (Hf a (or_introl eq_refl)) Hx) as (j & Ej & Hj). destruct (IH m' (fun s Hs => Hf s (or_intror Hs)) F') as (js & Ejs & Hjs).
    exists (j :: js). cbn [json_list]. rewrite Ej. cbn [bind]. rewrite Ejs. cbn [bind ret]. split; [reflexivity|]. constructor; [constructor; exact Hj|exact Hjs].
Qed.
Lemma leaf_dumped E y c : numbers_finite y -> same_leaf y c -> exists j, json_cell E c = Ok j [] /\ leaf_json y j.
Proof.
  intros Hf H. destruct y as [a|l|d], c as [b|m|m|g]; try (exfalso; exact H).
  - destruct (value_dumped E a b) as (j & Ej & Hj); [apply Hf; constructor|exact H|]. exists j. split; [exact Ej|constructor; exact Hj].
  - destruct (list_dumped E l m) as (js & Ej & Hj); [|exact H|].
    + intros s Hs. apply Hf. apply (in_items s l (JS s) Hs). constructor.
    + exists (JArr js). cbn [json_cell]. rewrite Ej. split; [reflexivity|constructor; exact Hj].
  - cbn [same_leaf] in H.
    assert (G : exists js, json_list (fun x => y <- json_list (json_scalar E) x ;; ret (JArr y)) m = Ok js [] /\ Forall2 leaf_json l js).
    { assert (Hf' : forall l', In (JA l') l -> forall s, In (JS s) l' -> number s = true -> finite s).
      { intros l' Hl s Hs. apply Hf. apply (in_items s l (JA l') Hl). apply (in_items s l' (JS s) Hs). constructor. }
      clear Hf. revert Hf'. induction H as [|x r l m Hx F IH]; intros Hf.
      - exists []. split; [reflexivity|constructor].
      - destruct x as [|l'|]; try (exfalso; exact Hx). destruct (list_dumped E l' r (Hf l' (or_introl eq_refl)) Hx) as (j & Ej & Hj). destruct IH as (js & Ejs & Hjs); [intros l2 Hl2; apply Hf; right; exact Hl2|].
        exists (JArr j :: js). cbn [json_list]. rewrite Ej. cbn [bind ret app]. rewrite Ejs. cbn [bind ret app]. split; [reflexivity|]. constructor; [constructor; exact Hj|exact Hjs]. }
    destruct G as (js & Ejs & Hjs). exists (JArr js). cbn [json_cell]. rewrite Ejs. split; [reflexivity|constructor; exact Hjs].
Qed.
Lemma dump_list_total {A B} (f : A -> R B) (Q : A -> B -> Prop) l : Forall (fun x => exists y, f x = Ok y [] /\ Q x y) l -> exists r, dump_list f l = Ok r [] /\ Forall2 Q l r.
Proof.
  induction 1 as [|x l (y & Ey & Hy) _ (r & Er & Hr)]; [exists []; split; [reflexivity|constructor]|].
  exists (y :: r). change (dump_list f (x :: l)) with (y <- f x ;; r <- dump_list f l ;; ret (y :: r)). rewrite Ey. cbn [bind]. rewrite Er. split; [reflexivity|constructor; assumption].
Qed.
Lemma dump_items_total {A} (f : A -> R jout) (Q : str -> A -> jout -> Prop) d : Forall (fun kv => exists y, f (snd kv) = Ok y [] /\ Q (fst kv) (snd kv) y) d ->
  exists r, dump_items f d = Ok r [] /\ Forall2 (fun x y => fst y = fst x /\ Q (fst x) (snd x) (snd y)) d r.
Proof.
  intros H. apply (dump_list_total (fun kv => y <- f (snd kv) ;; ret (fst kv, y)) (fun x y => fst y = fst x /\ Q (fst x) (snd x) (snd y))).
  eapply Forall_impl; [|exact H]. intros [k a] (y & Ey & Hy). cbn [fst snd] in *. exists (k, y). rewrite Ey. split; [reflexivity|]. split; [reflexivity|exact Hy].
Qed.
Section Dump.
  Variable Wd : world.
  Variable arranged : list jv -> list jv -> Prop.
  Hypothesis Harr : forall l l', arranged l l' -> incl l' l.
  Lemma dict_dumped o d : (forall k x, In (k, x) o -> forall n, same arranged x n -> exists j, dump_node Wd n = Ok j [] /\ same_json arranged x j) ->
    same arranged (JO o) (VDict d) -> exists r, dump_items (dump_node Wd) d = Ok r [] /\ same_json arranged (JO o) (OObj r).
  Proof.
    intros IH H. inversion H as [| o' d' Nd Hk Hs Q1 Q2|]; subst o' d'.
    destruct (dump_items_total (dump_node Wd) (fun k n j => forall x, sget k o = Some x -> same_json arranged x j) d) as (r & Er & F).
    - apply Forall_forall. intros [k n] Hin. cbn [fst snd]. assert (Ho : In k (map fst o)) by (apply Hk; change k with (fst (k, n)); apply in_map; exact Hin).
      destruct (sget k o) as [x|] eqn:Ex; [|apply sget_None in Ex; contradiction]. destruct (IH k x (sget_In _ _ _ Ex) n) as (j & Ej & Hj); [apply (Hs k x n Ex); apply In_sget; assumption|].
      exists j. split; [exact Ej|]. intros x' Q. congruence.
    - exists r. split; [exact Er|]. assert (Ek : map fst r = map fst d) by (clear -F; induction F as [|x y d r [A _] F IH]; [reflexivity|]; cbn [map]; congruence).
      constructor; [rewrite Ek; exact Nd|intros k; rewrite Ek; apply Hk|]. intros k x j Ex Ej. apply sget_In in Ej. clear -F Ex Ej. induction F as [|[k1 n1] [k2 j2] d r [A B] F IH]; [destruct Ej|]. cbn [fst snd] in *. destruct Ej as [Q|Q]; [injection Q as -> ->; subst k1; apply B; exact Ex|apply IH; exact Q].
  Qed.
  Lemma node_dumped x : forall n, numbers_finite x -> same arranged x n -> exists j, dump_node Wd n = Ok j [] /\ same_json arranged x j.
  Proof.
    induction x as [s|l IH|o IH] using jv_ind'; intros n Hf H.
    - inversion H as [y v Hl| |]; subst. destruct (leaf_dumped (we_env (wd_wenv Wd)) _ _ Hf Hl) as (j & Ej & Hj). exists (OLeaf j). cbn [dump_node]. rewrite Ej. split; [reflexivity|constructor; exact Hj].
    - inversion H as [y v Hl| |l0 l' m Ha F Q1 Q2]; subst.
      + destruct (leaf_dumped (we_env (wd_wenv Wd)) _ _ Hf Hl) as (j & Ej & Hj). exists (OLeaf j). cbn [dump_node]. rewrite Ej. split; [reflexivity|constructor; exact Hj].
      + assert (G : exists r, dump_list (fun d => x <- dump_items (dump_node Wd) d ;; ret (OObj x)) m = Ok r [] /\ Forall2 (same_json arranged) l' r).
        { rewrite Forall_forall in IH. pose proof (Harr l l' Ha) as Hi. clear Ha H. induction F as [|x d l' m Hx F IHF]; [exists []; split; [reflexivity|constructor]|].
          destruct IHF as (r & Er & Hr); [intros z Hz; apply Hi; right; exact Hz|]. assert (Hin : In x l) by (apply Hi; left; reflexivity).
          destruct (IH x Hin (VDict d)) as (j & Ej & Hj); [intros s Hs; apply Hf; apply (in_items s l x Hin Hs)|exact Hx|].
          exists (j :: r). change (dump_list ?f (d :: m)) with (y <- f d ;; r <- dump_list f m ;; ret (y :: r)). cbv beta. cbn [dump_node] in Ej. rewrite Ej. cbn [bind]. rewrite Er. split; [reflexivity|constructor; assumption]. }
        destruct G as (r & Er & Hr). exists (OArr r). cbn [dump_node]. rewrite Er. split; [reflexivity|]. econstructor; eassumption.
    - inversion H as [y v Hl|o0 d Nd Hk Hs Q1 Q2|]; subst; [destruct v; destruct Hl|].
      destruct (dict_dumped o d) as (r & Er & Hr); [|exact H|].
      + intros k x Hin n Hn. rewrite Forall_forall in IH. apply (IH (k, x) Hin n); [|exact Hn]. intros s Hs0. apply Hf. apply (in_fields s o k x Hin Hs0).
      + exists (OObj r). cbn [dump_node]. rewrite Er. split; [reflexivity|exact Hr].
  Qed.
  Lemma records_dumped docs out : Forall (fun d => numbers_finite (JO d)) docs -> same_records arranged docs out ->
    exists j, dump_records Wd out = Ok j [] /\ same_json arranged (JA (map JO docs)) j.
  Proof.
    intros Hf H. destruct (node_dumped (JA (map JO docs)) (VList out)) as (j & Ej & Hj); [|exact H|].
    - intros s Hs. inversion Hs as [|l x Hin Hx|]; subst. apply in_map_iff in Hin as (d & <- & Hd). rewrite Forall_forall in Hf. apply (Hf d Hd). exact Hx.
    - exists j. split; [exact Ej|exact Hj].
  Qed.
End Dump.

(** ** The records of a JSON document *)
Lemma ijson_off path v : forall steps, (forall e, join [46%N] (steps ++ e) <> path) -> ijson_items path steps v = [].
Proof.
  induction v as [s|l IH|d IH] using jv_ind'; intros steps H.
  all: cbn [ijson_items]; pose proof (H []) as H0; rewrite app_nil_r in H0; destruct (str_eqb_spec (join [46%N] steps) path) as [Q|_]; [congruence|].
  - reflexivity.
  - induction IH as [|x l Hx _ IHl]; [reflexivity|]. cbn [flat_map]. rewrite Hx, IHl; [reflexivity|]. intros e. rewrite <- app_assoc. apply H.
  - induction IH as [|[k x] d Hx _ IHl]; [reflexivity|]. cbn [flat_map fst snd] in *. rewrite Hx, IHl; [reflexivity|]. intros e. rewrite <- app_assoc. apply H.
Qed.
(** a step that is not the next one *)
Lemma split_join_gen c (ls : list str) : forall (k : str) (r : list str), (forall x : str, In x ls -> ~ In c x) -> ~ In c k -> exists t, split_on c (join [c] (ls ++ k :: r)) = ls ++ k :: t.
Proof.
  induction ls as [|x ls IH]; intros k r Hl Hk.
  - cbn [app]. destruct r as [|y r]; [cbn [join]; exists []; apply split_on_no_sep; exact Hk|]. rewrite join_cons. exists (split_on c (join [c] (y :: r))). apply split_on_app. exact Hk.
  - destruct (IH k r (fun z Hz => Hl z (or_intror Hz)) Hk) as (t & Et). exists t. cbn [app]. destruct (ls ++ k :: r) as [|y r'] eqn:E; [destruct ls; discriminate E|]. rewrite join_cons. cbn [app]. 
    rewrite split_on_app by (apply Hl; left; reflexivity). rewrite Et. reflexivity.
Qed.
Section Ijson.
  Variable ks : list str.
  Hypothesis Hks : forall k, In k ks -> ~ In 46%N k.
  Lemma Hpath : split_on 46%N (join [46%N] (ks ++ [u "item"])) = ks ++ [u "item"].
  Proof. apply split_join; [destruct ks; discriminate|]. intros x Hx. apply in_app_or in Hx as [Hx|[<-|[]]]; [apply Hks; exact Hx|]. cbn. intuition discriminate. Qed.
  Lemma off_path ks1 k ks2 : ks ++ [u "item"] = ks1 ++ ks2 -> ~ In 46%N k -> hd_error ks2 <> Some k -> forall e, join [46%N] ((ks1 ++ [k]) ++ e) <> join [46%N] (ks ++ [u "item"]).
  Proof.
    intros E Hk Hn e Q. rewrite <- app_assoc in Q. cbn [app] in Q. destruct (split_join_gen 46%N ks1 k e) as (t & Et); [|exact Hk|].
    - intros x Hx. assert (In x (ks ++ [u "item"])) by (rewrite E; apply in_or_app; left; exact Hx). apply in_app_or in H as [H|[<-|[]]]; [apply Hks; exact H|]. cbn. intuition discriminate.
    - rewrite Q, Hpath, E in Et. apply app_inv_head in Et. subst ks2. apply Hn. reflexivity.
  Qed.
  Lemma on_path ks1 : (exists ks2, ks2 <> [] /\ ks ++ [u "item"] = ks1 ++ ks2) -> str_eqb (join [46%N] ks1) (join [46%N] (ks ++ [u "item"])) = false.
  Proof.
    intros (ks2 & N & E). destruct (str_eqb_spec (join [46%N] ks1) (join [46%N] (ks ++ [u "item"]))) as [Q|_]; [|reflexivity]. exfalso.
    destruct ks1 as [|x ks1].
    - cbn [join] in Q. pose proof Hpath as H. rewrite <- Q in H. cbn in H. destruct ks as [|k l]; [discriminate H|destruct l; discriminate H].
    - pose proof Hpath as H. rewrite <- Q, split_join in H; [|discriminate|].
      + rewrite E in H. rewrite <- (app_nil_r (x :: ks1)) in H at 1. apply app_inv_head in H. congruence.
      + intros z Hz. assert (In z (ks ++ [u "item"])) by (rewrite E; apply in_or_app; left; exact Hz). apply in_app_or in H0 as [H0|[<-|[]]]; [apply Hks; exact H0|]. cbn. intuition discriminate.
  Qed.
  Lemma ijson_items_end l : ijson_items (join [46%N] (ks ++ [u "item"])) ks (JA l) = l.
  Proof.
    cbn [ijson_items]. rewrite on_path by (exists [u "item"]; split; [discriminate|reflexivity]). clear Hks. induction l as [|x l IH]; [reflexivity|]. cbn [flat_map]. rewrite IH.
    assert (Q : forall y, ijson_items (join [46%N] (ks ++ [u "item"])) (ks ++ [u "item"]) y = [y]) by (intros y; destruct y; cbn [ijson_items]; rewrite str_eqb_refl; reflexivity). rewrite Q. reflexivity.
  Qed.
  (** through one object *)
  Lemma ijson_object ks1 k ks2 d : ks ++ [u "item"] = ks1 ++ k :: ks2 -> NoDup (map fst d) -> (forall k, In k (map fst d) -> ~ In 46%N k) ->
    ijson_items (join [46%N] (ks ++ [u "item"])) ks1 (JO d) = match sget k d with Some x => ijson_items (join [46%N] (ks ++ [u "item"])) (ks1 ++ [k]) x | None => [] end.
  Proof.
    intros E Nd Hd. cbn [ijson_items]. rewrite on_path by (exists (k :: ks2); split; [discriminate|exact E]).
    assert (Off : forall k' x, In k' (map fst d) -> k' <> k -> ijson_items (join [46%N] (ks ++ [u "item"])) (ks1 ++ [k']) x = []).
    { intros k' x Hin N. apply ijson_off. apply (off_path ks1 k' (k :: ks2)); [exact E|apply Hd; exact Hin|]. cbn [hd_error]. congruence. }
    clear Hd. induction d as [|[k' x] d IH]; [reflexivity|]. cbn [flat_map fst snd]. cbn [map fst] in Nd, Off. apply NoDup_cons_iff in Nd as [N1 N2]. unfold sget. cbn [aget]. destruct (str_eqb_spec k k') as [->|N].
    - assert (Q : flat_map (fun kv => ijson_items (join [46%N] (ks ++ [u "item"])) (ks1 ++ [fst kv]) (snd kv)) d = []).
      { clear IH N2. induction d as [|[k2 x2] d IHd]; [reflexivity|]. cbn [flat_map fst snd]. rewrite Off; [|right; left; reflexivity|intros ->; apply N1; left; reflexivity]. apply IHd; [intros Q; apply N1; right; exact Q|]. intros k3 x3 Hin. apply Off. destruct Hin as [Hin|Hin]; [left; exact Hin|right; right; exact Hin]. }
      rewrite Q, app_nil_r. reflexivity.
    - rewrite Off by (try (left; reflexivity); congruence). cbn [app]. apply IH; [exact N2|]. intros k3 x3 Hin. apply Off. right. exact Hin.
  Qed.
  Lemma ijson_at_end y : ijson_items (join [46%N] (ks ++ [u "item"])) (ks ++ [u "item"]) y = [y].
  Proof. destruct y; cbn [ijson_items]; rewrite str_eqb_refl; reflexivity. Qed.
  Lemma ijson_way v0 : way v0 ks -> (forall k, In k ks -> k <> u "item") -> forall ks2 ks1 v, ks = ks1 ++ ks2 -> at_path v0 (down ks1) = Some v ->
    ijson_items (join [46%N] (ks ++ [u "item"])) ks1 v = items_there (at_path v (down ks2)).
  Proof.
    intros Hway Hit. induction ks2 as [|k ks2 IH]; intros ks1 v E Hv.
    - rewrite app_nil_r in E. subst ks1. cbn [down map at_path items_there]. destruct v as [s|l|d].
      + cbn [ijson_items]. rewrite on_path by (exists [u "item"]; split; [discriminate|reflexivity]). reflexivity.
      + apply ijson_items_end.
      + destruct (Hway ks [] d (eq_sym (app_nil_r ks)) Hv) as [Nd Hd]. rewrite (ijson_object ks (u "item") [] d eq_refl Nd Hd). destruct (sget (u "item") d) as [y|]; [apply ijson_at_end|reflexivity].
    - assert (E' : ks ++ [u "item"] = ks1 ++ k :: ks2 ++ [u "item"]) by (rewrite E, <- app_assoc; reflexivity). cbn [down map at_path]. destruct v as [s|l0|d].
      + cbn [ijson_items]. rewrite on_path by (exists (k :: ks2 ++ [u "item"]); split; [discriminate|exact E']). reflexivity.
      + cbn [ijson_items items_there]. rewrite on_path by (exists (k :: ks2 ++ [u "item"]); split; [discriminate|exact E']).
        clear Hv. induction l0 as [|x l0 IHl]; [reflexivity|]. cbn [flat_map]. rewrite IHl, app_nil_r. apply ijson_off. apply (off_path ks1 (u "item") (k :: ks2 ++ [u "item"])); [exact E'|cbn; intuition discriminate|].
        cbn [hd_error]. intros Q. injection Q as ->. apply (Hit (u "item")); [|reflexivity]. rewrite E. apply in_or_app. right. left. reflexivity.
      + destruct (Hway ks1 (k :: ks2) d E Hv) as [Nd Hd]. rewrite (ijson_object ks1 k (ks2 ++ [u "item"]) d E' Nd Hd). destruct (sget k d) as [x|] eqn:Ex; [|reflexivity].
        apply IH; [rewrite E, <- app_assoc; reflexivity|]. unfold down. rewrite map_app. change (map (fun k => (k, None)) ks1) with (down ks1). rewrite at_path_app, Hv. cbn [map at_path]. rewrite Ex. reflexivity.
  Qed.
  Theorem ijson_there v : way v ks -> (forall k, In k ks -> k <> u "item") -> ijson_items (join [46%N] (ks ++ [u "item"])) [] v = items_there (at_path v (down ks)).
  Proof. intros Hw Hi. exact (ijson_way v Hw Hi ks [] v eq_refl eq_refl). Qed.
End Ijson.
