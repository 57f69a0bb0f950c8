(** Proofs for C35. *)
From Coq Require Import Lia Permutation.
From Verif.Base Require Import PyStr PyNum PyVal PyDict Outcome.
From Verif.Model Require Import Warn Lib Flatten SortXml XmlOut.
From Verif.Spec Require Import XmlOrder XmlData.
From Verif.Proofs Require Import JvInd SortXmlFacts.

(** ** Names *)
Lemma has_colon_iff s : has_colon s = true <-> In 58%N s.
Proof. unfold has_colon. rewrite existsb_exists. split; [intros (x & Hx & Ex); apply N.eqb_eq in Ex; subst; exact Hx|]. intros H. exists 58%N. split; [exact H|reflexivity]. Qed.
Lemma split_colon_spec s : In 58%N s -> s = fst (split_colon s) ++ 58%N :: snd (split_colon s) /\ ~ In 58%N (fst (split_colon s)).
Proof.
  induction s as [|c s IH]; [intros []|]. intros H. cbn [split_colon]. destruct (N.eqb_spec c 58) as [->|Hc]; [cbn; tauto|].
  destruct H as [H|H]; [congruence|]. destruct (IH H) as [E Hn]. destruct (split_colon s) as [a b]. cbn [fst snd] in *. split; [cbn; congruence|]. intros [F|F]; [congruence|contradiction].
Qed.
Lemma split_colon_app p n : ~ In 58%N p -> split_colon (p ++ 58%N :: n) = (p, n).
Proof.
  induction p as [|c p IH]; intros H; [reflexivity|]. cbn [app split_colon]. destruct (N.eqb_spec c 58) as [->|Hc]; [exfalso; apply H; left; reflexivity|]. rewrite IH; [reflexivity|]. intros F. apply H. right. exact F.
Qed.
Section Names.
  Variable ns : nsmap.
  Lemma expand_full n : full_name ns n (expand ns n).
  Proof.
    unfold expand. destruct (has_colon n) eqn:Ec.
    - apply has_colon_iff in Ec. destruct (split_colon_spec n Ec) as [E Hn]. destruct (split_colon n) as [p m]. cbn [fst snd] in *. rewrite E at 1. apply prefixed_name; [exact Hn|]. destruct (sget p ns); auto.
    - apply plain_name. intros F. apply has_colon_iff in F. congruence.
  Qed.
  Lemma full_expand n a : full_name ns n a -> a = expand ns n.
  Proof.
    intros [m Hm|p m x Hp Hx]; unfold expand.
    - destruct (has_colon m) eqn:Ec; [apply has_colon_iff in Ec; contradiction|reflexivity].
    - assert (Ec : has_colon (p ++ 58%N :: m) = true) by (apply has_colon_iff, in_or_app; right; left; reflexivity). rewrite Ec, split_colon_app by exact Hp.
      destruct Hx as [->|[-> ->]]; reflexivity.
  Qed.
End Names.

  Lemma at_start k : startswith k (u "@") = true <-> exists a, k = at_sign :: a.
  Proof.
    destruct k as [|c k]; [split; [discriminate|intros [a [=]]]|]. change (startswith (c :: k) (u "@")) with ((c =? 64)%N && startswith k []). replace (startswith k []) with true by (destruct k; reflexivity).
    rewrite Bool.andb_true_r. destruct (N.eqb_spec c 64) as [->|H]; [split; [intros _; exists k; reflexivity|reflexivity]|]. split; [discriminate|]. intros [a [= -> _]]. contradiction.
  Qed.

(** ** Sorting *)
Lemma insert_key_perm {A} (x : str * A) l : Permutation (x :: l) (insert_key x l).
Proof. induction l as [|y l IH]; [reflexivity|]. cbn [insert_key]. destruct (str_leb _ _); [reflexivity|]. rewrite perm_swap. constructor. exact IH. Qed.
Lemma sort_keys_perm {A} (l : list (str * A)) : Permutation l (sort_keys l).
Proof. induction l as [|x l IH]; [constructor|]. cbn [sort_keys fold_right]. rewrite <- insert_key_perm. constructor. exact IH. Qed.
Lemma insert_key_map {A B} (f : str -> A -> B) x l : map (fun kv => (fst kv, f (fst kv) (snd kv))) (insert_key x l) = insert_key (fst x, f (fst x) (snd x)) (map (fun kv => (fst kv, f (fst kv) (snd kv))) l).
Proof. induction l as [|y l IH]; [reflexivity|]. cbn [insert_key map fst]. destruct (str_leb _ _); [reflexivity|]. cbn [map]. f_equal. exact IH. Qed.
Lemma sort_keys_map {A B} (f : str -> A -> B) l : map (fun kv => (fst kv, f (fst kv) (snd kv))) (sort_keys l) = sort_keys (map (fun kv => (fst kv, f (fst kv) (snd kv))) l).
Proof. induction l as [|x l IH]; [reflexivity|]. cbn [sort_keys fold_right map]. rewrite insert_key_map. f_equal. exact IH. Qed.
Lemma filter_map' {A B} (f : A -> B) p q l : (forall x, p x = q (f x)) -> filter q (map f l) = map f (filter p l).
Proof. intros H. induction l as [|x l IH]; [reflexivity|]. cbn [map filter]. rewrite <- H. destruct (p x); cbn [map]; [f_equal|]; exact IH. Qed.
Lemma sort_attributes_map {A B} (f : str -> A -> B) l : sort_attributes (map (fun kv => (fst kv, f (fst kv) (snd kv))) l) = map (fun kv => (fst kv, f (fst kv) (snd kv))) (sort_attributes l).
Proof.
  unfold sort_attributes. rewrite map_app, sort_keys_map. f_equal; [f_equal|]; apply filter_map'; reflexivity.
Qed.

(** ** One dict *)
Section Xml.
  Variable E : xenv.
  Definition items (k : str) := fix items (l : list jv) (st : xst) : XR xst :=
    match l with
    | [] => ret st
    | y :: l' => bind (match y with
                       | JO _ => bind (dict_to_xml E y k (xs_ns st)) (fun o => ret (add_child o st))
                       | JS s => leaf_to_xml k (py_str (xe_env E) s) st
                       | JA ll => leaf_to_xml k (xe_list_str E ll) st
                       end) (fun st' => items l' st')
    end.
  Definition act (k : str) (v : jv) (st : xst) : XR xst :=
    match v with
    | JA l => items k l st
    | JO _ => bind (dict_to_xml E v k (xs_ns st)) (fun o => ret (add_child o st))
    | JS s => leaf_to_xml k (py_str (xe_env E) s) st
    end.
  Definition st0 (ns : nsmap) : xst := {| xs_children := []; xs_attrib := []; xs_text := None; xs_ns := ns |}.
  Lemma dict_to_xml_eq d tag ns : dict_to_xml E (JO d) tag ns =
    bind (run_all (map (fun kv => (fst kv, act (fst kv) (snd kv))) (sort_attributes d)) (st0 ns)) (make_element E (if startswith tag (u "@xmlns") then tag else expand ns tag)).
  Proof.
    cbn [dict_to_xml]. rewrite <- (sort_attributes_map act). f_equal. f_equal. f_equal. apply map_ext. intros [k v]. cbn [fst snd]. reflexivity.
  Qed.

  Lemma bind_ok_nil {A B} (m : XR A) (f : A -> XR B) b : bind m f = Ok b [] -> exists a, m = Ok a [] /\ f a = Ok b [].
  Proof. intros H. apply bind_ok in H as (a & w1 & w2 & H1 & H2 & Hw). symmetry in Hw. apply app_eq_nil in Hw as [-> ->]. eauto. Qed.
  Lemma run_all_app {A} (l1 l2 : list (str * (A -> XR A))) st : run_all (l1 ++ l2) st = bind (run_all l1 st) (run_all l2).
  Proof.
    revert st. induction l1 as [|[k f] l1 IH]; intros st; cbn [app run_all]; [rewrite bind_ret_l; reflexivity|]. destruct (f st) as [a w|e w]; cbn [bind]; [|reflexivity]. rewrite IH.
    destruct (run_all l1 a) as [a2 w2|e w2]; cbn [bind]; [|reflexivity]. destruct (run_all l2 a2); cbn [bind]; rewrite app_assoc; reflexivity.
  Qed.
  Variable ns : nsmap.
  Definition attr_of (kv : str * jv) : list (str * str) := match kv with (c :: k, JS s) => [(expand ns k, py_str (xe_env E) s)] | _ => [] end.
  (** attributes *)
  Definition attr_entry (kv : str * jv) : Prop := exists a s, kv = (at_sign :: a, JS s) /\ startswith a (u "xmlns") = false.
  Lemma run_attrs l : Forall attr_entry l -> forall st, xs_ns st = ns ->
    run_all (map (fun kv => (fst kv, act (fst kv) (snd kv))) l) st =
    ret {| xs_children := xs_children st; xs_attrib := fold_left (fun d kv => sset (fst kv) (snd kv) d) (flat_map attr_of l) (xs_attrib st); xs_text := xs_text st; xs_ns := ns |}.
  Proof.
    induction 1 as [|kv l (a & s & -> & Ha) _ IH]; intros st Hn; cbn [map run_all flat_map fold_left].
    - rewrite <- Hn. destruct st. reflexivity.
    - cbn [fst snd act]. unfold leaf_to_xml. rewrite (proj2 (at_start (at_sign :: a)) (ex_intro _ a eq_refl)). change (startswith (at_sign :: a) (u "@xmlns")) with (startswith a (u "xmlns")). rewrite Ha. cbn iota. rewrite bind_ret_l, IH by exact Hn.
      cbn [xs_children xs_attrib xs_text xs_ns tl attr_of app fold_left fst snd]. rewrite Hn. reflexivity.
  Qed.

  (** elements and text *)
  Definition other_entry (kv : str * jv) : Prop :=
    (exists s, kv = (u "text()", JS s)) \/ (hd 0%N (fst kv) <> at_sign /\ ((exists e, snd kv = JO e) \/ exists l, snd kv = JA l /\ forall y, In y l -> exists e, y = JO e)).
  Definition good (x : jv) (tag : str) : Prop := forall o ns', dict_to_xml E x tag ns = Ok (o, ns') [] -> ns' = ns /\ exists c, o = Some c /\ mirrors E ns x tag c.
  Definition same_rest (st st' : xst) : Prop := xs_ns st' = ns /\ xs_attrib st' = xs_attrib st.
  Lemma items_good k l : (forall y, In y l -> exists e, y = JO e) -> (forall y, In y l -> good y k) -> forall st st', xs_ns st = ns -> items k l st = Ok st' [] ->
    same_rest st st' /\ xs_text st' = xs_text st /\ exists cs, xs_children st' = xs_children st ++ cs /\ Forall2 (fun y c => mirrors E ns y k c) l cs.
  Proof.
    induction l as [|y l IH]; intros He Hg st st' Hn H.
    - injection H as <-. split; [split; auto|]. split; [reflexivity|]. exists []. rewrite app_nil_r. split; [reflexivity|constructor].
    - cbn [items] in H. apply bind_ok_nil in H as (st1 & H1 & H2). destruct (He y (or_introl eq_refl)) as [e ->]. apply bind_ok_nil in H1 as ([o ns'] & H1 & H3). rewrite Hn in H1.
      destruct (Hg _ (or_introl eq_refl) _ _ H1) as [-> (c & -> & Hm)]. injection H3 as <-.
      destruct (IH (fun y Hy => He y (or_intror Hy)) (fun y Hy => Hg y (or_intror Hy)) (add_child (Some c, ns) st) _ eq_refl H2) as ([Hs1 Hs2] & Ht & cs & Hc & HF). cbn in Hs2, Ht, Hc.
      split; [split; assumption|]. split; [exact Ht|]. exists (c :: cs). rewrite Hc, <- app_assoc. split; [reflexivity|]. constructor; assumption.
  Qed.
  Lemma run_others l : Forall other_entry l -> (forall k x, In (k, x) (element_entries l) -> good x k) -> forall st st', xs_ns st = ns ->
    run_all (map (fun kv => (fst kv, act (fst kv) (snd kv))) l) st = Ok st' [] ->
    same_rest st st' /\ (exists cs, xs_children st' = xs_children st ++ cs /\ Forall2 (fun kv c => mirrors E ns (snd kv) (fst kv) c) (element_entries l) cs) /\
    ((exists s, In (u "text()", JS s) l /\ xs_text st' = Some (py_str (xe_env E) s) /\ py_str (xe_env E) s <> []) \/ (xs_text st' = xs_text st /\ forall s, In (u "text()", JS s) l -> py_str (xe_env E) s = [])).
  Proof.
    induction 1 as [|[k v] l Hk _ IH]; intros Hg st st' Hn H.
    - injection H as <-. split; [split; auto|]. split; [exists []; rewrite app_nil_r; split; [reflexivity|constructor]|]. right. split; [reflexivity|intros ? []].
    - cbn [map run_all fst snd] in H. apply bind_ok_nil in H as (st1 & H1 & H2).
      assert (Hg' : forall k x, In (k, x) (element_entries l) -> good x k). { intros k0 x0 Hin. apply Hg. unfold element_entries. cbn [map concat]. apply in_or_app. right. exact Hin. }
      destruct Hk as [(s & [= -> ->])|[Hk Hv]].
      + cbn [act] in H1. unfold leaf_to_xml in H1. change (startswith (u "text()") (u "@")) with false in H1. rewrite str_eqb_refl in H1. cbn iota in H1. injection H1 as <-.
        match type of H2 with run_all _ ?st1 = _ => destruct (IH Hg' st1 _ Hn H2) as ([Hs1 Hs2] & (cs & Hc & HF) & Ht) end. cbn in Hs2, Hc, Ht. split; [split; assumption|]. split; [exists cs; split; assumption|].
        destruct Ht as [(s' & Hin & Hs' & Hne)|[Ht Hall]]; [left; exists s'; split; [right; exact Hin|auto]|].
        destruct (py_str (xe_env E) s) as [|ch ts] eqn:Es.
        * right. split; [exact Ht|]. intros s' [[= <-]|Hin]; [exact Es|apply Hall; exact Hin].
        * left. exists s. split; [left; reflexivity|]. rewrite Es. split; [exact Ht|discriminate].
      + cbn [fst snd] in Hk, Hv. assert (Hs : same_rest st st1 /\ xs_text st1 = xs_text st /\ exists cs, xs_children st1 = xs_children st ++ cs /\ Forall2 (fun kv c => mirrors E ns (snd kv) (fst kv) c) (element_entries [(k, v)]) cs).
        { destruct Hv as [[e ->]|(ll & -> & Hl)].
          - cbn [act] in H1. apply bind_ok_nil in H1 as ([o ns'] & H1 & H3). rewrite Hn in H1. assert (Hgx : good (JO e) k) by (apply Hg; left; reflexivity). destruct (Hgx _ _ H1) as [-> (c & -> & Hm)]. injection H3 as <-. cbn.
            split; [split; reflexivity|]. split; [reflexivity|]. exists [c]. split; [reflexivity|]. constructor; [exact Hm|constructor].
          - cbn [act] in H1. destruct (items_good k ll Hl) with (3 := H1) as (Hr & Ht & cs & Hc & HF); [|exact Hn|].
            + intros y Hy. apply Hg. unfold element_entries. cbn [map concat fst snd]. apply in_or_app. left. apply in_map_iff. exists y. auto.
            + split; [exact Hr|]. split; [exact Ht|]. exists cs. split; [exact Hc|]. unfold element_entries. cbn [map concat fst snd]. rewrite app_nil_r. clear - HF. induction HF; constructor; auto. }
        destruct Hs as ([Hs1 Hs2] & Hst & cs & Hc & HF). destruct (IH Hg' _ _ Hs1 H2) as ([Hr1 Hr2] & (cs' & Hc' & HF') & Ht). split; [split; congruence|]. split.
        * exists (cs ++ cs'). split; [rewrite Hc', Hc, app_assoc; reflexivity|]. change (element_entries ((k, v) :: l)) with (element_entries [(k, v)] ++ element_entries l ) at 1 || idtac.
          replace (element_entries ((k, v) :: l)) with (element_entries [(k, v)] ++ element_entries l) by (unfold element_entries; cbn [map concat]; rewrite app_nil_r; reflexivity). apply Forall2_app; assumption.
        * destruct Ht as [(s' & Hin & Hs' & Hne)|[Ht Hall]]; [left; exists s'; split; [right; exact Hin|auto]|]. right. split; [congruence|].
          intros s' [[= -> ->]|Hin]; [|apply Hall; exact Hin]. destruct Hv as [[e Hv]|(ll & Hv & _)]; discriminate.
  Qed.
  Lemma sset_fold_fresh {V} (l : list (str * V)) : forall d, NoDup (map fst d ++ map fst l) -> fold_left (fun d kv => sset (fst kv) (snd kv) d) l d = d ++ l.
  Proof.
    induction l as [|[k v] l IH]; intros d H; cbn [fold_left]; [rewrite app_nil_r; reflexivity|]. cbn [fst snd map] in *. assert (Hk : sget k d = None).
    { apply sget_None. intros F. apply NoDup_remove_2 in H. apply H. apply in_or_app. left. exact F. }
    rewrite (sset_new k v d Hk), IH by (rewrite map_app, <- app_assoc; exact H). rewrite <- app_assoc. reflexivity.
  Qed.
  Lemma entries_filter d : (forall k v, In (k, v) d -> attr_entry (k, v) \/ other_entry (k, v)) -> element_entries (filter (fun x => negb (is_attr x)) d) = element_entries d.
  Proof.
    intros H. induction d as [|[k v] d IH]; [reflexivity|]. cbn [filter]. destruct (is_attr (k, v)) eqn:Ea; cbn [negb].
    - rewrite IH by (intros k' v' Hin; apply H; right; exact Hin). apply at_start in Ea as [a Ea]. cbn in Ea. subst k. destruct (H _ _ (or_introl eq_refl)) as [(a' & s & [= <- ->] & _)|[(s & F)|[F _]]]; [reflexivity|discriminate F|exfalso; apply F; reflexivity].
    - unfold element_entries in *. cbn [map concat]. rewrite IH by (intros k' v' Hin; apply H; right; exact Hin). reflexivity.
  Qed.
  Lemma attr_names d : (forall kv, In kv d -> attr_entry kv) -> NoDup (map fst d) ->
    (forall k k' v v' a, In (at_sign :: k, v) d -> In (at_sign :: k', v') d -> full_name ns k a -> full_name ns k' a -> k = k') -> NoDup (map fst (flat_map attr_of d)).
  Proof.
    induction d as [|kv d IH]; intros Ha Hnd Hinj; [constructor|]. destruct (Ha kv (or_introl eq_refl)) as (a & s & -> & _). cbn [flat_map attr_of app map fst] in *. inversion Hnd as [|? ? Hout Hnd']; subst.
    constructor; [|apply IH; [intros x Hx; apply Ha; right; exact Hx|exact Hnd'|intros k k' v v' b H1 H2; eapply Hinj; right; eassumption]].
    intros F. apply in_map_iff in F as ([n t] & Hn & F). cbn in Hn. subst n. apply in_flat_map in F as (kv' & Hin & F). destruct (Ha kv' (or_intror Hin)) as (a' & s' & -> & _). destruct F as [[= Hn _]|[]].
    assert (a = a'). { eapply Hinj; [left; reflexivity|right; exact Hin| |]; [apply expand_full|]. rewrite <- Hn. apply expand_full. }
    subst a'. apply Hout. apply in_map_iff. exists (at_sign :: a, JS s'). auto.
  Qed.

  (** the two kinds of entries of a shaped dict, in the order they are run *)
  Lemma shaped_parts d : shaped ns (JO d) ->
    NoDup (map fst d) /\ (forall k v, In (k, v) d -> attr_entry (k, v) \/ other_entry (k, v)) /\
    Forall attr_entry (sort_keys (filter is_attr d)) /\ Forall other_entry (filter (fun x => negb (is_attr x)) d) /\
    NoDup (map fst (flat_map attr_of (sort_keys (filter is_attr d)))) /\ (forall k x, In (k, x) (element_entries d) -> shaped ns x).
  Proof.
    intros H. inversion H as [d0 Hnd Hs Hinj Hsub]; subst.
    assert (Hcase : forall k v, In (k, v) d -> attr_entry (k, v) \/ other_entry (k, v)).
    { intros k v Hin. destruct (Hs _ _ Hin) as [(s & -> & [->|(a & -> & Ha)])|[H1 H2]]; [right; left; eauto|left; exists a, s; auto|right; right; auto]. }
    assert (Hattr : forall kv, In kv (filter is_attr d) -> attr_entry kv).
    { intros [k v] Hin. apply filter_In in Hin as [Hin Ha]. destruct (Hcase _ _ Hin) as [|[(s & [= -> ->])|[F _]]]; [assumption|discriminate Ha|]. apply at_start in Ha as [a Ha]. cbn in *. subst k. exfalso. apply F. reflexivity. }
    split; [exact Hnd|]. split; [exact Hcase|]. split; [|split; [|split]].
    - apply Forall_forall. intros kv Hin. apply Hattr. apply (Permutation_in _ (Permutation_sym (sort_keys_perm _))). exact Hin.
    - apply Forall_forall. intros [k v] Hin. apply filter_In in Hin as [Hin Ha]. destruct (Hcase _ _ Hin) as [(a & s & [= -> ->] & _)|]; [unfold is_attr in Ha; cbn [fst] in Ha; rewrite (proj2 (at_start (at_sign :: a)) (ex_intro _ a eq_refl)) in Ha; discriminate Ha|assumption].
    - apply attr_names.
      + intros kv Hin. apply Hattr. apply (Permutation_in _ (Permutation_sym (sort_keys_perm _))). exact Hin.
      + assert (Hf : NoDup (map fst (filter is_attr d))).
        { clear - Hnd. induction d as [|kv d IH]; [constructor|]. inversion Hnd; subst. cbn [filter]. destruct (is_attr kv); [|auto]. cbn [map]. constructor; [|auto]. intros F. apply H1. apply in_map_iff in F as (x & Hx & F). apply filter_In in F as [F _]. rewrite <- Hx. apply in_map. exact F. }
        eapply Permutation_NoDup; [apply Permutation_map; apply sort_keys_perm|exact Hf].
      + intros k k' v v' a H1 H2. apply (Permutation_in _ (Permutation_sym (sort_keys_perm _))) in H1, H2. apply filter_In in H1 as [H1 _]. apply filter_In in H2 as [H2 _]. eapply Hinj; eassumption.
    - exact Hsub.
  Qed.
  Lemma attrs_iff d : (forall k v, In (k, v) d -> attr_entry (k, v) \/ other_entry (k, v)) -> forall a v, In (a, v) (flat_map attr_of (sort_keys (filter is_attr d))) <->
    exists k s, In (at_sign :: k, JS s) d /\ full_name ns k a /\ v = py_str (xe_env E) s.
  Proof.
    intros Hcase a v. rewrite in_flat_map. split.
    - intros ([k x] & Hin & Hv). apply (Permutation_in _ (Permutation_sym (sort_keys_perm _))) in Hin. apply filter_In in Hin as [Hin Ha]. apply at_start in Ha as [b Hb]. cbn in Hb. subst k.
      destruct x as [s| |]; [|destruct Hv|destruct Hv]. destruct Hv as [[= <- <-]|[]]. exists b, s. split; [exact Hin|]. split; [apply expand_full|reflexivity].
    - intros (k & s & Hin & Hf & ->). exists (at_sign :: k, JS s). split; [apply (Permutation_in _ (sort_keys_perm _)); apply (proj2 (filter_In _ _ _)); split; [exact Hin|apply (proj2 (at_start (at_sign :: k))); eauto]|]. left. cbn. rewrite (full_expand _ _ _ Hf). reflexivity.
  Qed.
End Xml.

From Verif.Proofs Require Import XmlTagsFacts.
Lemma entries_doc (P : jv -> Prop) d : (forall k v, In (k, v) d -> P v) -> (forall k l y, In (k, JA l) d -> In y l -> P y) -> forall k x, In (k, x) (element_entries d) -> P x.
Proof.
  intros Hv Hl k x Hin. unfold element_entries in Hin. apply in_concat in Hin as (z & Hz & Hin). apply in_map_iff in Hz as ([k' v] & <- & Hd). cbn [fst snd] in Hin. destruct v as [s|l|e].
  - destruct Hin.
  - apply in_map_iff in Hin as (y & [= <- <-] & Hy). eapply Hl; eassumption.
  - destruct Hin as [[= <- <-]|[]]. eapply Hv. exact Hd.
Qed.
Lemma entries_tag d : (forall k v, In (k, v) d -> attr_entry (k, v) \/ other_entry (k, v)) -> forall k x, In (k, x) (element_entries d) -> hd 0%N k <> at_sign.
Proof.
  intros H k x Hin. unfold element_entries in Hin. apply in_concat in Hin as (z & Hz & Hin). apply in_map_iff in Hz as ([k' v] & <- & Hd). cbn [fst snd] in Hin.
  assert (Ek : k = k' /\ forall s, v <> JS s).
  { destruct v as [s|l|e]; [destruct Hin| |]; [apply in_map_iff in Hin as (y & [= <- <-] & Hy)|destruct Hin as [[= <- <-]|[]]]; split; try reflexivity; discriminate. }
  destruct Ek as [-> Hv]. destruct (H _ _ Hd) as [(a & s & [= -> ->] & _)|[(s & [= -> ->])|[Hk _]]]; [exfalso; eapply Hv; reflexivity|exfalso; eapply Hv; reflexivity|exact Hk].
Qed.
Lemma text_unique (d : list (str * jv)) k s s' : NoDup (map fst d) -> In (k, JS s) d -> In (k, JS s') d -> s = s'.
Proof.
  induction d as [|[k0 v0] d IH]; intros Hnd H H'; [destruct H|]. cbn [map fst] in Hnd. inversion Hnd as [|? ? Hout Hnd']; subst.
  destruct H as [H|H], H' as [H'|H'].
  - congruence.
  - exfalso. injection H as -> ->. apply Hout. apply (in_map fst) in H'. exact H'.
  - exfalso. injection H' as -> ->. apply Hout. apply (in_map fst) in H. exact H.
  - auto.
Qed.
Lemma not_xmlns tag : hd 0%N tag <> at_sign -> startswith tag (u "@xmlns") = false.
Proof. destruct tag as [|c t]; [reflexivity|]. intros H. cbn [hd] in H. change (startswith (c :: t) (u "@xmlns")) with ((c =? 64)%N && startswith t (u "xmlns")). destruct (N.eqb_spec c 64) as [->|_]; [contradiction|reflexivity]. Qed.

Lemma xml_mirrors E ns x : forall tag, hd 0%N tag <> at_sign -> shaped ns x -> good E ns x tag.
Proof.
  induction x as [x Hx|d IHv IHl] using doc_ind; intros tag Htag Hs o ns' H.
  - inversion Hs. subst. exfalso. eapply Hx. reflexivity.
  - destruct (shaped_parts E ns d Hs) as (Hnd & Hcase & HA & HO & Hnames & Hsub). rewrite dict_to_xml_eq, (not_xmlns _ Htag) in H. apply bind_ok_nil in H as (st & H & Hel).
    unfold sort_attributes in H. rewrite map_app, run_all_app, (run_attrs E ns _ HA) in H by reflexivity. rewrite bind_ret_l in H.
    assert (Hgood : forall k x, In (k, x) (element_entries (filter (fun x => negb (is_attr x)) d)) -> good E ns x k).
    { rewrite (entries_filter d Hcase). intros k x Hin. pose proof (entries_tag d Hcase k x Hin) as Hk. pose proof (Hsub _ _ Hin) as Hsx.
      pose proof (entries_doc (fun x => forall k', hd 0%N k' <> at_sign -> shaped ns x -> good E ns x k') d IHv IHl k x Hin) as IHx. exact (IHx k Hk Hsx). }
    match type of H with run_all _ ?st1 = _ => destruct (run_others E ns _ HO Hgood st1 st eq_refl H) as ([Hs1 Hs2] & (cs & Hc & HF) & Ht) end.
    cbn [st0 xs_attrib xs_children xs_text] in Hs2, Hc, Ht. rewrite (entries_filter d Hcase) in HF. cbn [app] in Hc. rewrite (sset_fold_fresh _ []) in Hs2 by exact Hnames. cbn [app st0 xs_attrib xs_children xs_text] in *.
    unfold make_element in Hel. destruct (_ && _ && _); [|discriminate Hel]. rewrite Hs1 in Hel.
    assert (Htx : forall t, xs_text st = Some t <-> exists s, In (u "text()", JS s) d /\ t = py_str (xe_env E) s /\ t <> []).
    { assert (Hin : forall s, In (u "text()", JS s) (filter (fun x => negb (is_attr x)) d) <-> In (u "text()", JS s) d).
      { intros s. rewrite filter_In. split; [tauto|]. intros F. split; [exact F|reflexivity]. }
      intros t. destruct Ht as [(s & H1 & H2 & H3)|[H1 H2]].
      - rewrite H2. apply Hin in H1. split; [intros [= <-]; exists s; auto|]. intros (s' & H4 & -> & _). rewrite (text_unique d _ _ _ Hnd H1 H4). reflexivity.
      - rewrite H1. split; [discriminate|]. intros (s' & H4 & -> & Hne). exfalso. apply Hne. apply H2. apply Hin. exact H4. }
    assert (Hm : mirrors E ns (JO d) tag (El (expand ns tag) (xs_attrib st) (xs_text st) (xs_children st))).
    { constructor; [apply expand_full|rewrite Hs2; exact Hnames|rewrite Hs2; apply attrs_iff; exact Hcase|exact Htx|rewrite Hc; exact HF]. }
    destruct (xs_text st) as [t|] eqn:Ex.
    + destruct (xe_text E t); [|discriminate]. injection Hel as <- <-. split; [reflexivity|]. eexists. split; [reflexivity|exact Hm].
    + injection Hel as <- <-. split; [reflexivity|]. eexists. split; [reflexivity|exact Hm].
Qed.

Section Total.
  Variable E : xenv.
  Variable ns : nsmap.
  Definition fine (x : jv) (tag : str) : Prop := exists c, dict_to_xml E x tag ns = Ok (Some c, ns) [].
  Lemma items_fine k l : (forall y, In y l -> exists e, y = JO e) -> (forall y, In y l -> fine y k) -> forall st, xs_ns st = ns -> exists st', items E k l st = Ok st' [] /\ xs_ns st' = ns.
  Proof.
    induction l as [|y l IH]; intros He Hf st Hn; [exists st; split; [reflexivity|exact Hn]|]. cbn [items]. destruct (He y (or_introl eq_refl)) as [e ->]. destruct (Hf _ (or_introl eq_refl)) as [c Hc]. rewrite Hn, Hc. cbn [bind ret app].
    destruct (IH (fun y Hy => He y (or_intror Hy)) (fun y Hy => Hf y (or_intror Hy)) (add_child (Some c, ns) st) eq_refl) as (st' & H1 & H2). fold (items E k). rewrite H1. exists st'. split; [reflexivity|exact H2].
  Qed.
  Lemma run_fine l : Forall other_entry l -> (forall k x, In (k, x) (element_entries l) -> fine x k) -> forall st, xs_ns st = ns ->
    exists st', run_all (map (fun kv => (fst kv, act E (fst kv) (snd kv))) l) st = Ok st' [].
  Proof.
    induction 1 as [|[k v] l Hk _ IH]; intros Hf st Hn; [exists st; reflexivity|]. cbn [map run_all fst snd].
    assert (Hf' : forall k x, In (k, x) (element_entries l) -> fine x k). { intros k0 x0 Hin. apply Hf. unfold element_entries. cbn [map concat]. apply in_or_app. right. exact Hin. }
    assert (H1 : exists st1, act E k v st = Ok st1 [] /\ xs_ns st1 = ns).
    { destruct Hk as [(s & [= -> ->])|[Hk [[e Hv]|(ll & Hv & Hl)]]].
      - eexists. split; [reflexivity|exact Hn].
      - cbn [snd] in Hv. subst v. destruct (Hf k (JO e) (or_introl eq_refl)) as [c Hc]. cbn [act]. rewrite Hn, Hc. eexists. split; reflexivity.
      - cbn [snd] in Hv. subst v. cbn [act]. apply items_fine; [exact Hl| |exact Hn]. intros y Hy. apply Hf. unfold element_entries. cbn [map concat fst snd]. apply in_or_app. left. apply in_map_iff. exists y. auto. }
    destruct H1 as (st1 & -> & Hn1). destruct (IH Hf' st1 Hn1) as [st' H']. cbn [bind]. rewrite H'. exists st'. reflexivity.
  Qed.
  Lemma xml_fine x : forall tag, hd 0%N tag <> at_sign -> shaped ns x -> allowed E ns tag x -> fine x tag.
  Proof.
    induction x as [x Hx|d IHv IHl] using doc_ind; intros tag Htag Hs Ha.
    - inversion Hs. subst. exfalso. eapply Hx. reflexivity.
    - destruct (shaped_parts E ns d Hs) as (Hnd & Hcase & HA & HO & Hnames & Hsub). inversion Ha as [tag0 d0 Hat Hans Haa Hatx Hasub]; subst. unfold fine. rewrite dict_to_xml_eq, (not_xmlns _ Htag).
      unfold sort_attributes. rewrite map_app, run_all_app, (run_attrs E ns _ HA) by reflexivity. rewrite bind_ret_l.
      assert (Hf : forall k x, In (k, x) (element_entries (filter (fun x => negb (is_attr x)) d)) -> fine x k).
      { rewrite (entries_filter d Hcase). intros k x Hin. pose proof (entries_doc (fun x => forall k', hd 0%N k' <> at_sign -> shaped ns x -> allowed E ns k' x -> fine x k') d IHv IHl k x Hin) as IHx.
        apply IHx; [eapply entries_tag; eassumption|eapply Hsub; exact Hin|apply Hasub; exact Hin]. }
      match goal with |- context [run_all _ ?st1] => destruct (run_fine _ HO Hf st1 eq_refl) as [st H]; rewrite H end. cbn [bind].
      assert (Hgood : forall k x, In (k, x) (element_entries (filter (fun x => negb (is_attr x)) d)) -> good E ns x k).
      { rewrite (entries_filter d Hcase). intros k x Hin. apply xml_mirrors; [eapply entries_tag; eassumption|eapply Hsub; exact Hin]. }
      match type of H with run_all _ ?st1 = _ => destruct (run_others E ns _ HO Hgood st1 st eq_refl H) as ([Hs1 Hs2] & _ & Ht) end.
      cbn [st0 xs_attrib xs_children xs_text] in Hs2, Ht. rewrite (sset_fold_fresh _ []) in Hs2 by exact Hnames. cbn [app] in Hs2. unfold make_element.
      rewrite (Hat _ (expand_full ns tag)). rewrite Hs1, Hans.
      assert (Ho : forallb (fun kv => xe_attr E (fst kv) (snd kv)) (xs_attrib st) = true).
      { rewrite Hs2. apply forallb_forall. intros [a v] Hin. apply (attrs_iff E ns d Hcase) in Hin as (k & s & Hin & Hf2 & ->). cbn [fst snd]. eapply Haa; eassumption. }
      rewrite Ho. cbn [andb]. destruct Ht as [(s & H1 & H2 & _)|[H1 _]].
      + rewrite H2. apply filter_In in H1 as [H1 _]. rewrite (Hatx _ H1). eexists. reflexivity.
      + rewrite H1. eexists. reflexivity.
  Qed.
End Total.
Lemma xml_written E ns x tag : hd 0%N tag <> at_sign -> shaped ns x -> allowed E ns tag x -> exists c, dict_to_xml E x tag ns = Ok (Some c, ns) [] /\ mirrors E ns x tag c.
Proof.
  intros H1 H2 H3. destruct (xml_fine E ns x tag H1 H2 H3) as [c Hc]. exists c. split; [exact Hc|]. destruct (xml_mirrors E ns x tag H1 H2 _ _ Hc) as [_ (c' & [= <-] & Hm)]. exact Hm.
Qed.
Lemma xml_no_loss E ns x tag o ns' : hd 0%N tag <> at_sign -> shaped ns x -> dict_to_xml E x tag ns = Ok (o, ns') [] -> exists c, o = Some c /\ mirrors E ns x tag c.
Proof. intros H1 H2 H3. apply (xml_mirrors E ns x tag H1 H2 _ _ H3). Qed.
(** the whole document *)
Lemma toxml_written E x tag schema comment r c : hd 0%N tag <> at_sign -> shaped [(u "xml", u "http://www.w3.org/XML/1998/namespace")] x ->
  (forall d w, schema = Some (Ok d w) -> proper d) -> toxml E x tag schema comment = Ok (r, c) [] ->
  exists r0, mirrors E [(u "xml", u "http://www.w3.org/XML/1998/namespace")] x tag r0 /\
    x_tag r = x_tag r0 /\ x_attrib r = x_attrib r0 /\ x_text r = x_text r0 /\
    match schema with
    | None => x_children r = x_children r0
    | Some (Ok d _) => Forall2 (sorted_as d) (x_children r0) (x_children r)
    | Some (Raise _ _) => False
    end.
Proof.
  intros H1 H2 H3 H. unfold toxml in H. apply bind_ok_nil in H as ([o ns'] & Hd & H). destruct (xml_no_loss _ _ _ _ _ _ H1 H2 Hd) as (r0 & -> & Hm). cbn [fst] in H.
  exists r0. split; [exact Hm|]. destruct schema as [[d w|e w]|]; [|discriminate|injection H as <- _; repeat split; reflexivity].
  destruct r0 as [t a tx cs]. injection H as <- _. cbn. repeat split; try reflexivity. specialize (H3 d w eq_refl). clear - H3. induction cs as [|k cs IH]; constructor; [apply sort_sorted; exact H3|exact IH].
Qed.
