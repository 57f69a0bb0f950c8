(** Proofs for C34. *)
From Coq Require Import Sorted Permutation Lia.
From Verif.Base Require Import PyStr PyNum PyVal PyDict Outcome.
From Verif.Model Require Import Warn Lib SortXml.
From Verif.Spec Require Import XmlOrder.

(** ** Stable sorting *)
Section Sorting.
  Context {A : Type} (key : A -> nat).
  Lemma insert_by_perm x l : Permutation (x :: l) (insert_by key x l).
  Proof. induction l as [|y l IH]; [reflexivity|]. cbn [insert_by]. destruct (_ <=? _)%nat; [reflexivity|]. rewrite perm_swap. constructor. exact IH. Qed.
  Lemma sort_by_perm l : Permutation l (sort_by key l).
  Proof. induction l as [|x l IH]; [constructor|]. cbn [sort_by fold_right]. rewrite <- insert_by_perm. constructor. exact IH. Qed.
  Lemma insert_by_sorted x l : StronglySorted (fun a b => key a <= key b)%nat l -> StronglySorted (fun a b => key a <= key b)%nat (insert_by key x l).
  Proof.
    induction l as [|y l IH]; intros H; cbn [insert_by]; [repeat constructor|]. inversion H as [|? ? Hs Hf]; subst. destruct (key x <=? key y)%nat eqn:E.
    - apply Nat.leb_le in E. constructor; [exact H|]. constructor; [exact E|]. eapply Forall_impl; [|exact Hf]. cbn. intros z Hz. lia.
    - apply Nat.leb_gt in E. constructor; [apply IH; exact Hs|]. apply Forall_forall. intros z Hz. apply (Permutation_in _ (Permutation_sym (insert_by_perm x l))) in Hz as [<-|Hz]; [lia|].
      rewrite Forall_forall in Hf. apply Hf. exact Hz.
  Qed.
  Lemma sort_by_sorted l : StronglySorted (fun a b => key a <= key b)%nat (sort_by key l).
  Proof. induction l as [|x l IH]; [constructor|]. apply insert_by_sorted. exact IH. Qed.
  (** a class of elements with one key keeps its order *)
  Lemma insert_by_filter p x l : (forall a b, p a = true -> p b = true -> key a = key b) -> filter p (insert_by key x l) = filter p (x :: l).
  Proof.
    intros Hp. induction l as [|y l IH]; [reflexivity|]. cbn [insert_by]. destruct (key x <=? key y)%nat eqn:E; [reflexivity|]. cbn [filter] in *. rewrite IH.
    destruct (p x) eqn:Ex, (p y) eqn:Ey; try reflexivity. rewrite (Hp x y Ex Ey), Nat.leb_refl in E. discriminate.
  Qed.
  Lemma sort_by_filter p l : (forall a b, p a = true -> p b = true -> key a = key b) -> filter p (sort_by key l) = filter p l.
  Proof.
    intros Hp. induction l as [|x l IH]; [reflexivity|]. cbn [sort_by fold_right]. rewrite insert_by_filter by exact Hp. cbn [filter]. fold (sort_by key l). rewrite IH. reflexivity.
  Qed.
End Sorting.
Lemma insert_by_map {A B} (f : A -> B) (ka : A -> nat) (kb : B -> nat) x l : (forall a, ka a = kb (f a)) -> map f (insert_by ka x l) = insert_by kb (f x) (map f l).
Proof. intros H. induction l as [|y l IH]; [reflexivity|]. cbn [insert_by map]. rewrite !H. destruct (_ <=? _)%nat; [reflexivity|]. cbn [map]. f_equal. exact IH. Qed.
Lemma sort_by_map {A B} (f : A -> B) (ka : A -> nat) (kb : B -> nat) l : (forall a, ka a = kb (f a)) -> map f (sort_by ka l) = sort_by kb (map f l).
Proof. intros H. induction l as [|x l IH]; [reflexivity|]. cbn [sort_by fold_right map]. rewrite (insert_by_map f ka kb) by exact H. f_equal. exact IH. Qed.

(** ** Keys *)
Lemma index_of_None t l : index_of t l = None <-> ~ In t l.
Proof.
  induction l as [|k l IH]; cbn; [tauto|]. destruct (str_eqb_spec t k) as [->|H]; [split; [discriminate|intros F; exfalso; apply F; auto]|].
  destruct (index_of t l) as [n|]; [split; [discriminate|]; intros F; exfalso; assert (X : Some n = None) by (apply IH; tauto); discriminate|]. split; [|reflexivity]. intros _ [->|F]; [congruence|]. apply IH in F; [exact F|reflexivity].
Qed.
Lemma index_of_app t l1 l2 : ~ In t l1 -> index_of t (l1 ++ t :: l2) = Some (length l1).
Proof.
  induction l1 as [|k l1 IH]; intros H; cbn; [rewrite str_eqb_refl; reflexivity|]. destruct (str_eqb_spec t k) as [->|_]; [exfalso; apply H; left; reflexivity|].
  rewrite IH; [reflexivity|]. intros F. apply H. right. exact F.
Qed.
Lemma index_of_bound t l n : index_of t l = Some n -> (n < length l)%nat.
Proof.
  revert n. induction l as [|k l IH]; intros n H; [discriminate|]. cbn in H. destruct (str_eqb t k); [injection H as <-; cbn; lia|]. destruct (index_of t l) as [m|]; [|discriminate]. injection H as <-. specialize (IH m eq_refl). cbn. lia.
Qed.
Lemma before_key d a b : NoDup (sd_keys d) -> comes_before d a b -> (index_key (sd_keys d) a < index_key (sd_keys d) b)%nat.
Proof.
  unfold sd_keys, index_key. intros Hnd [(l1 & l2 & l3 & E)|[Ha Hb]].
  - rewrite E in *. rewrite index_of_app.
    + replace (l1 ++ a :: l2 ++ b :: l3) with ((l1 ++ a :: l2) ++ b :: l3) by (rewrite <- app_assoc; reflexivity). rewrite index_of_app; [rewrite app_length; cbn; lia|].
      intros F. replace (l1 ++ a :: l2 ++ b :: l3) with ((l1 ++ a :: l2) ++ b :: l3) in Hnd by (rewrite <- app_assoc; reflexivity). apply NoDup_remove_2 in Hnd. apply Hnd. apply in_or_app. auto.
    + intros F. apply NoDup_remove_2 in Hnd. apply Hnd. apply in_or_app. auto.
  - unfold unlisted in Hb. apply index_of_None in Hb. rewrite Hb. destruct (index_of a _) as [n|] eqn:E; [apply index_of_bound in E; lia|]. apply index_of_None in E. contradiction.
Qed.
Lemma inside_get d t : NoDup (sd_keys d) -> inside d t (sd_get d t).
Proof.
  unfold sd_get, sd_keys. intros Hnd. destruct (sget t (sd_entries d)) as [d'|] eqn:E.
  - apply inside_listed. apply sget_In. exact E.
  - apply inside_unlisted. apply sget_None. exact E.
Qed.
Lemma StronglySorted_weaken {A} (R R' : A -> A -> Prop) l : (forall a b, R a b -> R' a b) -> StronglySorted R l -> StronglySorted R' l.
Proof. intros H. induction 1 as [|x l Hs IH Hf]; constructor; [exact IH|]. eapply Forall_impl; [|exact Hf]. intros y. apply H. Qed.
Lemma StronglySorted_map_inv {A B} (f : A -> B) (R : B -> B -> Prop) l : StronglySorted (fun a b => R (f a) (f b)) l -> StronglySorted R (map f l).
Proof. induction 1 as [|x l Hs IH Hf]; constructor; [exact IH|]. apply Forall_forall. intros y Hy. apply in_map_iff in Hy as (z & <- & Hz). rewrite Forall_forall in Hf. apply Hf. exact Hz. Qed.

Fixpoint xel_ind' (P : xel -> Prop) (H : forall t a x cs, (forall c, In c cs -> P c) -> P (El t a x cs)) (e : xel) : P e :=
  match e with
  | El t a x cs => H t a x cs ((fix go (cs : list xel) : forall c, In c cs -> P c :=
      match cs with
      | [] => fun c F => match F with end
      | c0 :: cs' => fun c F => match F with or_introl E => match E in _ = y return P y with eq_refl => xel_ind' P H c0 end | or_intror F' => go cs' c F' end
      end) cs)
  end.
Lemma sort_element_tag e d : x_tag (sort_element e d) = x_tag e.
Proof. destruct e. reflexivity. Qed.
Lemma proper_get d t : proper d -> proper (sd_get d t).
Proof.
  intros [l Hl Hd]. unfold sd_get. cbn [sd_entries]. destruct (sget t l) as [d'|] eqn:E; [apply sget_In in E; eapply Hd; exact E|]. constructor; [constructor|]. intros ? ? [].
Qed.
Lemma sort_sorted e : forall d, proper d -> sorted_as d e (sort_element e d).
Proof.
  induction e as [t a x cs IH] using xel_ind'. intros d Hd. cbn [sort_element].
  assert (Hnd : NoDup (sd_keys d)) by (destruct Hd as [l Hl _]; exact Hl).
  set (key := fun c => index_key (sd_keys d) (x_tag c)). set (f := fun c => (c, sort_element c (sd_get d (x_tag c)))).
  assert (Em : map (fun c => sort_element c (sd_get d (x_tag c))) cs = map snd (map f cs)) by (rewrite map_map; reflexivity). rewrite Em. clear Em.
  set (l := sort_by (fun p => key (fst p)) (map f cs)).
  assert (El1 : map fst l = sort_by key cs).
  { unfold l. rewrite (sort_by_map fst (fun p => key (fst p)) key) by reflexivity. rewrite map_map. cbn. rewrite map_id. reflexivity. }
  assert (El2 : sort_by key (map snd (map f cs)) = map snd l).
  { unfold l. assert (X : forall ps : list (xel * xel), (forall p, In p ps -> x_tag (snd p) = x_tag (fst p)) -> sort_by key (map snd ps) = map snd (sort_by (fun p => key (fst p)) ps)).
    - assert (Ins : forall p ps, (forall q, In q (p :: ps) -> x_tag (snd q) = x_tag (fst q)) -> insert_by key (snd p) (map snd ps) = map snd (insert_by (fun p : xel * xel => key (fst p)) p ps)).
      { intros p ps. induction ps as [|q ps IHp]; intros Hq; [reflexivity|]. cbn [map insert_by]. assert (K : forall r, In r (p :: q :: ps) -> key (snd r) = key (fst r)) by (intros r Hr; unfold key; rewrite Hq by exact Hr; reflexivity).
        rewrite !K by (cbn; auto). destruct (_ <=? _)%nat; [reflexivity|]. cbn [map]. f_equal. apply IHp. intros r [<-|Hr]; apply Hq; cbn; auto. }
      intros ps. induction ps as [|p ps IHp]; intros Hq; [reflexivity|]. cbn [map sort_by fold_right]. fold (sort_by key (map snd ps)). fold (sort_by (fun p : xel * xel => key (fst p)) ps). rewrite IHp by (intros q Hr; apply Hq; right; exact Hr). apply Ins.
      intros q [<-|Hr]; [apply Hq; left; reflexivity|]. apply Hq. right. apply (Permutation_in _ (Permutation_sym (sort_by_perm (fun p : xel * xel => key (fst p)) ps))). exact Hr.
    - apply X. intros p Hp. apply in_map_iff in Hp as (c & <- & _). cbn. apply sort_element_tag. }
  fold key. rewrite El2. constructor.
  - rewrite El1. apply sort_by_perm.
  - rewrite El1. eapply StronglySorted_weaken; [|apply sort_by_sorted]. cbn. intros c c' Hle Hb. pose proof (before_key _ _ _ Hnd Hb). unfold key in Hle. lia.
  - intros t'. rewrite El1. apply sort_by_filter. intros c c' H1 H2. unfold key. destruct (str_eqb_spec (x_tag c) t') as [->|]; [|discriminate]. destruct (str_eqb_spec (x_tag c') t') as [->|]; [|discriminate]. reflexivity.
  - rewrite El1. apply sort_by_filter. assert (K : forall c, negb (str_mem (x_tag c) (map fst (sd_entries d))) = true -> key c = (length (sd_keys d) + 1)%nat).
    { intros c Hc. unfold key, index_key. assert (E : index_of (x_tag c) (sd_keys d) = None); [|rewrite E; reflexivity]. apply index_of_None. intros F. apply Bool.negb_true_iff in Hc.
      assert (str_mem (x_tag c) (map fst (sd_entries d)) = true); [|congruence]. apply existsb_exists. exists (x_tag c). split; [exact F|apply str_eqb_refl]. }
    intros c c' H1 H2. rewrite !K; auto.
  - intros c c' Hin. unfold l in Hin. apply (Permutation_in _ (Permutation_sym (sort_by_perm (fun p : xel * xel => key (fst p)) (map f cs)))) in Hin. apply in_map_iff in Hin as (c0 & [= <- <-] & Hc0).
    exists (sd_get d (x_tag c0)). split; [apply inside_get; exact Hnd|]. apply IH; [exact Hc0|]. apply proper_get. exact Hd.
Qed.

(** what the schema reader makes is proper *)
Lemma fold_sset_NoDup {V} (l : list (str * V)) : forall d, NoDup (map fst d) -> NoDup (map fst (fold_left (fun d kv => sset (fst kv) (snd kv) d) l d)).
Proof. induction l as [|[k v] l IH]; intros d H; [exact H|]. cbn [fold_left]. apply IH. apply sset_NoDup. exact H. Qed.
Lemma fold_sset_In {V} (l : list (str * V)) : forall d k v, In (k, v) (fold_left (fun d kv => sset (fst kv) (snd kv) d) l d) -> In (k, v) l \/ In (k, v) d.
Proof.
  induction l as [|[k0 v0] l IH]; intros d k v H; [right; exact H|]. cbn [fold_left] in H. apply IH in H as [H|H]; [left; right; exact H|].
  apply sset_In in H as [H|H]; [left; left; cbn in H; congruence|right; exact H].
Qed.

(** ** Reading schemas *)
Lemma sset_firsts {V} (l : list (str * V)) : forall d, NoDup (map fst d) ->
  map fst (fold_left (fun d kv => sset (fst kv) (snd kv) d) l d) = map fst d ++ filter (fun k => negb (str_mem k (map fst d))) (firsts (map fst l)).
Proof.
  induction l as [|[k v] l IH]; intros d Hnd; cbn [fold_left map firsts fst snd]; [rewrite app_nil_r; reflexivity|].
  rewrite IH by (apply sset_NoDup; exact Hnd). cbn [filter]. destruct (str_mem k (map fst d)) eqn:E.
  - assert (Hk : map fst (sset k v d) = map fst d).
    { clear - E. induction d as [|[k' v'] d IHd]; [discriminate|]. cbn [map str_mem existsb fst] in E. cbn [sset aset]. unfold sset in *. cbn [aset]. destruct (str_eqb_spec k k') as [->|Hne]; cbn [map fst]; [reflexivity|].
      f_equal. apply IHd. unfold str_mem in *. cbn [existsb] in E. destruct (str_eqb_spec k k'); [contradiction|]. exact E. }
    rewrite Hk. cbn [negb]. f_equal. clear IH. induction (firsts (map fst l)) as [|y ys IHy]; [reflexivity|]. cbn [filter]. destruct (str_eqb_spec k y) as [<-|Hne]; cbn [negb].
    + rewrite E. cbn [negb]. exact IHy.
    + cbn [filter]. rewrite IHy. reflexivity.
  - assert (Hg : sget k d = None).
    { apply sget_None. intros F. unfold str_mem in E. assert (existsb (str_eqb k) (map fst d) = true); [|congruence]. apply existsb_exists. exists k. split; [exact F|apply str_eqb_refl]. }
    rewrite (sset_new k v d Hg), map_app. cbn [map fst negb]. rewrite <- app_assoc. cbn [app]. f_equal. f_equal. clear IH.
    induction (firsts (map fst l)) as [|y ys IHy]; [reflexivity|]. cbn [filter].
    assert (Em : str_mem y (map fst d ++ [k]) = str_mem y (map fst d) || str_eqb k y).
    { unfold str_mem. rewrite existsb_app. cbn [existsb]. rewrite Bool.orb_false_r. f_equal. destruct (str_eqb_spec y k) as [e1|H1], (str_eqb_spec k y) as [H2|H2]; congruence. }
    rewrite Em. destruct (str_eqb k y); cbn [negb].
    + rewrite Bool.orb_true_r. cbn [negb]. exact IHy.
    + rewrite Bool.orb_false_r. cbn [filter]. destruct (str_mem y (map fst d)); cbn [negb]; [exact IHy|]. f_equal. exact IHy.
Qed.
Lemma sget_app {V} k (l1 l2 : list (str * V)) : sget k (l1 ++ l2) = match sget k l1 with Some v => Some v | None => sget k l2 end.
Proof. induction l1 as [|[k' v'] l1 IH]; [reflexivity|]. cbn [app]. unfold sget in *. cbn [aget]. destruct (str_eqb k k'); [reflexivity|exact IH]. Qed.
Lemma sset_lasts {V} k (l : list (str * V)) : forall d, sget k (fold_left (fun d kv => sset (fst kv) (snd kv) d) l d) = match sget k (rev l) with Some v => Some v | None => sget k d end.
Proof.
  induction l as [|[k0 v0] l IH]; intros d; [reflexivity|]. cbn [fold_left rev fst snd]. rewrite IH, sget_app. destruct (sget k (rev l)); [reflexivity|].
  unfold sget at 2. cbn [aget]. destruct (str_eqb_spec k k0) as [->|H]; [apply sget_sset_eq|]. rewrite sget_sset_neq by exact H. reflexivity.
Qed.
Lemma make_sdict_collects l : collects l (sd_entries (make_sdict l)).
Proof.
  unfold make_sdict. cbn [sd_entries]. split.
  - rewrite sset_firsts by constructor. cbn [map app str_mem existsb]. cbn. induction (firsts (map fst l)) as [|y ys IH]; [reflexivity|]. cbn. f_equal. exact IH.
  - intros k. rewrite sset_lasts. cbn. destruct (sget k (rev l)); reflexivity.
Qed.

Section Schema.
  Variable trees : list xel.
  Lemma defined_get tag name : defined trees tag name (get_schema_element trees tag name).
  Proof.
    induction trees as [|t ts IH]; cbn [get_schema_element]; [intros ? ? []|].
    set (p := fun c => str_eqb (x_tag c) (u "xsd:" ++ tag) && match attr (u "name") c with Some n => str_eqb n name | None => false end).
    assert (Hp : forall c, p c = true <-> called tag name c).
    { intros c. unfold p, called, attr. rewrite Bool.andb_true_iff. destruct (str_eqb_spec (x_tag c) (u "xsd:" ++ tag)) as [E|E]; [|intuition discriminate].
      destruct (sget (u "name") (x_attrib c)) as [n|]; [|intuition discriminate]. destruct (str_eqb_spec n name) as [->|Hn]; [intuition|]. split; [intros [_ F]; discriminate|intros [_ [= F]]; contradiction]. }
    assert (Hf : match hd_error (filter p (x_children t)) with
                 | Some e => exists l l', x_children t = l ++ e :: l' /\ p e = true /\ forall c, In c l -> p c = false
                 | None => forall c, In c (x_children t) -> p c = false end).
    { induction (x_children t) as [|c cs IHc]; [intros ? []|]. cbn [filter]. destruct (p c) eqn:Ec.
      - cbn. exists [], cs. repeat split; auto. intros ? [].
      - destruct (hd_error (filter p cs)) as [e|].
        + destruct IHc as (l & l' & -> & H1 & H2). exists (c :: l), l'. repeat split; auto. intros c' [<-|H]; auto.
        + intros c' [<-|H]; auto. }
    destruct (hd_error (filter p (x_children t))) as [e|].
    - destruct Hf as (l & l' & H1 & H2 & H3). exists [], t, ts, l, l'. split; [reflexivity|]. split; [exact H1|]. split; [apply Hp; exact H2|]. split; [|intros ? ? []].
      intros c Hc F. apply Hp in F. rewrite H3 in F by exact Hc. discriminate.
    - assert (Hno : forall c, In c (x_children t) -> ~ called tag name c) by (intros c Hc F; apply Hp in F; rewrite Hf in F by exact Hc; discriminate).
      destruct (get_schema_element ts tag name) as [e|]; cbn [defined] in *.
      + destruct IH as (ts0 & t0 & ts1 & l & l' & -> & H1 & H2 & H3 & H4). exists (t :: ts0), t0, ts1, l, l'. split; [reflexivity|]. repeat split; auto; try apply H2. intros t' c [<-|Ht] Hc; eauto.
      + intros t' c [<-|Ht] Hc; eauto.
  Qed.
  Lemma group_findall tag e : findall [tag; u "xsd:element"] e = group tag e.
  Proof.
    cbn [findall]. unfold group. rewrite flat_map_concat_map. f_equal. apply map_ext. intros g. rewrite flat_map_concat_map.
    induction (filter _ (x_children g)) as [|c cs IH]; [reflexivity|]. cbn. f_equal. exact IH.
  Qed.
  Lemma groups_findall tag e : findall [u "xsd:complexType"; tag; u "xsd:element"] e = all_groups tag (complex_types e).
  Proof.
    unfold all_groups, complex_types. change (findall [u "xsd:complexType"; tag; u "xsd:element"] e) with (flat_map (findall [tag; u "xsd:element"]) (filter (fun c => str_eqb (x_tag c) (u "xsd:complexType")) (x_children e))).
    rewrite flat_map_concat_map. f_equal. apply map_ext. intros c. apply group_findall.
  Qed.
  Lemma defined_In tag name e : defined trees tag name (Some e) -> exists t, In t trees /\ In e (x_children t) /\ called tag name e.
  Proof. intros (ts & t & ts' & l & l' & -> & H1 & H2 & _). exists t. split; [apply in_or_app; right; left; reflexivity|]. rewrite H1. split; [apply in_or_app; right; left; reflexivity|exact H2]. Qed.
  Lemma loop_declares n e ts w : no_extensions trees -> element_loop trees n e = Ok ts w ->
    exists cs, declares trees e cs /\ Forall2 (fun c kd => match snd kd with Some c' => c' = c /\ sget (u "name") (x_attrib c) = Some (fst kd)
       | None => sget (u "name") (x_attrib c) = None /\ sget (u "ref") (x_attrib c) = Some (fst kd) end) cs ts.
  Proof.
    intros Hno H. unfold element_loop in H.
    destruct (match attr (u "type") e with Some t => _ | None => _ end) as [types w1|] eqn:Et; [|discriminate]. cbn [bind] in H.
    assert (Hty : exists ct, (match sget (u "type") (x_attrib e) with Some t => defined trees (u "complexType") t ct | None => ct = None end) /\
      types = match ct with Some t => group (u "xsd:choice") t ++ group (u "xsd:sequence") t | None => [] end).
    { unfold attr in Et. destruct (sget (u "type") (x_attrib e)) as [t|].
      - exists (get_schema_element trees (u "complexType") t). pose proof (defined_get (u "complexType") t) as Hd. split; [exact Hd|]. destruct n as [|n]; [discriminate|]. cbn [handle_complexType] in Et.
        destruct (get_schema_element trees (u "complexType") t) as [ct|]; [|injection Et as <- _; reflexivity]. destruct (defined_In _ _ _ Hd) as (t0 & Ht0 & Hct & Hc & _).
        assert (En : find [u "xsd:complexContent"; u "xsd:extension"] ct = None).
        { unfold find. cbn [findall]. replace (filter (fun c => str_eqb (x_tag c) (u "xsd:complexContent")) (x_children ct)) with (@nil xel); [reflexivity|].
          pose proof (Hno t0 ct Ht0 Hct Hc) as Hcc. clear - Hcc. induction (x_children ct) as [|c cs IH]; [reflexivity|]. cbn [filter].
          destruct (str_eqb_spec (x_tag c) (u "xsd:complexContent")) as [E|_]; [exfalso; eapply Hcc; [left; reflexivity|exact E]|]. apply IH. intros cc Hin. apply Hcc. right. exact Hin. }
        rewrite En in Et. apply (f_equal (fun r => match r with Ok a _ => a | _ => [] end)) in Et. unfold ret in Et. cbv beta iota in Et. rewrite <- Et. rewrite !group_findall. reflexivity.
      - exists None. injection Et as <- _. split; reflexivity. }
    destruct Hty as (ct & Hct & ->). rewrite !groups_findall in H. eexists. split; [exists ct; split; [exact Hct|reflexivity]|].
    match goal with H : context [child_tuples ?l] |- _ => set (cs := l) in * end. clearbody cs. clear - H.
    destruct (child_tuples cs) as [ts0 w0|] eqn:E; [|discriminate]. cbn [bind ret] in H. assert (ts0 = ts) by congruence. subst ts0. clear H. clear w. revert ts w0 E. induction cs as [|c cs IH]; intros ts w E; cbn [child_tuples] in E; [injection E as <- _; constructor|].
    unfold attr in E. destruct (sget (u "name") (x_attrib c)) as [nm|] eqn:En; [|destruct (sget (u "ref") (x_attrib c)) as [rf|] eqn:Er; [|discriminate]];
      cbn [bind ret] in E; destruct (child_tuples cs) as [r wr|]; try discriminate; cbn [bind ret] in E; injection E as <- _; (constructor; [cbn; auto|eapply IH; reflexivity]).
  Qed.
  Lemma create_describes n : no_extensions trees -> forall name p d w, create_schema_dict trees n name p = Ok d w ->
    describes trees (match p with Some e => Some e | None => get_schema_element trees (u "element") name end) d /\ proper d.
  Proof.
    intros Hno. induction n as [|n IH]; intros name p d w H; [discriminate|]. cbn [create_schema_dict] in H.
    destruct (match p with Some e => Some e | None => _ end) as [e|]; [|injection H as <- _; split; [constructor|constructor; [constructor|intros ? ? []]]].
    destruct (element_loop trees n e) as [ts w1|] eqn:Et; [|discriminate]. cbn [bind] in H. destruct (loop_declares _ _ _ _ Hno Et) as (cs & Hcs & HF).
    match type of H with context [?f ts] => set (go := f) in * end.
    assert (Hgo : forall cs ts l w, Forall2 (fun c kd => match snd kd with Some c' => c' = c /\ sget (u "name") (x_attrib c) = Some (fst kd)
       | None => sget (u "name") (x_attrib c) = None /\ sget (u "ref") (x_attrib c) = Some (fst kd) end) cs ts -> go ts = Ok l w ->
       Forall2 (fun c kd => exists o, declared trees c (fst kd) o /\ describes trees o (snd kd)) cs l /\ Forall (fun kd => proper (snd kd)) l).
    { clear - IH. intros cs ts. revert cs. induction ts as [|[k c] ts IHt]; intros cs l w HF H.
      - inversion HF; subst. injection H as <- _. split; constructor.
      - inversion HF as [|c0 ? cs0 ? Hc HF']; subst. cbn in H. destruct (create_schema_dict trees n k c) as [d w0|] eqn:Ed; [|discriminate]. cbn [bind] in H. fold go in H.
        destruct (go ts) as [r w2|] eqn:Er; [|discriminate]. cbn [bind ret] in H. injection H as <- _. destruct (IH _ _ _ _ Ed) as [H1 H2]. destruct (IHt _ _ _ HF' eq_refl) as [H3 H4]. cbn [fst snd] in Hc.
        split; [|constructor; assumption]. constructor; [|exact H3]. cbn [fst snd]. destruct c as [c|].
        + destruct Hc as [-> Hn]. exists (Some c0). split; [constructor; exact Hn|exact H1].
        + destruct Hc as [Hn Hr]. eexists. split; [apply declared_there; [exact Hn|exact Hr|apply defined_get]|exact H1]. }
    destruct (go ts) as [l w2|] eqn:El; [|discriminate]. cbn [bind ret] in H. injection H as <- _. destruct (Hgo _ _ _ _ HF El) as [H1 H2].
    split; [eapply describes_element; [exact Hcs|exact H1|apply (make_sdict_collects l)]|]. constructor; [apply fold_sset_NoDup; constructor|].
    intros t d Hin. apply fold_sset_In in Hin as [Hin|[]]. rewrite Forall_forall in H2. apply (H2 _ Hin).
  Qed.
  Lemma schema_described n name d w : no_extensions trees -> create_schema_dict trees n name None = Ok d w ->
    exists o, defined trees (u "element") name o /\ describes trees o d /\ proper d.
  Proof. intros Hno H. exists (get_schema_element trees (u "element") name). split; [apply defined_get|]. exact (create_describes _ Hno _ _ _ _ H). Qed.
End Schema.
