(** What is written as XML is read back. *)
From Coq Require Import Permutation.
From Verif.Base Require Import PyStr PyNum PyVal PyDict Outcome.
From Verif.Model Require Import Flatten SortXml XmlInput XmlOut XmlDict.
From Verif.Spec Require Import XmlData XmlTrip.
From Verif.Spec Require XmlTags XmlOrder.
From Verif.Proofs Require Import SortXmlFacts XmlOutFacts.
From Verif.Proofs Require XmlTagsFacts.

(** ** the same elements, those with different tags in another order *)
Inductive rearranged : xel -> xel -> Prop :=
| rearr t a x cs cs' : (forall k, Forall2 rearranged (filter (fun c => str_eqb (x_tag c) k) cs) (filter (fun c => str_eqb (x_tag c) k) cs')) ->
    rearranged (El t a x cs) (El t a x cs').
Lemma rearranged_refl e : rearranged e e.
Proof.
  induction e as [t a x cs IH] using xel_ind'. constructor. intros k. assert (H : forall c, In c (filter (fun c => str_eqb (x_tag c) k) cs) -> rearranged c c) by (intros c H; apply filter_In in H as [H _]; auto).
  revert H. generalize (filter (fun c => str_eqb (x_tag c) k) cs). induction l as [|c l IHl]; intros H; constructor; [apply H; left; reflexivity|]. apply IHl. intros c' Hc. apply H. right. exact Hc.
Qed.
Lemma rearranged_children t a x cs cs' : Forall2 rearranged cs cs' -> rearranged (El t a x cs) (El t a x cs').
Proof.
  intros H. constructor. intros k. induction H as [|c c' cs cs' R _ IH]; [constructor|]. cbn [filter].
  assert (E : x_tag c' = x_tag c) by (destruct R; reflexivity). rewrite E. destruct (str_eqb (x_tag c) k); [constructor; assumption|exact IH].
Qed.
Lemma filter_tag_map (f : xel -> xel) k cs : (forall c, x_tag (f c) = x_tag c) -> filter (fun c => str_eqb (x_tag c) k) (map f cs) = map f (filter (fun c => str_eqb (x_tag c) k) cs).
Proof. intros H. induction cs as [|c cs IH]; [reflexivity|]. cbn [map filter]. rewrite H. destruct (str_eqb (x_tag c) k); [cbn [map]; f_equal|]; exact IH. Qed.
Lemma rearranged_sorted e : forall d, rearranged e (sort_element e d).
Proof.
  induction e as [t a x cs IH] using xel_ind'. intros d. cbn [sort_element]. constructor. intros k.
  rewrite sort_by_filter; [|intros c c' H H'; destruct (str_eqb_spec (x_tag c) k) as [E1|]; [|discriminate H]; destruct (str_eqb_spec (x_tag c') k) as [E2|]; [|discriminate H']; congruence].
  rewrite filter_tag_map by (intros c; apply sort_element_tag).
  assert (H : forall c, In c (filter (fun c => str_eqb (x_tag c) k) cs) -> forall d, rearranged c (sort_element c d)) by (intros c H; apply filter_In in H as [H _]; auto).
  revert H. generalize (filter (fun c => str_eqb (x_tag c) k) cs). induction l as [|c l IHl]; intros H; constructor; [apply H; left; reflexivity|]. apply IHl. intros c' Hc. apply H. right. exact Hc.
Qed.

(** ** what reading an element gives *)
Section Value.
  Variable force : option str.
  Notation push := (push_data force).
  Notation value := (element_value force).
  Definition no_list (v : jv) : Prop := forall l, v <> JA l.
  Definition vals (k : str) (d : jobj) : list jv := match sget k d with Some (JA l) => l | Some y => [y] | None => [] end.
  Lemma value_no_list e : no_list (value e).
  Proof. destruct e as [t a x cs]. intros l. cbn [element_value]. destruct (fold_left _ _ _); destruct (strip is_ws _); discriminate. Qed.
  Lemma push_other d k v k' : k' <> k -> sget k' (push d k v) = sget k' d.
  Proof. intros N. unfold push_data. destruct (sget k d) as [[s|l|e]|]; [| | |destruct (forced force k)]; apply sget_sset_neq; congruence. Qed.
  Lemma push_vals d k v k' : no_list v -> vals k' (push d k v) = vals k' d ++ (if str_eqb k k' then [v] else []).
  Proof.
    intros N. unfold vals. destruct (str_eqb_spec k k') as [<-|Ne]; [|rewrite push_other by congruence; rewrite app_nil_r; reflexivity].
    unfold push_data. destruct (sget k d) as [[s|l|e]|]; [| | |destruct (forced force k)]; rewrite sget_sset_eq; try reflexivity. destruct v as [s|l|e]; try reflexivity. destruct (N l eq_refl).
  Qed.
  Lemma push_NoDup d k v : NoDup (map fst d) -> NoDup (map fst (push d k v)).
  Proof. intros H. unfold push_data. destruct (sget k d) as [[s|l|e]|]; [| | |destruct (forced force k)]; apply sset_NoDup; exact H. Qed.
  Lemma sset_ne {V} k (v : V) d : sset k v d <> [].
  Proof. unfold sset. destruct d as [|[k' v'] d]; [discriminate|]. cbn [aset]. destruct (str_eqb k k'); discriminate. Qed.
  Lemma push_ne d k v : push d k v <> [].
  Proof. unfold push_data. destruct (sget k d) as [[s|l|e]|]; [| | |destruct (forced force k)]; apply sset_ne. Qed.
  Definition pushes (l : list (str * jv)) (d : jobj) : jobj := fold_left (fun d kv => push d (fst kv) (snd kv)) l d.
  Lemma pushes_facts l : forall d, (forall kv, In kv l -> no_list (snd kv)) ->
    (forall k, (forall kv, In kv l -> fst kv <> k) -> sget k (pushes l d) = sget k d) /\
    (forall k, vals k (pushes l d) = vals k d ++ map snd (filter (fun kv => str_eqb (fst kv) k) l)) /\
    (NoDup (map fst d) -> NoDup (map fst (pushes l d))).
  Proof.
    induction l as [|[k0 v0] l IH]; intros d N; [split; [reflexivity|]; split; [intros k; cbn; rewrite app_nil_r; reflexivity|auto]|].
    destruct (IH (push d k0 v0)) as (A & B & C); [intros kv H; apply N; right; exact H|]. cbn [pushes fold_left fst snd]. fold (pushes l (push d k0 v0)). split; [|split].
    - intros k H. rewrite A; [|intros kv Hk; apply H; right; exact Hk]. apply push_other. intros ->. exact (H (k0, v0) (or_introl eq_refl) eq_refl).
    - intros k. rewrite B, push_vals by (apply (N (k0, v0)); left; reflexivity). cbn [filter fst]. rewrite <- app_assoc. f_equal. destruct (str_eqb k0 k); reflexivity.
    - intros H. apply C, push_NoDup, H.
  Qed.

  Definition attr_items (a : list (str * str)) : jobj := map (fun kv => (64%N :: fst kv, JS (SStr (snd kv)))) a.
  Lemma attr_get a n : sget (64%N :: n) (attr_items a) = option_map (fun t => JS (SStr t)) (sget n a).
  Proof.
    induction a as [|[k v] a IH]; [reflexivity|]. unfold attr_items, sget in *. cbn [map fst snd aget]. assert (Q : str_eqb (64%N :: n) (64%N :: k) = str_eqb n k) by reflexivity.
    rewrite Q. destruct (str_eqb n k); [reflexivity|exact IH].
  Qed.
  Lemma attr_not a k : hd 0%N k <> 64%N -> sget k (attr_items a) = None.
  Proof.
    intros H. apply sget_None. unfold attr_items. rewrite map_map. cbn [fst]. intros X. apply in_map_iff in X as (kv & <- & _). apply H. reflexivity.
  Qed.
  Lemma attr_NoDup a : NoDup (map fst a) -> NoDup (map fst (attr_items a)).
  Proof.
    intros H. unfold attr_items. rewrite map_map. cbn [fst]. rewrite <- (map_map fst (cons 64%N)). apply FinFun.Injective_map_NoDup; [intros x y [= E]; exact E|exact H].
  Qed.
  Lemma value_facts t a x cs : NoDup (map fst a) -> (forall c, In c cs -> hd 0%N (x_tag c) <> 64%N /\ x_tag c <> u "#text") -> force <> Some (u "#text") ->
    let v := value (El t a x cs) in let txt := strip is_ws (match x with Some t => t | None => [] end) in
    (forall n, sget (64%N :: n) (keys_of v) = option_map (fun t => JS (SStr t)) (sget n a)) /\
    sget (u "#text") (keys_of v) = (match txt with [] => None | s => Some (JS (SStr s)) end) /\
    (forall k, hd 0%N k <> 64%N -> k <> u "#text" -> got k v = map value (filter (fun c => str_eqb (x_tag c) k) cs)) /\
    NoDup (map fst (keys_of v)) /\ (v = JS SNone \/ exists d, v = JO d /\ d <> []).
  Proof.
    intros Na Ht Hf v txt. set (l := map (fun c => (x_tag c, value c)) cs). set (d := pushes l (attr_items a)).
    assert (Ev : v = match d, txt with [], [] => JS SNone | _, [] => JO d | _, c :: s => JO (push d cdata_key (JS (SStr (c :: s)))) end) by reflexivity. clearbody v.
    destruct (pushes_facts l (attr_items a)) as (A & B & C).
    { intros kv H. unfold l in H. apply in_map_iff in H as (c & <- & _). apply value_no_list. }
    fold d in A, B, C. specialize (C (attr_NoDup a Na)).
    assert (D1 : forall n, sget (64%N :: n) d = option_map (fun t => JS (SStr t)) (sget n a)).
    { intros n. rewrite A; [apply attr_get|]. intros kv H E. unfold l in H. apply in_map_iff in H as (c & <- & Hc). cbn [fst] in E. destruct (Ht c Hc) as [X _]. rewrite E in X. apply X. reflexivity. }
    assert (D2 : sget (u "#text") d = None).
    { rewrite A; [apply attr_not; discriminate|]. intros kv H E. unfold l in H. apply in_map_iff in H as (c & <- & Hc). destruct (Ht c Hc) as [_ X]. exact (X E). }
    assert (D3 : forall k, hd 0%N k <> 64%N -> vals k d = map value (filter (fun c => str_eqb (x_tag c) k) cs)).
    { intros k Hk. rewrite B. unfold vals at 1. rewrite attr_not by exact Hk. cbn [app]. unfold l. clear. induction cs as [|c cs IH]; [reflexivity|]. cbn [map filter fst]. destruct (str_eqb (x_tag c) k); [cbn [map snd]; f_equal|]; exact IH. }
    clearbody d. clear A B.
    assert (Pt : forall s, push d cdata_key (JS (SStr s)) = sset cdata_key (JS (SStr s)) d).
    { intros s. unfold push_data. change cdata_key with (u "#text"). rewrite D2. unfold forced. destruct force as [f|]; [|reflexivity]. destruct (str_eqb_spec (u "#text") f) as [<-|]; [destruct (Hf eq_refl)|reflexivity]. }
    assert (K : keys_of v = match txt with [] => d | s => sset cdata_key (JS (SStr s)) d end).
    { rewrite Ev. destruct d as [|p d0] eqn:Ed; destruct txt as [|c s]; try reflexivity; cbn [keys_of]; apply Pt. }
    rewrite K. split; [|split; [|split; [|split]]].
    - intros n. destruct txt; [apply D1|]. rewrite sget_sset_neq; [apply D1|discriminate].
    - destruct txt; [exact D2|]. apply sget_sset_eq.
    - intros k Hk Hk2. rewrite <- D3 by exact Hk. unfold got. rewrite K. destruct txt; [reflexivity|]. rewrite sget_sset_neq; [reflexivity|exact Hk2].
    - destruct txt; [exact C|apply sset_NoDup; exact C].
    - rewrite Ev. destruct d as [|p d0]; destruct txt as [|c s]; [left; reflexivity| | |]; right; eexists; (split; [reflexivity|]); try discriminate; apply push_ne.
  Qed.
End Value.

(** ** reading back *)
Section Trip.
  Variables (E : xenv) (ns : nsmap) (force : option str).
  Hypothesis HF : force <> Some (u "#text").

  Lemma full_plain k a : ~ In 58%N k -> full_name ns k a -> a = k.
  Proof. intros N H. destruct H as [|p n x Hp]; [reflexivity|]. exfalso. apply N. apply in_or_app. right. left. reflexivity. Qed.
  Lemma entry_tag d : (forall k v, In (k, v) d -> ~ In 58%N k /\ k <> u "#text") -> forall k y, In (k, y) (element_entries d) -> ~ In 58%N k /\ k <> u "#text".
  Proof.
    intros H k y X. unfold element_entries in X. apply in_concat in X as (l & Hl & X). apply in_map_iff in Hl as ([k' v] & <- & Hin). cbn [fst snd] in X.
    destruct v as [s|l'|e]; [destruct X|apply in_map_iff in X as (z & [= <- <-] & _)|destruct X as [[= <- <-]|[]]]; exact (H _ _ Hin).
  Qed.
  Lemma entry_at d : (forall k v, In (k, v) d -> (exists s, v = JS s /\ (k = u "text()" \/ exists a, k = at_sign :: a /\ startswith a (u "xmlns") = false)) \/
         (hd 0%N k <> at_sign /\ ((exists e, v = JO e) \/ (exists l, v = JA l /\ forall y, In y l -> exists e, y = JO e)))) ->
    forall k y, In (k, y) (element_entries d) -> hd 0%N k <> at_sign.
  Proof.
    intros H k y X. unfold element_entries in X. apply in_concat in X as (l & Hl & X). apply in_map_iff in Hl as ([k' v] & <- & Hin). cbn [fst snd] in X.
    destruct (H _ _ Hin) as [(s & -> & _)|[N _]]; [destruct X|]. destruct v as [s|l'|e]; [destruct X|apply in_map_iff in X as (z & [= <- <-] & _)|destruct X as [[= <- <-]|[]]]; exact N.
  Qed.
  Lemma sget_iff {V} (a : list (str * V)) k v : NoDup (map fst a) -> sget k a = Some v <-> In (k, v) a.
  Proof. intros N. split; [apply sget_In|apply In_sget; exact N]. Qed.
  Lemma Forall2_length_map {A B C} (R : A -> C -> Prop) (f : B -> C) l l' : Forall2 (fun a b => R a (f b)) l l' -> Forall2 R l (map f l').
  Proof. induction 1; constructor; auto. Qed.

  Lemma read_back x : shaped ns x -> plain_xml x -> forall tag e e', mirrors E ns x tag e -> rearranged e e' -> reread (xe_env E) x (element_value force e').
  Proof.
    induction 1 as [d Nd Sh Ua _ IH]. intros U tag e e' M R. inversion U as [d0 U1 U2]; subst d0. inversion M as [d0 tag0 tag' attrs text cs Ft Na Ha Hx Hc]; subst d0 tag0 e.
    inversion R as [t0 a0 x0 cs0 cs' Hr]; subst t0 a0 x0 cs0 e'.
    assert (Tc : forall c, In c cs -> hd 0%N (x_tag c) <> 64%N /\ x_tag c <> u "#text").
    { intros c Hin. destruct (In_nth_error _ _ Hin) as (n & En). assert (X : exists kv, In kv (element_entries d) /\ mirrors E ns (snd kv) (fst kv) c).
      { clear - Hc Hin. induction Hc as [|kv c' l l' Hm _ IHc]; [destruct Hin|]. destruct Hin as [<-|Hin]; [exists kv; split; [left; reflexivity|exact Hm]|]. destruct (IHc Hin) as (kv' & A & B). exists kv'. split; [right; exact A|exact B]. }
      destruct X as ([k y] & Hk & Hm). destruct (entry_tag d U1 _ _ Hk) as [C1 C2]. pose proof (entry_at d Sh _ _ Hk) as C3. cbn [fst snd] in *. inversion Hm as [d1 tag1 tag1' a1 x1 cs1 Ft1 _ _ _ _]; subst. cbn [x_tag].
      rewrite (full_plain _ _ C1 Ft1). split; [exact C3|exact C2]. }
    assert (Tc' : forall c, In c cs' -> hd 0%N (x_tag c) <> 64%N /\ x_tag c <> u "#text").
    { intros c Hin. assert (Hf : In c (filter (fun c' => str_eqb (x_tag c') (x_tag c)) cs')) by (apply filter_In; split; [exact Hin|apply str_eqb_refl]).
      specialize (Hr (x_tag c)). assert (X : exists c0, In c0 (filter (fun c' => str_eqb (x_tag c') (x_tag c)) cs)).
      { destruct Hr as [|c0 c1 l l' _ _]; [destruct Hf|]. exists c0. left. reflexivity. }
      destruct X as (c0 & Hc0). apply filter_In in Hc0 as [Hc0 E0]. apply str_eqb_eq in E0. rewrite <- E0. exact (Tc c0 Hc0). }
    destruct (value_facts force tag' attrs text cs' Na Tc' HF) as (V1 & V2 & V3 & V4 & V5). constructor; [| | |exact V4|exact V5].
    - intros a y. change at_sign with 64%N. rewrite V1. split.
      + destruct (sget a attrs) as [t|] eqn:Ea; [|discriminate]. intros [= <-]. apply sget_In in Ea. apply Ha in Ea as (k & s & Hin & Hk & ->). exists s. split; [|reflexivity].
        assert (X : a = k) by (apply (full_plain k a); [|exact Hk]; intros X; apply (proj1 (U1 _ _ Hin)); right; exact X). subst k. exact Hin.
      + intros (s & Hin & ->). assert (X : In (a, py_str (xe_env E) s) attrs).
        { apply Ha. exists a, s. split; [exact Hin|]. split; [|reflexivity]. constructor. intros X. apply (proj1 (U1 _ _ Hin)). right. exact X. }
        rewrite (In_sget _ _ _ Na X). reflexivity.
    - intros y. rewrite V2. split.
      + destruct text as [t|]; [|intros X; exfalso; clear - X; discriminate X]. destruct (proj1 (Hx t) eq_refl) as (s & Hin & -> & Ne). intros X. exists s. split; [exact Hin|].
        destruct (strip is_ws (py_str (xe_env E) s)) as [|c r] eqn:Es; [discriminate X|]. injection X as <-. split; [discriminate|reflexivity].
      + intros (s & Hin & Ne & ->). assert (X : text = Some (py_str (xe_env E) s)).
        { apply Hx. exists s. split; [exact Hin|]. split; [reflexivity|]. intros X. rewrite X in Ne. apply Ne. reflexivity. }
        subst text. destruct (strip is_ws (py_str (xe_env E) s)) as [|c r] eqn:Es; [congruence|]. reflexivity.
    - intros k Hk Hk2. rewrite V3 by assumption. apply Forall2_length_map.
      assert (X : Forall2 (fun y c => exists c0, (exists k', In (k', y) (element_entries d)) /\ mirrors E ns y k c0 /\ rearranged c0 c) (put k d) (filter (fun c => str_eqb (x_tag c) k) cs')).
      { specialize (Hr k). assert (Y : Forall2 (fun y c0 => (exists k', In (k', y) (element_entries d)) /\ mirrors E ns y k c0) (put k d) (filter (fun c => str_eqb (x_tag c) k) cs)).
        { unfold put. assert (G : forall l cs, (forall kv, In kv l -> In kv (element_entries d)) -> Forall2 (fun (kv : str * jv) (c : xel) => mirrors E ns (snd kv) (fst kv) c) l cs ->
            Forall2 (fun y c0 => (exists k', In (k', y) (element_entries d)) /\ mirrors E ns y k c0) (map snd (filter (fun kv => str_eqb (fst kv) k) l)) (filter (fun c => str_eqb (x_tag c) k) cs)); [|apply G; auto].
          clear - U1. intros l cs Sub Hc. induction Hc as [|[k' y] c l cs Hm _ IHc]; [constructor|].
          assert (Q : In (k', y) (element_entries d)) by (apply Sub; left; reflexivity). cbn [fst snd] in Hm. cbn [filter map fst]. inversion Hm as [d1 tag1 tag1' a1 x1 cs1 Ft1 _ _ _ _]; subst. cbn [x_tag]. rewrite (full_plain _ _ (proj1 (entry_tag d U1 _ _ Q)) Ft1) in *.
          assert (I : Forall2 (fun y c0 => (exists k', In (k', y) (element_entries d)) /\ mirrors E ns y k c0) (map snd (filter (fun kv => str_eqb (fst kv) k) l)) (filter (fun c => str_eqb (x_tag c) k) cs)) by (apply IHc; intros kv H; apply Sub; right; exact H).
          destruct (str_eqb_spec k' k) as [<-|]; [|exact I]. cbn [map snd]. constructor; [|exact I]. split; [eauto|exact Hm]. }
        clear - Y Hr. revert Hr. generalize (filter (fun c => str_eqb (x_tag c) k) cs'). induction Y as [|y c0 l l0 [P Q] _ IH]; intros l' Hr; inversion Hr; subst; constructor; [exists c0; auto|]. apply IH. assumption. }
      clear - X IH U2. induction X as [|y c l l' (c0 & (k' & Hk') & Hm & Hr) _ IHl]; constructor; [|exact IHl]. eapply IH; eauto.
  Qed.

  (** ** lists where there are lists elsewhere *)
  Lemma relisted_keys rep p d d' : Forall2 (fun kv kv' => fst kv = fst kv' /\ XmlTags.relisted_value rep (p ++ [fst kv]) (snd kv) (snd kv')) d d' ->
    map fst d = map fst d' /\
    forall k, match sget k d, sget k d' with
              | None, None => True
              | Some v, Some v' => XmlTags.relisted_value rep (p ++ [k]) v v'
              | _, _ => False
              end.
  Proof.
    induction 1 as [|[k v] [k' v'] d d' [Ek Hv] _ [I1 I2]]; [split; [reflexivity|intros k; exact I]|]. cbn [fst snd] in Ek, Hv. subst k'. split; [cbn [map fst]; congruence|].
    intros k0. unfold sget in *. cbn [aget]. destruct (str_eqb_spec k0 k) as [->|]; [exact Hv|apply I2].
  Qed.
  Lemma relisted_scalar rep p s v : XmlTags.relisted rep p (JS s) v -> v = JS s.
  Proof. intros H. inversion H; subst. reflexivity. Qed.
  (** a list that is read back has no lists in it *)
  Lemma reread_not_list x v : reread (xe_env E) x v -> forall l, v <> JA l.
  Proof. intros H l ->. inversion H as [? ? _ _ _ _ [X|(d & X & _)]]; discriminate X. Qed.
  Lemma relisted_reread x : shaped ns x -> forall rep p v v', reread (xe_env E) x v -> XmlTags.relisted rep p v v' -> reread (xe_env E) x v'.
  Proof.
    induction 1 as [d Nd Sh Ua _ IH]. intros rep p v v' R L. inversion R as [d0 v0 R1 R2 R3 R4 R5]; subst d0 v0. destruct R5 as [->|(dv & -> & Ne)]; [rewrite (relisted_scalar _ _ _ _ L); exact R|].
    inversion L as [p0 d0 d' F|p0 x0 No]; subst; [|destruct (No dv eq_refl)]. destruct (relisted_keys _ _ _ _ F) as [K1 K2]. cbn [keys_of] in R1, R2, R4.
    assert (Sc : forall k s, sget k dv = Some (JS s) <-> sget k d' = Some (JS s)).
    { intros k s. specialize (K2 k). destruct (sget k dv) as [y|], (sget k d') as [y'|]; try contradiction.
      - split; intros [= ->]; inversion K2 as [? ?|? ? ? ?|? ? ? ? ?|? ? ? ? Lx]; subst; try reflexivity; inversion Lx.
      - split; intros X; discriminate X. }
    constructor; cbn [keys_of].
    - intros a y. rewrite <- R1. split; intros H.
      + assert (X : exists s, y = JS s).
        { specialize (K2 (at_sign :: a)). rewrite H in K2. destruct (sget (at_sign :: a) dv) as [y0|] eqn:E0; [|contradiction]. apply R1 in E0 as (s & _ & ->). inversion K2; subst. eauto. }
        destruct X as (s & ->). apply Sc. exact H.
      + pose proof (proj1 (R1 _ _) H) as (s & _ & ->). apply Sc. exact H.
    - intros y. rewrite <- R2. split; intros H.
      + assert (X : exists s, y = JS s).
        { specialize (K2 (u "#text")). rewrite H in K2. destruct (sget (u "#text") dv) as [y0|] eqn:E0; [|contradiction]. destruct (proj1 (R2 y0) eq_refl) as (s & _ & _ & ->). inversion K2; subst. eauto. }
        destruct X as (s & ->). apply Sc. exact H.
      + pose proof (proj1 (R2 _) H) as (s & _ & _ & ->). apply Sc. exact H.
    - intros k Hk Hk2. specialize (R3 k Hk Hk2). specialize (K2 k). unfold got in *. cbn [keys_of] in *.
      assert (In_put : forall y, In y (put k d) -> exists k', In (k', y) (element_entries d)).
      { intros y H. unfold put in H. apply in_map_iff in H as ([k' y'] & <- & H). apply filter_In in H as [H _]. eauto. }
      assert (St : forall p l l', Forall2 (XmlTags.relisted rep p) l l' -> forall ys, (forall y, In y ys -> exists k', In (k', y) (element_entries d)) -> Forall2 (reread (xe_env E)) ys l -> Forall2 (reread (xe_env E)) ys l').
      { clear - IH. induction 1 as [|a b l l' H _ IHl]; intros ys Hys F; inversion F; subst; constructor; [|apply IHl; [intros y' Hy; apply Hys; right; exact Hy|assumption]].
        destruct (Hys x) as (k' & Hk'); [left; reflexivity|]. eapply IH; eauto. }
      destruct (sget k dv) as [y|], (sget k d') as [y'|]; try contradiction; [|exact R3].
      inversion K2; subst; [exact R3| | |].
      + match goal with H : Forall2 (XmlTags.relisted rep _) _ _ |- _ => exact (St _ _ _ H _ In_put R3) end.
      + match goal with H : XmlTags.relisted rep ?p (JO ?e) ?x1 |- _ => apply (St p [JO e] [x1] (Forall2_cons _ _ H (Forall2_nil _)) _ In_put R3) end.
      + match goal with H : XmlTags.relisted rep ?p (JO ?e) ?x1 |- _ =>
          assert (X : exists d2, x1 = JO d2) by (inversion H as [? ? d2 ?|? ? No']; subst; [eauto|destruct (No' e eq_refl)]);
          destruct X as (d2 & X); rewrite X in *; apply (St p [JO e] [JO d2] (Forall2_cons _ _ H (Forall2_nil _)) _ In_put R3) end.
    - rewrite <- K1. exact R4.
    - right. exists d'. split; [reflexivity|]. intros ->. apply Ne. destruct dv; [reflexivity|discriminate K1].
  Qed.
  Lemma consistent_reread x v : shaped ns x -> reread (xe_env E) x v -> reread (xe_env E) x (list_dict_consistency v).
  Proof. intros S R. eapply relisted_reread; [exact S|exact R|apply XmlTagsFacts.consistency_exact]. Qed.
End Trip.

(** ** the document *)
Lemma toxml_rearranged E x tag schema comment r c : toxml E x tag schema comment = Ok (r, c) [] ->
  exists r0 ns', dict_to_xml E x tag [(u "xml", u "http://www.w3.org/XML/1998/namespace")] = Ok (Some r0, ns') [] /\ rearranged r0 r.
Proof.
  intros H. unfold toxml in H. apply bind_ok_nil in H as ([o ns'] & H1 & H2). cbn [fst] in H2. exists (match o with Some r0 => r0 | None => r end), ns'.
  destruct schema as [[d w|e w]|]; [| |].
  - destruct o as [[t a y cs]|]; [|discriminate H2]. injection H2 as <- _. split; [exact H1|]. apply rearranged_children. clear. induction cs as [|c cs IH]; constructor; [apply rearranged_sorted|exact IH].
  - discriminate H2.
  - destruct o as [r0|]; [|discriminate H2]. injection H2 as <- _. split; [exact H1|apply rearranged_refl].
Qed.
Theorem xml_trip E x tag schema comment r c force : hd 0%N tag <> at_sign -> ~ In 58%N tag -> shaped [(u "xml", u "http://www.w3.org/XML/1998/namespace")] x -> plain_xml x -> force <> Some (u "#text") ->
  toxml E x tag schema comment = Ok (r, c) [] -> x_tag r = tag /\ reread (xe_env E) x (element_value force r) /\ reread (xe_env E) x (list_dict_consistency (element_value force r)).
Proof.
  intros Ht Hc S P F H. destruct (toxml_rearranged _ _ _ _ _ _ _ H) as (r0 & ns' & H1 & R). destruct (xml_no_loss _ _ _ _ _ _ Ht S H1) as (r1 & [= <-] & M).
  assert (Q : reread (xe_env E) x (element_value force r)) by (eapply read_back; eauto). split; [|split; [exact Q|eapply consistent_reread; eauto]].
  inversion M as [d tag0 tag' a t cs Ft _ _ _ _]; subst. inversion R; subst. cbn [x_tag]. eapply full_plain; eauto.
Qed.
