(** Proofs for C36. *)
From Verif.Base Require Import PyStr PyNum PyVal PyDict Outcome.
From Verif.Model Require Import Flatten XmlInput.
From Verif.Spec Require Import XmlTags.
From Verif.Proofs Require Import JvInd.

Lemma path_eqb_spec p : forall q, path_eqb p q = true <-> p = q.
Proof.
  induction p as [|a p IH]; intros [|b q]; cbn; try (split; [discriminate|discriminate]); [tauto|]. rewrite Bool.andb_true_iff, IH. destruct (str_eqb_spec a b) as [->|H]; [|split; [intros [F _]; discriminate|intros [= F _]; contradiction]].
  split; [intros [_ ->]; reflexivity|intros [= ->]; auto].
Qed.
Lemma in_paths p paths : existsb (path_eqb p) paths = true <-> In p paths.
Proof.
  rewrite existsb_exists. split; [intros (q & Hq & E); apply path_eqb_spec in E; subst; exact Hq|]. intros H. exists p. split; [exact H|apply path_eqb_spec; reflexivity].
Qed.

(** induction over documents: the values of a dict, and the items of its lists *)
Section DocInd.
  Variable P : jv -> Prop.
  Hypothesis Hs : forall x, (forall d, x <> JO d) -> P x.
  Hypothesis Ho : forall d, (forall k v, In (k, v) d -> P v) -> (forall k l y, In (k, JA l) d -> In y l -> P y) -> P (JO d).
  Lemma doc_ind x : P x.
  Proof.
    assert (H : P x /\ forall l y, x = JA l -> In y l -> P y); [|apply H]. induction x as [s|l IH|d IH] using jv_ind'.
    - split; [apply Hs; discriminate|discriminate].
    - split; [apply Hs; discriminate|]. intros l' y [= <-] Hy. rewrite Forall_forall in IH. apply (IH _ Hy).
    - split; [|discriminate]. rewrite Forall_forall in IH. apply Ho.
      + intros k v Hin. apply (IH _ Hin).
      + intros k l y Hin Hy. destruct (IH _ Hin) as [_ H]. eapply H; [reflexivity|exact Hy].
  Qed.
End DocInd.

Lemma paths_repeated x : forall p, In p (lists_of_dicts_paths x) <-> repeated x p.
Proof.
  induction x as [x Hx|d IHv IHl] using doc_ind; intros p.
  - destruct x as [s|l|d]; [| |exfalso; eapply Hx; reflexivity]; (split; [intros []|intros H; inversion H]).
  - cbn [lists_of_dicts_paths]. rewrite in_flat_map. split.
    + intros ([k v] & Hin & Hp). destruct v as [s|l|e]; [destruct Hp| |].
      * destruct l as [|[s0|l0|e] l]; try destruct Hp as [<-|Hp].
        -- destruct Hp.
        -- destruct Hp.
        -- destruct Hp.
        -- eapply rep_key; [exact Hin|exists e, l; reflexivity].
        -- apply in_map_iff in Hp as (q & <- & Hq). apply in_flat_map in Hq as (y & Hy & Hq). apply (IHl _ _ _ Hin Hy) in Hq. assert (Hyd : exists e', y = JO e') by (inversion Hq; eauto).
           destruct Hyd as [e' ->]. eapply rep_list; [exact Hin|exists e, l; reflexivity|exact Hy|exact Hq].
      * apply in_map_iff in Hp as (q & <- & Hq). apply (IHv _ _ Hin) in Hq. eapply rep_dict; eassumption.
    + intros H. inversion H as [d0 k v Hin He|d0 k e q Hin Hr|d0 k l e q Hin He Hy Hr]; subst.
      * exists (k, v). split; [exact Hin|]. destruct He as (e & l & ->). left. reflexivity.
      * exists (k, JO e). split; [exact Hin|]. apply in_map. apply (IHv _ _ Hin). exact Hr.
      * exists (k, JA l). split; [exact Hin|]. destruct He as (e0 & l0 & [= ->]). right. apply in_map. apply in_flat_map. exists (JO e). split; [exact Hy|]. apply (IHl _ _ _ Hin Hy). exact Hr.
Qed.

Section Conv.
  Variable paths : list (list str).
  Notation conv := (dicts_to_list_of_dicts paths).
  Lemma conv_item y p : (match y with JO _ => conv y p | _ => y end) = conv y p.
  Proof. destruct y; reflexivity. Qed.
  Lemma conv_JO d p : exists d', conv (JO d) p = JO d'.
  Proof. eexists. reflexivity. Qed.
  Lemma Forall2_map_r {A B} (R : A -> B -> Prop) f (l : list A) : (forall a, In a l -> R a (f a)) -> Forall2 R l (map f l).
  Proof. induction l as [|a l IH]; intros H; constructor; [apply H; left; reflexivity|]. apply IH. intros b Hb. apply H. right. exact Hb. Qed.
  Lemma conv_relisted x : forall p, relisted (fun q => In q paths) p x (conv x p).
  Proof.
    induction x as [x Hx|d IHv IHl] using doc_ind; intros p.
    - replace (conv x p) with x; [apply rl_other; exact Hx|]. destruct x; try reflexivity. exfalso. eapply Hx. reflexivity.
    - cbn [dicts_to_list_of_dicts]. apply rl_dict. apply Forall2_map_r. intros [k v] Hin. cbn [fst snd]. split; [reflexivity|]. destruct v as [s|l|e].
      + constructor.
      + apply rv_list. apply Forall2_map_r. intros y Hy. rewrite conv_item. eapply IHl; eassumption.
      + cbv zeta. destruct (existsb (path_eqb (p ++ [k])) paths) eqn:E.
        * apply rv_one; [apply in_paths; exact E|]. eapply IHv. exact Hin.
        * apply rv_dict; [intros F; apply in_paths in F; congruence|]. eapply IHv. exact Hin.
  Qed.

  (** [rep_in p x q]: the path of a repeated tag in [x], when [x] is at [p] *)
  Lemma conv_fix x : forall p, (forall q v, at_path x q v -> (exists e, v = JO e) -> ~ In (p ++ q) paths) -> conv x p = x.
  Proof.
    induction x as [x Hx|d IHv IHl] using doc_ind; intros p H.
    - destruct x; try reflexivity. exfalso. eapply Hx. reflexivity.
    - cbn [dicts_to_list_of_dicts]. f_equal. rewrite <- (map_id d) at 2. apply map_ext_in. intros [k v] Hin. f_equal. destruct v as [s|l|e]; [reflexivity| |].
      + f_equal. rewrite <- (map_id l) at 2. apply map_ext_in. intros y Hy. rewrite conv_item. eapply IHl; [exact Hin|exact Hy|]. intros q v Hq Hv F. rewrite <- app_assoc in F.
        assert (Hye : exists e, y = JO e) by (inversion Hq; eauto). destruct Hye as [e ->]. eapply H; [|exact Hv|exact F]. eapply at_list; eassumption.
      + cbv zeta. rewrite (IHv _ _ Hin). 2:{ intros q v Hq Hv F. rewrite <- app_assoc in F. eapply H; [|exact Hv|exact F]. eapply at_dict; eassumption. }
        destruct (existsb (path_eqb (p ++ [k])) paths) eqn:E; [|reflexivity]. exfalso. apply in_paths in E. eapply H; [apply at_key; exact Hin|eexists; reflexivity|exact E].
  Qed.
  (** no element is left at a repeated path *)
  Lemma conv_none x : forall p q v, at_path (conv x p) q v -> (exists e, v = JO e) -> ~ In (p ++ q) paths.
  Proof.
    induction x as [x Hx|d IHv IHl] using doc_ind; intros p q v H [e He].
    - destruct x as [s|l|d]; try (inversion H; fail). exfalso. eapply Hx. reflexivity.
    - cbn [dicts_to_list_of_dicts] in H. inversion H as [d0 k v0 Hin|d0 k e0 q0 v0 Hin Hq|d0 k l0 e0 q0 v0 Hin Hy Hq]; subst; apply in_map_iff in Hin as ([k' v'] & [= -> Ev] & Hin).
      + destruct v' as [s|l|e']; try discriminate. cbv zeta in Ev. destruct (existsb (path_eqb (p ++ [k])) paths) eqn:E; [discriminate|]. intros F. apply in_paths in F. congruence.
      + destruct v' as [s|l|e']; try discriminate. cbv zeta in Ev. destruct (existsb (path_eqb (p ++ [k])) paths) eqn:E; [discriminate|]. rewrite <- Ev in Hq.
        pose proof (IHv _ _ Hin _ _ _ Hq (ex_intro _ e eq_refl)) as F. rewrite <- app_assoc in F. exact F.
      + destruct v' as [s|l|e']; try discriminate.
        * injection Ev as <-. apply in_map_iff in Hy as (y & Ey & Hy). rewrite conv_item in Ey. rewrite <- Ey in Hq. pose proof (IHl _ _ _ Hin Hy _ _ _ Hq (ex_intro _ e eq_refl)) as F. rewrite <- app_assoc in F. exact F.
        * cbv zeta in Ev. destruct (existsb (path_eqb (p ++ [k])) paths) eqn:E; [|cbn [dicts_to_list_of_dicts] in Ev; discriminate]. injection Ev as <-. destruct Hy as [Ey|[]]. rewrite <- Ey in Hq.
          pose proof (IHv _ _ Hin _ _ _ Hq (ex_intro _ e eq_refl)) as F. rewrite <- app_assoc in F. exact F.
  Qed.
  (** nothing new is repeated *)
  Lemma conv_repeated x : forall p q, repeated (conv x p) q -> repeated x q \/ In (p ++ q) paths.
  Proof.
    induction x as [x Hx|d IHv IHl] using doc_ind; intros p q H.
    - destruct x as [s|l|d]; try (inversion H; fail). exfalso. eapply Hx. reflexivity.
    - cbn [dicts_to_list_of_dicts] in H. inversion H as [d0 k v0 Hin He|d0 k e0 q0 Hin Hq|d0 k l0 e0 q0 Hin He Hy Hq]; subst; apply in_map_iff in Hin as ([k' v'] & [= -> Ev] & Hin).
      + destruct He as (e0 & l0 & ->). destruct v' as [s|l|e']; try discriminate.
        * injection Ev as Ev. destruct l as [|y l]; [discriminate|]. cbn [map] in Ev. injection Ev as Ey _. rewrite conv_item in Ey. destruct y as [s|ly|ey]; try discriminate. left. eapply rep_key; [exact Hin|]. exists ey, l. reflexivity.
        * cbv zeta in Ev. destruct (existsb (path_eqb (p ++ [k])) paths) eqn:E; [|cbn [dicts_to_list_of_dicts] in Ev; discriminate]. right. apply in_paths. exact E.
      + destruct v' as [s|l|e']; try discriminate. cbv zeta in Ev. destruct (existsb (path_eqb (p ++ [k])) paths) eqn:E; [discriminate|]. rewrite <- Ev in Hq.
        destruct (IHv _ _ Hin _ _ Hq) as [F|F]; [left; eapply rep_dict; eassumption|right; rewrite <- app_assoc in F; exact F].
      + destruct He as (e1 & l1 & [= ->]). destruct v' as [s|l|e']; try discriminate.
        * injection Ev as Ev. assert (Hel : elements (JA l)).
          { destruct l as [|y l]; [discriminate|]. cbn [map] in Ev. injection Ev as Ey _. rewrite conv_item in Ey. destruct y as [s|ly|ey]; try discriminate. exists ey, l. reflexivity. }
          rewrite <- Ev in Hy. apply in_map_iff in Hy as (y & Ey & Hy). rewrite conv_item in Ey. rewrite <- Ey in Hq. destruct (IHl _ _ _ Hin Hy _ _ Hq) as [F|F]; [|right; rewrite <- app_assoc in F; exact F].
          left. destruct y as [s|ly|ey]; try (inversion F; fail). eapply rep_list; eassumption.
        * cbv zeta in Ev. destruct (existsb (path_eqb (p ++ [k])) paths) eqn:E; [|cbn [dicts_to_list_of_dicts] in Ev; discriminate]. injection Ev as Ey <-. destruct Hy as [Hy|[]]. injection Hy as ->. rewrite <- Ey in Hq.
          change (JO (map _ e')) with (conv (JO e') (p ++ [k])) in Hq.
          destruct (IHv _ _ Hin _ _ Hq) as [F|F]; [left; eapply rep_dict; eassumption|right; rewrite <- app_assoc in F; exact F].
  Qed.
  Lemma existsb_ext_paths a b p : (forall q, In q a <-> In q b) -> existsb (path_eqb p) a = existsb (path_eqb p) b.
  Proof. intros H. destruct (existsb (path_eqb p) a) eqn:E, (existsb (path_eqb p) b) eqn:E2; try reflexivity; [apply in_paths, H, in_paths in E|apply in_paths, H, in_paths in E2]; congruence. Qed.
End Conv.

Lemma consistency_exact x : relisted (repeated x) [] x (list_dict_consistency x).
Proof.
  unfold list_dict_consistency. pose proof (conv_relisted (lists_of_dicts_paths x) x []) as H.
  assert (X : forall (a b : list str -> Prop), (forall q, a q <-> b q) -> forall p y y', relisted a p y y' -> relisted b p y y'); [|eapply X; [|exact H]; intros q; apply paths_repeated].
  clear. intros a b Hab p y. revert p. induction y as [y Hy|d IHv IHl] using doc_ind; intros p y' H.
  - inversion H; subst; [exfalso; eapply Hy; reflexivity|]. apply rl_other. exact Hy.
  - inversion H as [p0 d0 d' HF|p0 y0 Hy]; subst; [|exfalso; eapply Hy; reflexivity]. apply rl_dict. clear H.
    induction HF as [|[k v] [k' v'] d d' [Hk Hv] _ IHd]; constructor; [|apply IHd; [intros ? ? Hin; eapply IHv; right; exact Hin|intros ? ? ? Hin; eapply IHl; right; exact Hin]].
    split; [exact Hk|]. cbn [fst snd] in *. specialize (IHv k v (or_introl eq_refl)). specialize (IHl k). inversion Hv as [q s|q l l' HF|q e x' Hr Hx|q e x' Hr Hx]; subst.
    + constructor.
    + apply rv_list. specialize (fun y => IHl l y (or_introl eq_refl)). clear - IHl HF. induction HF as [|y y' l l' Hy _ IHll]; constructor; [apply IHl; [left; reflexivity|exact Hy]|]. apply IHll. intros z Hz. apply IHl. right. exact Hz.
    + apply rv_one; [apply Hab; exact Hr|apply IHv; exact Hx].
    + apply rv_dict; [intros F; apply Hr, Hab; exact F|apply IHv; exact Hx].
Qed.
Lemma consistency_none x p v : repeated x p -> at_path (list_dict_consistency x) p v -> forall e, v <> JO e.
Proof.
  intros Hr Ha e ->. unfold list_dict_consistency in Ha. apply (conv_none (lists_of_dicts_paths x) x [] p (JO e) Ha); [eexists; reflexivity|]. apply paths_repeated. exact Hr.
Qed.
Lemma consistency_twice x : list_dict_consistency (list_dict_consistency x) = list_dict_consistency x.
Proof.
  unfold list_dict_consistency at 1. apply conv_fix. intros q v Ha Hv F. cbn [app] in F. apply paths_repeated in F.
  unfold list_dict_consistency in F, Ha. destruct (conv_repeated (lists_of_dicts_paths x) x [] q F) as [F'|F']; [apply paths_repeated in F'|cbn [app] in F']; eapply (conv_none (lists_of_dicts_paths x) x [] q v Ha Hv); exact F'.
Qed.
