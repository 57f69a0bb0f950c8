(** The table of titles the schema parser makes. *)
From Verif.Base Require Import PyStr PyNum PyVal PyDict Outcome.
From Verif.Model Require Import Flatten Titles Schema.
From Verif.Spec Require Import Headings SchemaFields.
From Verif.Proofs Require Import SchemaTrace SchemaRun SchemaColumns SchemaState.

Lemma FOP_inv {A} (R : A -> A -> Prop) a l : ForallOrdPairs R (a :: l) -> Forall (R a) l /\ ForallOrdPairs R l.
Proof. intros H. inversion H; auto. Qed.

Section TitleTable.
  Variable O : sopts.
  Let key := title_key (so_lower O).

  Fixpoint table_after (tr : list act) (T : Titles.table) : Titles.table :=
    match tr with
    | [] => T
    | ATitle lk t n :: tr' => table_after tr' (t_add (so_lower O) lk t n T)
    | _ :: tr' => table_after tr' T
    end.
  Lemma table_after_app a b T : table_after (a ++ b) T = table_after b (table_after a T).
  Proof. revert T. induction a as [|x a IH]; intros T; [reflexivity|]. destruct x; cbn [app table_after]; apply IH. Qed.
  Lemma table_after_object n t tr : forall T, table_after (flat_map (lift_object n t) tr) T = table_after tr T.
  Proof. induction tr as [|a tr IH]; intros T; [reflexivity|]. destruct a; cbn [flat_map lift_object app table_after]; apply IH. Qed.
  Lemma table_after_none tr : Forall (fun a => match a with ATitle _ _ _ => False | _ => True end) tr -> forall T, table_after tr T = T.
  Proof. induction 1 as [|a tr Ha _ IH]; intros T; [reflexivity|]. destruct a; cbn; try apply IH. destruct Ha. Qed.
  Lemma table_after_objects sn pp n pt t up tr : forall T, table_after (flat_map (lift_objects O sn pp n pt t up) tr) T = table_after tr T.
  Proof.
    induction tr as [|a tr IH]; intros T; [reflexivity|]. destruct a; cbn [flat_map lift_objects app]; try (cbn [table_after]; apply IH).
    rewrite table_after_app, IH. cbn [table_after]. f_equal. apply table_after_none. apply Forall_app. split.
    - unfold sub_col. destruct (so_titles O); [destruct t0; [destruct pt; [destruct t|]|]|]; repeat constructor.
    - unfold roll_act. destruct (up f); repeat constructor.
  Qed.
  Lemma table_after_length tr : forall T, length (table_after tr T) = (length T + titles_in tr)%nat.
  Proof.
    induction tr as [|a tr IH]; intros T; [unfold titles_in; cbn; lia|]. destruct a; cbn [table_after]; rewrite IH; unfold titles_in; cbn [filter length]; try reflexivity. rewrite t_add_length. lia.
  Qed.
  Lemma runs_titles tr : forall x st x' st', runs O (main_emit O) tr x st x' st' -> sp_table st' = table_after tr (sp_table st).
  Proof.
    induction tr as [|a tr IH]; intros x st x' st' H; [destruct H as [_ ->]; reflexivity|].
    destruct a; cbn [runs] in H; try (rewrite (IH _ _ _ _ H); reflexivity).
    - rewrite (IH _ _ _ _ H). cbn [table_after]. destruct title; reflexivity.
    - destruct H as (x1 & st1 & w & E & H). rewrite (IH _ _ _ _ H). cbn [table_after]. f_equal. unfold main_emit in E. destruct (so_titles O); [destruct t|]; injection E as _ <- _; reflexivity.
  Qed.

  (** ** the nodes of the table *)
  Lemma node_add_other lk t n T j : (lk < length T)%nat -> (j < length T)%nat -> j <> lk -> t_node (t_add (so_lower O) lk t n T) j = t_node T j.
  Proof. intros H1 H2 H3. unfold t_node, t_add. rewrite app_nth1 by (rewrite t_update_length; exact H2). rewrite t_update_nth by exact H1. apply Nat.eqb_neq in H3. rewrite H3. reflexivity. Qed.
  Lemma node_add_here lk t n T : (lk < length T)%nat -> t_node (t_add (so_lower O) lk t n T) lk = {| tn_name := tn_name (t_node T lk); tn_data := sset (key t) (length T) (tn_data (t_node T lk)) |}.
  Proof. intros H1. unfold t_node, t_add. rewrite app_nth1 by (rewrite t_update_length; exact H1). rewrite t_update_nth by exact H1. rewrite Nat.eqb_refl. reflexivity. Qed.
  Lemma node_add_new lk t n T : t_node (t_add (so_lower O) lk t n T) (length T) = {| tn_name := n; tn_data := [] |}.
  Proof. unfold t_node, t_add. rewrite app_nth2 by (rewrite t_update_length; lia). rewrite t_update_length, Nat.sub_diag. reflexivity. Qed.

  (** the table changed at [lk] only, and there only under the keys [ks] *)
  Record eff (T T' : Titles.table) (lk : nat) (ks : str -> Prop) : Prop := {
    e_len : (length T <= length T')%nat;
    e_other : forall j, (j < length T)%nat -> j <> lk -> t_node T' j = t_node T j;
    e_name : tn_name (t_node T' lk) = tn_name (t_node T lk);
    e_key : forall q, sget q (tn_data (t_node T' lk)) = sget q (tn_data (t_node T lk)) \/ ks q }.
  Lemma eff_refl T lk ks : eff T T lk ks.
  Proof. split; auto. Qed.
  Lemma eff_trans T1 T2 T3 lk (k1 k2 ks : str -> Prop) : (lk < length T1)%nat -> eff T1 T2 lk k1 -> eff T2 T3 lk k2 -> (forall q, k1 q \/ k2 q -> ks q) -> eff T1 T3 lk ks.
  Proof.
    intros L [A1 A2 A3 A4] [B1 B2 B3 B4] I. split.
    - lia.
    - intros j Hj Hn. rewrite B2 by (auto; lia). apply A2; auto.
    - congruence.
    - intros q. destruct (B4 q) as [E|E]; [|auto]. rewrite E. destruct (A4 q) as [E'|E']; auto.
  Qed.
  Lemma eff_add lk t n T : (lk < length T)%nat -> eff T (t_add (so_lower O) lk t n T) lk (fun q => q = key t).
  Proof.
    intros L. split.
    - rewrite t_add_length. lia.
    - intros j Hj Hn. apply node_add_other; auto.
    - rewrite node_add_here by exact L. reflexivity.
    - intros q. rewrite node_add_here by exact L. cbn [tn_data]. destruct (str_eqb_spec (key t) q) as [->|N]; [auto|left; apply sget_sset_neq; congruence].
  Qed.

  (** node [i] of the table is that of objects with schema [v]; the nodes below are from [k] on *)
  Inductive tree (T : Titles.table) (k : nat) : nat -> sv -> Prop :=
  | tree_node i v :
      (forall n w t, property O v n w -> title_of w = Some t -> exists j, (k <= j < length T)%nat /\ t_find (so_lower O) T i t = Some j /\ tn_name (t_node T j) = n /\
         (an_object O w -> tree T k j w) /\ (forall c, objects w c -> tree T k j c) /\ ((forall c, ~ holds O w c) -> tn_data (t_node T j) = [])) ->
      (forall q j, sget q (tn_data (t_node T i)) = Some j -> exists n w t, property O v n w /\ title_of w = Some t /\ q = key t) ->
      tree T k i v.
  Definition pin (T : Titles.table) (k lk : nat) (n : str) (w : sv) : Prop :=
    forall t, title_of w = Some t -> exists j, (k <= j < length T)%nat /\ t_find (so_lower O) T lk t = Some j /\ tn_name (t_node T j) = n /\
         (an_object O w -> tree T k j w) /\ (forall c, objects w c -> tree T k j c) /\ ((forall c, ~ holds O w c) -> tn_data (t_node T j) = []).
  Lemma tree_kept T T' k i v : tree T k i v -> (k <= i)%nat -> (i < length T)%nat -> (length T <= length T')%nat -> (forall j, (k <= j < length T)%nat -> t_node T' j = t_node T j) -> tree T' k i v.
  Proof.
    intros H Hi Hl L S.
    refine ((fix F i v (H : tree T k i v) {struct H} : (k <= i)%nat -> (i < length T)%nat -> tree T' k i v :=
      match H with tree_node _ _ i v A B => fun Hi Hl => tree_node T' k i v _ _ end) i v H Hi Hl).
    - intros n w t Pr Et. destruct (A n w t Pr Et) as (j & Hj & Ef & En & Ao & Aa & Al). exists j. split; [lia|]. split; [|split; [|split; [|split]]].
      + unfold t_find in *. rewrite S by lia. exact Ef.
      + rewrite S by lia. exact En.
      + intros Ob. apply F; [exact (Ao Ob)|lia|lia].
      + intros c Ob. apply F; [exact (Aa c Ob)|lia|lia].
      + intros Hc. rewrite S by lia. exact (Al Hc).
    - intros q j E. rewrite S in E by lia. exact (B q j E).
  Qed.
  Lemma tree_weaken T k k' i v : tree T k i v -> (k' <= k)%nat -> tree T k' i v.
  Proof.
    intros H L.
    refine ((fix F i v (H : tree T k i v) {struct H} : tree T k' i v :=
      match H with tree_node _ _ i v A B => tree_node T k' i v _ B end) i v H).
    intros n w t Pr Et. destruct (A n w t Pr Et) as (j & Hj & Ef & En & Ao & Aa & Al). exists j. split; [lia|]. split; [exact Ef|]. split; [exact En|].
    split; [intros Ob; apply F; exact (Ao Ob)|]. split; [intros c Ob; apply F; exact (Aa c Ob)|exact Al].
  Qed.
  Lemma pin_weaken T k k' lk n w : pin T k lk n w -> (k' <= k)%nat -> pin T k' lk n w.
  Proof.
    intros H L t Et. destruct (H t Et) as (j & Hj & Ef & En & Ao & Aa & Al). exists j. split; [lia|]. split; [exact Ef|]. split; [exact En|].
    split; [intros Ob; eapply tree_weaken; [exact (Ao Ob)|exact L]|]. split; [intros c Ob; eapply tree_weaken; [exact (Aa c Ob)|exact L]|exact Al].
  Qed.
  Lemma pin_kept T T' k lk n w (ks : str -> Prop) : pin T k lk n w -> (lk < k)%nat -> eff T T' lk ks -> (forall t, title_of w = Some t -> ~ ks (key t)) -> pin T' k lk n w.
  Proof.
    intros H Hk [E1 E2 E3 E4] Nk t Et. destruct (H t Et) as (j & Hj & Ef & En & Ao & Aa & Al).
    assert (S : forall j, (k <= j < length T)%nat -> t_node T' j = t_node T j) by (intros j' Hj'; apply E2; lia).
    exists j. split; [lia|]. split; [|split; [|split; [|split]]].
    - unfold t_find in *. destruct (E4 (title_key (so_lower O) t)) as [Q|Q]; [rewrite Q; exact Ef|destruct (Nk t Et Q)].
    - rewrite S by lia. exact En.
    - intros Ob. apply (tree_kept T T'); auto; lia.
    - intros c Ob. apply (tree_kept T T'); auto; lia.
    - intros Hc. rewrite S by lia. auto.
  Qed.

  (** ** titles below a schema *)
  Definition titled_all (v : sv) : Prop := forall T, within O v T ->
    (forall n w, property O T n w -> an_object O w \/ (exists i, objects w i) -> exists t, title_of w = Some t) /\
    (forall r d, entry (u "properties") T (VO r d) ->
       ForallOrdPairs (fun a b => forall t t', left_in O (snd a) -> left_in O (snd b) ->
         title_of (snd a) = Some t -> title_of (snd b) = Some t' -> ~ same_title O t t') d).
  Definition titled_prop (v : sv) : Prop :=
    (an_object O v -> titled_all v /\ exists t, title_of v = Some t) /\ (forall i, objects v i -> titled_all i /\ exists t, title_of v = Some t).
  Lemma titled_property v n w : titled_all v -> property O v n w -> titled_prop w.
  Proof.
    intros H Pr. split.
    - intros Ob. split; [|apply (proj1 (H v (within_here O v)) n w Pr); auto]. intros T W. apply H. eapply within_object; eauto.
    - intros i Ob. split; [|apply (proj1 (H v (within_here O v)) n w Pr); eauto]. intros T W. apply H. eapply within_array; eauto.
  Qed.
  Definition pkeys (v : sv) (q : str) : Prop := exists n w t, property O v n w /\ title_of w = Some t /\ q = key t.

  Theorem trace_titles :
    (forall pp ids pt lk k v tr, dict_tr O pp ids pt lk k v tr -> (forall o, ~ alternatives v o) -> titled_all v -> forall T, length T = k -> (lk < k)%nat ->
       eff T (table_after tr T) lk (pkeys v) /\ forall n w, property O v n w -> pin (table_after tr T) k lk n w) /\
    (forall pp ids pt lk k l tr, alts_tr O pp ids pt lk k l tr -> True) /\
    (forall pp ids pt lk k l tr, props_tr O pp ids pt lk k l tr -> (forall n v, In (n, v) l -> left_in O v -> titled_prop v) ->
       ForallOrdPairs (fun a b => forall t t', left_in O (snd a) -> left_in O (snd b) -> title_of (snd a) = Some t -> title_of (snd b) = Some t' -> ~ same_title O t t') l ->
       forall T, length T = k -> (lk < k)%nat ->
       eff T (table_after tr T) lk (fun q => exists n w t, In (n, w) l /\ left_in O w /\ title_of w = Some t /\ q = key t) /\
       forall n w, In (n, w) l -> left_in O w -> pin (table_after tr T) k lk n w) /\
    (forall pp ids pt lk k n v tr, prop_tr O pp ids pt lk k n v tr -> (left_in O v -> titled_prop v) -> forall T, length T = k -> (lk < k)%nat ->
       eff T (table_after tr T) lk (fun q => left_in O v /\ exists t, title_of v = Some t /\ q = key t) /\ (left_in O v -> pin (table_after tr T) k lk n v)).
  Proof.
    apply trace_ind; try (intros; exact I).
    - intros pp ids pt lk k v l tr A _ _ N. destruct (N _ A).
    - intros pp ids pt lk k v o A _ N. destruct (N _ A).
    - intros pp ids pt lk k v r d tr _ Ep _ IH _ N T L Lk. destruct (IH) with (T := T) as [E P]; auto.
      { intros n w Hin Hk. eapply titled_property; [exact N|]. exists r, d. split; [exact Ep|]. split; [exact Hin|exact Hk]. }
      { exact (proj2 (N v (within_here O v)) r d Ep). }
      split.
      + destruct E as [E1 E2 E3 E4]. split; auto. intros q. destruct (E4 q) as [Q|(n & w & t & Hin & Hk & Et & Eq)]; [auto|]. right. exists n, w, t. split; [exists r, d; auto|auto].
      + intros n w (r' & d' & E' & Hin & Hk). pose proof (entry_fun _ _ _ _ Ep E') as Q. injection Q as <- <-. apply P; auto.
    - intros pp ids pt lk k v _ NP _ _ T L Lk. split; [apply eff_refl|]. intros n w (r & d & E & _). destruct (NP _ E).
    - intros pp ids pt lk k _ _ T L Lk. split; [apply eff_refl|intros n w []].
    - intros pp ids pt lk k n v l t1 t2 _ IH1 _ IH2 N F T L Lk. apply FOP_inv in F as [F1 F2].
      destruct (IH1 (fun Hk => N n v (or_introl eq_refl) Hk) T L Lk) as [E1 P1].
      destruct (IH2 (fun m w Hm => N m w (or_intror Hm)) F2 (table_after t1 T)) as [E2 P2]; [rewrite table_after_length, L; reflexivity|lia|].
      rewrite table_after_app. split.
      + eapply eff_trans; [|exact E1|exact E2|]; [lia|]. intros q [(Hk & t & Et & Eq)|(m & w & t & Hm & Hk & Et & Eq)]; [exists n, v, t|exists m, w, t]; cbn; auto.
      + intros m w [Eq|Hm] Hk.
        * injection Eq as <- <-. eapply pin_kept; [exact (P1 Hk)|exact Lk|exact E2|]. intros t Et (m & w & t' & Hm & Hw & Et' & Ek).
          rewrite Forall_forall in F1. exact (F1 (m, w) Hm t t' Hk Hw Et Et' Ek).
        * eapply pin_weaken; [exact (P2 m w Hm Hk)|lia].
    - intros pp ids pt lk k n v Hn Hd N T L Lk. split; [apply eff_refl|]. intros Hk. destruct (Hk Hn Hd).
    - intros pp ids pt lk k n v Hk NL NO NA N T L Lk. destruct (title_of v) as [t|] eqn:Et; cbn [in_table table_after].
      + rewrite <- L in Lk. split; [destruct (eff_add lk t n T Lk) as [E1 E2 E3 E4]; split; auto; intros q; destruct (E4 q) as [Q| ->]; auto; right; split; [exact Hk|]; exists t; auto|].
        intros _ t' Et'. rewrite Et in Et'. injection Et' as <-. exists (length T). rewrite t_add_length, node_add_new. split; [lia|]. split; [apply t_find_added; exact Lk|]. split; [reflexivity|].
        split; [intros Ob; contradiction|]. split; [intros c Ob; destruct (NA _ Ob)|reflexivity].
      + split; [apply eff_refl|]. intros _ t' Et'. rewrite Et in Et'. discriminate.
    - intros pp ids pt lk k n v ty pre Hk Lf Hp N T L Lk.
      assert (NO : ~ an_object O v) by (intros Ob; exact (proj1 (kinds_an_object O v Ob) _ Lf)).
      assert (NA : forall i, ~ objects v i) by (intros i Ob; exact (proj1 (proj2 (kinds_objects O v i Ob)) _ Lf)).
      rewrite table_after_app, (table_after_none (pre ++ _)) by (apply Forall_app; split; [destruct Hp as [-> | ->]; repeat constructor|repeat constructor]).
      destruct (title_of v) as [t|] eqn:Et; cbn [in_table table_after].
      + rewrite <- L in Lk. split; [destruct (eff_add lk t n T Lk) as [E1 E2 E3 E4]; split; auto; intros q; destruct (E4 q) as [Q| ->]; auto; right; split; [exact Hk|]; exists t; auto|].
        intros _ t' Et'. rewrite Et in Et'. injection Et' as <-. exists (length T). rewrite t_add_length, node_add_new. split; [lia|]. split; [apply t_find_added; exact Lk|]. split; [reflexivity|].
        split; [intros Ob; contradiction|]. split; [intros c Ob; destruct (NA _ Ob)|reflexivity].
      + split; [apply eff_refl|]. intros _ t' Et'. rewrite Et in Et'. discriminate.
    - intros pp ids pt lk k n v child tr Hk Ob Hc _ IH N T L Lk. destruct (proj1 (N Hk) Ob) as (N1 & t & Et). destruct (kinds_an_object O v Ob) as (NL & NA).
      rewrite table_after_app. cbn [table_after]. rewrite table_after_object. unfold child_ok in Hc. rewrite Et in *. subst child. cbn [in_table table_after].
      destruct (IH (typed_object_no_alts v (proj1 Ob)) N1 (t_add (so_lower O) lk t n T)) as [E P]; [rewrite t_add_length, L; cbn; lia|cbn; lia|].
      set (T' := table_after tr (t_add (so_lower O) lk t n T)) in *. rewrite <- L in Lk. destruct E as [E1 E2 E3 E4]. rewrite t_add_length in E1.
      assert (El : t_node T' lk = t_node (t_add (so_lower O) lk t n T) lk) by (apply E2; [rewrite t_add_length; lia|lia]).
      split.
      + split.
        * lia.
        * intros j Hj Hn. rewrite E2 by (try rewrite t_add_length; lia). apply node_add_other; auto.
        * rewrite El, node_add_here by exact Lk. reflexivity.
        * intros q. rewrite El, node_add_here by exact Lk. cbn [tn_data]. destruct (str_eqb_spec (key t) q) as [<-|Nq]; [right; split; [exact Hk|]; exists t; auto|left; apply sget_sset_neq; congruence].
      + intros _ t' Et'. rewrite Et in Et'. injection Et' as <-. exists k. split; [lia|]. split; [unfold t_find; rewrite El, node_add_here by exact Lk; cbn [tn_data]; rewrite <- L; apply sget_sset_eq|].
        split; [rewrite E3, <- L, node_add_new; reflexivity|]. split; [|split].
        * intros _. apply tree_node.
          -- intros m w t' Pr Et'. refine (pin_weaken _ _ _ _ _ _ (P m w Pr) _ t' Et'); cbn; lia.
          -- intros q j Ej. destruct (E4 q) as [Q|Q]; [|exact Q]. rewrite Q, <- L, node_add_new in Ej. discriminate.
        * intros c A. destruct (NA _ A).
        * intros H. destruct (H v). left. auto.
    - intros pp ids pt lk k n v i child up sn tr Hk Ob Hc Hup Esn _ IH N T L Lk. destruct (proj2 (N Hk) i Ob) as (N1 & t & Et). destruct (kinds_objects O v i Ob) as (_ & NL & NO & U).
      rewrite table_after_app. cbn [table_after]. rewrite table_after_app, (table_after_none (if so_titles O then _ else _)) by (destruct (so_titles O); [destruct pt|]; repeat constructor).
      cbn [table_after]. rewrite table_after_app, (table_after_none (map _ ids)), table_after_objects by (apply Forall_forall; intros a Ha; apply in_map_iff in Ha as (f & <- & _); exact I).
      unfold child_ok in Hc. rewrite Et in *. subst child. cbn [in_table table_after].
      destruct (IH (typed_object_no_alts i (proj1 (proj2 Ob))) N1 (t_add (so_lower O) lk t n T)) as [E P]; [rewrite t_add_length, L; cbn; lia|cbn; lia|].
      set (T' := table_after tr (t_add (so_lower O) lk t n T)) in *. rewrite <- L in Lk. destruct E as [E1 E2 E3 E4]. rewrite t_add_length in E1.
      assert (El : t_node T' lk = t_node (t_add (so_lower O) lk t n T) lk) by (apply E2; [rewrite t_add_length; lia|lia]).
      split.
      + split.
        * lia.
        * intros j Hj Hn. rewrite E2 by (try rewrite t_add_length; lia). apply node_add_other; auto.
        * rewrite El, node_add_here by exact Lk. reflexivity.
        * intros q. rewrite El, node_add_here by exact Lk. cbn [tn_data]. destruct (str_eqb_spec (key t) q) as [<-|Nq]; [right; split; [exact Hk|]; exists t; auto|left; apply sget_sset_neq; congruence].
      + intros _ t' Et'. rewrite Et in Et'. injection Et' as <-. exists k. split; [lia|]. split; [unfold t_find; rewrite El, node_add_here by exact Lk; cbn [tn_data]; rewrite <- L; apply sget_sset_eq|].
        split; [rewrite E3, <- L, node_add_new; reflexivity|]. split; [|split].
        * intros A. contradiction.
        * intros c A. rewrite (U c A). apply tree_node.
          -- intros m w t' Pr Et'. refine (pin_weaken _ _ _ _ _ _ (P m w Pr) _ t' Et'); cbn; lia.
          -- intros q j Ej. destruct (E4 q) as [Q|Q]; [|exact Q]. rewrite Q, <- L, node_add_new in Ej. discriminate.
        * intros H. destruct (H i). right. exact Ob.
  Qed.

  Theorem schema_tree S st w : parse_schema O S = Ok st w -> clear_titles O S -> tree (sp_table st) 1 0 S.
  Proof.
    unfold parse_schema. intros H [NA N]. apply bind_ok in H as ([x st'] & w1 & w2 & H & E & _). cbn [snd] in E. injection E as <- _.
    assert (K : keeps (main_emit O)).
    { intros x0 f t st0 x1 st1 w0 E. unfold main_emit in E. destruct (so_titles O); [destruct t|]; injection E as _ <- _; reflexivity. }
    destruct (dict_runs O _ unit (main_emit O) K _ _ _ _ _ _ _ _ _ _ H) as (tr & T & R).
    { repeat constructor. } { cbn. auto. }
    rewrite (runs_titles _ _ _ _ _ R). destruct (proj1 trace_titles _ _ _ _ _ _ _ T NA N (sp_table sps_start) eq_refl (le_n 1)) as [E P].
    apply tree_node; [intros n v t Pr Et; exact (P n v Pr t Et)|]. intros q j Ej. destruct (e_key _ _ _ _ E q) as [Q|Q]; [|exact Q]. rewrite Q in Ej. discriminate.
  Qed.

  (** ** looking up *)
  Lemma find_same T i s t : same_title O s t -> t_find (so_lower O) T i s = t_find (so_lower O) T i t.
  Proof. intros E. unfold t_find, title_key. unfold same_title in E. change space with 32%N. rewrite E. reflexivity. Qed.
  Lemma lookup_leaf T j z l : tn_data (t_node T j) = [] -> (forall x, In x z -> exists i, parse_int x = Some i) ->
    match l with [] => True | x :: _ => parse_int x = None end -> z ++ l <> [] -> lookup_list (so_lower O) T j (z ++ l) = join [47%N] (z ++ map trim l).
  Proof.
    intros D. induction z as [|x z IH]; intros Hz Hl Hne.
    - destruct l as [|x l]; [destruct Hne; reflexivity|]. cbn [app lookup_list]. rewrite Hl. unfold t_find. rewrite D. reflexivity.
    - cbn [app lookup_list]. destruct (Hz x (or_introl eq_refl)) as (i & ->).
      assert (Hz' : forall y, In y z -> exists i, parse_int y = Some i) by (intros y Hy; apply Hz; right; exact Hy). specialize (IH Hz' Hl).
      assert (Q : z ++ l <> [] -> z ++ map trim l <> []) by (intros Q0 Q1; apply app_eq_nil in Q1 as [-> Q1]; destruct l; [destruct Q0; reflexivity|discriminate Q1]).
      assert (Q' : z ++ l = [] -> z ++ map trim l = []) by (intros Q0; apply app_eq_nil in Q0 as [-> ->]; reflexivity).
      destruct (z ++ l) as [|y r]; [rewrite Q' by reflexivity; cbn; rewrite app_nil_r; reflexivity|].
      specialize (Q ltac:(discriminate)). rewrite IH by discriminate. destruct (z ++ map trim l); [congruence|]. reflexivity.
  Qed.
  Theorem lookup_resolved T k S l o : resolved O S l o -> forall i, tree T k i S -> l <> [] -> lookup_list (so_lower O) T i l = join [47%N] o.
  Proof.
    induction 1 as [S|S z i l o Hz R IH|S s n v t c l o Hs Pr Et Es Hc R IH|S s n v t z l Hs Pr Et Es Hc Hz Hl|S s l Hs Nk]; intros j Tr Hne.
    - congruence.
    - cbn [lookup_list]. rewrite Hz. destruct l as [|x l].
      + inversion R; subst. cbn. rewrite app_nil_r. reflexivity.
      + rewrite (IH j Tr) by discriminate. assert (Q : o <> []) by (inversion R; subst; discriminate). destruct o; [congruence|]. reflexivity.
    - cbn [lookup_list]. rewrite Hs, (find_same _ _ _ _ Es). destruct Tr as [i S A B]. destruct (A n v t Pr Et) as (j & _ & -> & -> & Ao & Aa & _).
      assert (Tc : tree T k j c) by (destruct Hc as [[Ob ->]|Ob]; auto). destruct l as [|x l].
      + inversion R; subst. cbn. rewrite app_nil_r. reflexivity.
      + rewrite (IH j Tc) by discriminate. assert (Q : o <> []) by (inversion R; subst; discriminate). destruct o; [congruence|]. reflexivity.
    - cbn [lookup_list]. rewrite Hs, (find_same _ _ _ _ Es). destruct Tr as [i S A B]. destruct (A n v t Pr Et) as (j & _ & -> & -> & _ & _ & Al). specialize (Al Hc).
      assert (Q : z ++ l <> [] -> z ++ map trim l <> []) by (intros Q0 Q1; apply app_eq_nil in Q1 as [-> Q1]; destruct l; [destruct Q0; reflexivity|discriminate Q1]).
      assert (Q' : z ++ l = [] -> z ++ map trim l = []) by (intros Q0; apply app_eq_nil in Q0 as [-> ->]; reflexivity).
      pose proof (lookup_leaf T j z l Al Hz Hl) as IH. destruct (z ++ l) as [|y r]; [rewrite Q' by reflexivity; cbn; rewrite app_nil_r; reflexivity|].
      specialize (Q ltac:(discriminate)). rewrite IH by discriminate. destruct (z ++ map trim l); [congruence|]. reflexivity.
    - cbn [lookup_list]. rewrite Hs. destruct (t_find (so_lower O) T j s) as [m|] eqn:E; [|reflexivity]. exfalso.
      destruct Tr as [i S A B]. unfold t_find in E. destruct (B _ _ E) as (n & w & t & Pr & Et & Ek). exact (Nk n w t Pr Et Ek).
  Qed.
  (** every heading stands for something *)
  Lemma holds_dec_list l : exists z r, l = z ++ r /\ (forall x, In x z -> exists i, parse_int x = Some i) /\ match r with [] => True | x :: _ => parse_int x = None end.
  Proof.
    induction l as [|x l IH]; [exists [], []; split; [reflexivity|]; split; [intros y []|exact I]|].
    destruct (parse_int x) as [i|] eqn:E; [|exists [], (x :: l); split; [reflexivity|]; split; [intros y []|exact E]].
    destruct IH as (z & r & -> & Hz & Hr). exists (x :: z), r. split; [reflexivity|]. split; [intros y [<-|Hy]; eauto|exact Hr].
  Qed.
  Lemma inset_dec v k : typed k v \/ ~ typed k v.
  Proof. destruct (inset k (types v)) eqn:E; [left; apply inset_typed; exact E|right; apply inset_not; exact E]. Qed.
  Lemma entry_dec k v : (exists x, entry k v x) \/ (forall x, ~ entry k v x).
  Proof.
    destruct v as [s|l|r d]; try (right; intros x (r & d & E & _); discriminate). destruct (sget k d) as [x|] eqn:E; [left; exists x, r, d; auto|].
    right. intros x (r' & d' & Q & E'). injection Q as <- <-. congruence.
  Qed.
  Lemma mentions_dec k v : mentions k v \/ ~ mentions k v.
  Proof.
    destruct (has k v) as [b w|e w] eqn:E.
    - destruct (has_ok _ _ _ _ E) as [_ H]. destruct b; [left; apply H; reflexivity|right; intros M; apply H in M; discriminate].
    - destruct v as [s|l|r d]; try discriminate. destruct s; try discriminate; right; intros [].
  Qed.
  Lemma holds_dec v : (exists c, holds O v c) \/ (forall c, ~ holds O v c).
  Proof.
    destruct (inset_dec v (u "object")) as [To|No].
    - assert (Gd : geo O v \/ ~ geo O v).
      { unfold geo. destruct (so_wkt O); [|right; intros [Q _]; discriminate]. destruct (entry_dec (u "properties") v) as [(p & Ep)|Np]; [|right; intros [_ (p & Ep & _)]; exact (Np _ Ep)].
        destruct (mentions_dec (u "type") p) as [M1|M1]; [|right; intros [_ (p' & Ep' & M & _)]; rewrite (entry_fun _ _ _ _ Ep' Ep) in M; contradiction].
        destruct (mentions_dec (u "coordinates") p) as [M2|M2]; [|right; intros [_ (p' & Ep' & _ & M)]; rewrite (entry_fun _ _ _ _ Ep' Ep) in M; contradiction].
        left. split; [reflexivity|]. exists p. auto. }
      destruct Gd as [G|G]; [right; intros c [[[_ H] _]|[[H _] _]]; contradiction|left; exists v; left; split; [split; assumption|reflexivity]].
    - assert (Na : (exists c, objects v c) \/ (forall c, ~ objects v c)).
      { destruct (inset_dec v (u "array")) as [Ta|Ta]; [|right; intros c [(_ & H & _) _]; contradiction]. destruct (entry_dec (u "items") v) as [(i & Ei)|Ni]; [|right; intros c [(_ & _ & H) _]; exact (Ni _ H)].
        assert (Ui : forall c, objects v c -> c = i) by (intros c [(_ & _ & H) _]; exact (entry_fun _ _ _ _ H Ei)).
        assert (D : objects v i \/ ~ objects v i).
        { unfold objects, an_array. destruct (inset_dec i (u "object")), (inset_dec i (u "string")), (inset_dec i (u "number")), (inset_dec i (u "array")); tauto. }
        destruct D as [D|D]; [left; exists i; exact D|right; intros c Hc; rewrite (Ui c Hc) in Hc; contradiction]. }
      destruct Na as [(c & Hc)|Na]; [left; exists c; right; exact Hc|right; intros c [[[H _] _]|H]; [contradiction|exact (Na c H)]].
  Qed.
  Theorem resolved_total T k l : forall S i, tree T k i S -> exists o, resolved O S l o.
  Proof.
    induction l as [|s l IH]; intros S i Tr; [exists []; apply res_end|].
    destruct (parse_int s) as [z|] eqn:Es; [destruct (IH S i Tr) as (o & Ho); exists (s :: o); eapply res_number; eauto|].
    destruct (t_find (so_lower O) T i s) as [j|] eqn:E.
    - destruct Tr as [i S A B]. destruct (B _ _ E) as (n & w & t & Pr & Et & Ek). destruct (A n w t Pr Et) as (j' & _ & Ef & _ & Ao & Aa & _).
      destruct (holds_dec w) as [(c & Hc)|Hc].
      + assert (Tc : tree T k j' c) by (destruct Hc as [[Ob ->]|Ob]; auto). destruct (IH c j' Tc) as (o & Ho). exists (n :: o). eapply res_title; eauto.
      + destruct (holds_dec_list l) as (z & r & -> & Hz & Hr). exists (n :: z ++ map trim r). eapply res_leaf; eauto.
    - exists (map trim (s :: l)). apply res_unknown; [exact Es|]. intros n v t Pr Et Ek. destruct Tr as [i S A B]. destruct (A n v t Pr Et) as (j & _ & Ef & _). rewrite (find_same _ _ _ _ Ek) in E. congruence.
  Qed.
End TitleTable.
