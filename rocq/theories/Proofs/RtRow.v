(** The round trip: what the row of an item shows of its record. *)
From Coq Require Import Permutation Lia.
From Verif.Base Require Import PyStr PyNum PyVal PyDict Outcome.
From Verif.Model Require Import Warn Lib Convert Input Flatten.
From Verif.Spec Require Import Paths Headings RoundTrip Alike.
From Verif.Proofs Require Import TreeInd RowBuild RowFin RowRead RowRun RtMerge.
Local Open Scope res_scope.

Definition hp (q : xpath) : hpath := map (fun s => match s with XKey k => HKey k | XIdx _ => HPos 0 end) q.
Lemma hp_app q r : hp (q ++ r) = hp q ++ hp r.
Proof. apply map_app. Qed.
Definition into (k : str) (Q : xpath) : xpath := match Q with XKey k' :: Q' => if str_eqb k k' then Q' else [] | _ => [] end.
(** array positions on the way are those of [Q] *)
Fixpoint follows (Q q : xpath) : Prop :=
  match q with
  | [] => True
  | XKey k :: q' => follows (into k Q) q'
  | XIdx i :: q' => match Q with XIdx j :: Q' => i = j /\ follows Q' q' | _ => False end
  end.
Lemma hp_key k p q : HKey k :: p = hp q -> exists q', q = XKey k :: q' /\ p = hp q'.
Proof. destruct q as [|[k'|i] q]; try discriminate. intros [= -> ->]. eauto. Qed.
Lemma hp_pos i p q : HPos i :: p = hp q -> exists j q', i = 0%Z /\ q = XIdx j :: q' /\ p = hp q'.
Proof. destruct q as [|[k'|j] q]; try discriminate. intros [= -> ->]. eauto. Qed.

Section Frag.
  Context {alike : jv -> cellval -> Prop}.
  Variable idn : str.
  Notation tidy := (tidy idn).
  Definition desc (x : jv) (Q : xpath) (L : list (hpath * cell)) : Prop :=
    forall p c, In (p, c) L -> exists q y, p = hp q /\ at_x x q = Some y /\ leaf y /\ alike y (c_val c) /\ follows Q q /\
      (forall a s, p = a ++ [HKey idn] -> y = JS s -> c_val c = CV s).
  Definition with_ids (L : list (hpath * cell)) : Prop :=
    forall a r c, In (a ++ HPos 0 :: r, c) L -> exists c', In (a ++ [HPos 0; HKey idn], c') L.
  Lemma with_ids_after s L : with_ids L -> with_ids (after s L).
  Proof. intros H a r c Hin. apply in_after in Hin. destruct (H (s :: a) r c Hin) as (c' & Hc). exists c'. apply in_after. exact Hc. Qed.

  Definition fragment (n : tnode) : Prop := forall L x Q, tshows idn L n -> tidy x -> desc x Q L -> with_ids L -> L <> [] ->
    view (alike := alike) idn False x n /\ single n /\ forall q, has idn x n q <-> follows Q q /\ exists r c, In (hp q ++ r, c) L.
  Lemma first_in {A} (L : list (hpath * A)) : L <> [] -> exists p c, In (p, c) L.
  Proof. destruct L as [|[p c] L]; [congruence|]. intros _. exists p, c. left. reflexivity. Qed.

  Lemma fragment_dict d : Pd fragment d -> fragment (TDict d).
  Proof.
    intros IH L x Q H Ht Hd Hi HL. inversion H as [|? ? Hb Hk Hc|]; subst.
    assert (Hx : exists o, x = JO o).
    { destruct (first_in L HL) as (p & c & Hin). destruct (Hb p c Hin) as (k & p' & ->). destruct (Hd _ _ Hin) as (q & s & Eq & Ha & _).
      apply hp_key in Eq as (q' & -> & _). cbn [at_x] in Ha. destruct x as [|?|o]; try discriminate. eauto. }
    destruct Hx as (o & ->).
    assert (Hnd : NoDup (map fst d)) by (rewrite Hk; apply fields_NoDup).
    assert (Hchild : forall k n, sget k d = Some n -> exists y, sget k o = Some y /\ view (alike := alike) idn False y n /\ single n /\
               forall q, has idn y n q <-> follows (into k Q) q /\ exists r c, In (HKey k :: hp q ++ r, c) L).
    { intros k n Hg. apply sget_In in Hg. assert (Hf : In k (fields L)) by (rewrite <- Hk; apply (in_map fst) in Hg; exact Hg).
      apply in_fields in Hf as (p & c & Hin). destruct (Hd _ _ Hin) as (q & s & Eq & Ha & _). apply hp_key in Eq as (q' & -> & _). cbn [at_x] in Ha.
      destruct (sget k o) as [y|] eqn:Ey; [|discriminate]. exists y. split; [reflexivity|].
      unfold Pd in IH. rewrite Forall_forall in IH. destruct (IH _ Hg (after (HKey k) L) y (into k Q)) as (A & B & C).
      - exact (Hc _ _ Hg).
      - apply (tidy_at idn [XKey k] (JO o) y Ht). cbn [at_x]. rewrite Ey. reflexivity.
      - intros p1 c1 H1. apply in_after in H1. destruct (Hd _ _ H1) as (q1 & s1 & E1 & A1 & L1 & V1 & F1 & X1). apply hp_key in E1 as (q2 & -> & ->).
        exists q2, s1. cbn [at_x] in A1. rewrite Ey in A1. cbn [follows] in F1. repeat (split; [auto|]). intros a0 s0 E0. apply (X1 (HKey k :: a0)). cbn [app]. f_equal. exact E0.
      - apply with_ids_after. exact Hi.
      - intros E. apply in_after in Hin. rewrite E in Hin. destruct Hin.
      - split; [exact A|]. split; [exact B|]. intros q0. rewrite C. split; intros [F1 (r & c1 & H1)]; (split; [exact F1|]); exists r, c1; [apply in_after in H1|apply in_after]; exact H1. }
    split; [|split].
    - constructor; [exact Hnd|]. intros k n Hg. destruct (Hchild k n Hg) as (y & Hy & Hv & _). eauto.
    - constructor. intros k n Hg. destruct (Hchild k n Hg) as (y & _ & _ & Hs & _). exact Hs.
    - intros [|[k|i] q].
      + cbn. destruct (first_in L HL) as (p & c & Hin). split; [intros _; split; [exact I|eauto]|auto].
      + rewrite (has_dict idn o d _ k q eq_refl). split.
        * intros (y & m & Ey & Em & Hh). destruct (Hchild k m Em) as (y' & Ey' & _ & _ & Hq). assert (y' = y) by congruence. subst y'.
          apply Hq in Hh. exact Hh.
        * intros [F1 (r & c & Hin)]. cbn [hp map app] in Hin. assert (Hf : In k (map fst d)) by (rewrite Hk; apply in_fields; eauto).
          destruct (sget k d) as [m|] eqn:Em; [|apply sget_None in Em; contradiction]. destruct (Hchild k m Em) as (y & Ey & _ & _ & Hq).
          exists y, m. split; [exact Ey|]. split; [reflexivity|]. apply Hq. split; [exact F1|]. eauto.
      + split; [intros []|]. intros [_ (r & c & Hin)]. destruct (Hb _ _ Hin) as (k & p & E). discriminate E.
  Qed.

  Lemma ids_first_zero (L : list (hpath * cell)) c' : L <> [] -> (forall p c, In (p, c) L -> exists p', p = HPos 0 :: p') -> In ([HPos 0; HKey idn], c') L ->
    ids_first idn L = [0%Z].
  Proof.
    intros HL Hz Hi.
    assert (Hw : with_id idn L 0 = true). { unfold with_id. apply existsb_exists. exists ([HPos 0; HKey idn], c'). split; [exact Hi|]. cbn. apply str_eqb_refl. }
    assert (Hp : increasing L = [0%Z]).
    { assert (Hall : forall i, In i (increasing L) <-> i = 0%Z).
      { intros i. rewrite in_increasing, in_positions. split; [intros (p & c & Hin); destruct (Hz _ _ Hin) as (p' & E); congruence|]. intros ->. eauto. }
      pose proof (increasing_NoDup L) as Hn. destruct (increasing L) as [|a [|b l]].
      - exfalso. destruct (proj2 (Hall 0%Z) eq_refl).
      - f_equal. apply Hall. left. reflexivity.
      - exfalso. assert (a = 0%Z) by (apply Hall; simpl; auto). assert (b = 0%Z) by (apply Hall; simpl; auto). subst. inversion Hn as [|? ? N1 _]; subst. apply N1. left. reflexivity. }
    unfold ids_first. rewrite Hp. cbn [filter]. rewrite Hw. reflexivity.
  Qed.

  Theorem fragment_all n : fragment n.
  Proof.
    induction n as [c|d IH|data nk IHd IHn] using tnode_ind'.
    - intros L x Q H Ht Hd Hi HL. inversion H; subst. destruct (Hd [] c) as (q & s & Eq & Ha & Hl & Hv & Hf & _); [left; reflexivity|]. destruct q; [|discriminate].
      cbn [at_x] in Ha. injection Ha as <-. split; [constructor; [exact Hl|exact Hv]|]. split; [constructor|]. intros [|[k|i] q]; (assert (Hnc : forall q', has idn x (TCell c) q' <-> q' = []) by (intros [|[k1|i1] q']; destruct x; cbn; split; try tauto; discriminate)); rewrite Hnc.
      + split; [|auto]. intros _. split; [exact I|]. exists [], c. left. reflexivity.
      + split; [discriminate|]. intros [_ (r & c' & [E|[]])]. discriminate E.
      + split; [discriminate|]. intros [_ (r & c' & [E|[]])]. discriminate E.
    - apply fragment_dict. exact IH.
    - intros L x Q H Ht Hd Hi HL. inversion H as [| |? ? ? _ Hb Hf Hkd Hkn]; subst.
      destruct (first_in L HL) as (p0 & c0 & Hin0). destruct (Hb _ _ Hin0) as (i0 & p1 & ->). destruct (Hd _ _ Hin0) as (q0 & s0 & E0 & A0 & _ & _ & F0 & _).
      apply hp_pos in E0 as (j & q1 & -> & -> & ->). cbn [at_x] in A0. destruct x as [|l|?]; try discriminate.
      destruct (nth_error l j) as [[|?|o]|] eqn:Ej; try discriminate. destruct (item_get idn l j o Ht Ej) as (s & Ho). cbn [follows] in F0.
      destruct Q as [|[?|j'] Q]; try tauto. destruct F0 as [<- F0].
      destruct (item_plain idn l j s o Ht Ho) as [Hs Hto].
      assert (Hz : forall p c, In (p, c) L -> exists p', p = HPos 0 :: p').
      { intros p c Hin. destruct (Hb _ _ Hin) as (i & p' & ->). destruct (Hd _ _ Hin) as (q & s1 & E1 & _). apply hp_pos in E1 as (? & ? & -> & _). eauto. }
      destruct (Hi [] (hp q1) c0 Hin0) as (c' & Hid). cbn [app] in Hid.
      rewrite (ids_first_zero L c' HL Hz Hid) in Hf. inversion Hf as [|? d ? rest Hsd Hrest Q1 Q2]; subst. inversion Hrest; subst.
      set (L' := after (HPos 0) L) in *.
      assert (HL' : L' <> []). { intros E. apply in_after in Hin0. fold L' in Hin0. rewrite E in Hin0. destruct Hin0. }
      assert (Hfd : fragment (TDict d)).
      { apply fragment_dict. unfold temp_items in Q2. cbn [fst snd] in Q2.
        assert (Hin : In d (map snd data ++ nk)) by (rewrite <- Q2; left; reflexivity). apply in_app_or in Hin as [Hin|Hin].
        - apply in_map_iff in Hin as ([k e] & Ee & Hin). cbn [snd] in Ee. subst e. rewrite Forall_forall in IHd. exact (IHd _ Hin).
        - rewrite Forall_forall in IHn. exact (IHn _ Hin). }
      assert (Hd' : desc (JO o) Q L').
      { intros p c Hin. apply in_after in Hin. destruct (Hd _ _ Hin) as (q & s1 & E1 & A1 & L1 & V1 & F1 & X1). apply hp_pos in E1 as (j2 & q2 & _ & -> & ->).
        cbn [follows] in F1. destruct F1 as [-> F1]. cbn [at_x] in A1. rewrite Ej in A1. exists q2, s1. repeat (split; [auto|]). intros a0 s2 E2. apply (X1 (HPos 0 :: a0)). cbn [app]. f_equal. exact E2. }
      destruct (Hfd L' (JO o) Q Hsd Hto Hd' (with_ids_after _ _ Hi) HL') as (Hv & Hsg & Hh).
      assert (Hkey : item_key false idn d = Ok (Some s) []).
      { assert (H1 : has idn (JO o) (TDict d) [XKey idn]).
        { apply Hh. split; [exact I|]. exists [], c'. apply in_after. exact Hid. }
        cbn [has] in H1. destruct Ho as [_ Ho]. rewrite Ho in H1. destruct (sget idn d) as [m|] eqn:Em; [|destruct H1].
        inversion Hv as [? ? Fl|? ? _ Hvc|]; subst. destruct (Hvc idn m Em) as (y & Ey & Hvm). rewrite Ho in Ey. injection Ey as <-. inversion Hvm as [? c1 _ Hc1| |]; subst.
        assert (Ec : c_val c1 = CV s).
        { inversion Hsd as [|? ? _ _ Hchild|]; subst. specialize (Hchild _ _ (sget_In _ _ _ Em)). inversion Hchild as [? Ex Ecc| |]. rewrite Ecc in Ex.
          assert (Hin1 : In ([], c1) (after (HKey idn) L')) by (rewrite <- Ex; left; reflexivity). apply in_after in Hin1.
          destruct (Hd' _ _ Hin1) as (q2 & y2 & E2 & A2 & _ & _ & _ & X2). apply hp_key in E2 as (q3 & -> & E3). destruct q3; [|discriminate]. cbn [at_x] in A2. rewrite Ho in A2. injection A2 as <-.
          apply (X2 [] s eq_refl eq_refl). }
        unfold item_key. rewrite Em, Ec. destruct Hs as [(t & -> & _)|(z & ->)]; reflexivity. }
      unfold temp_items in Q2. cbn [fst snd] in Q2. destruct data as [|[k e] data].
      { exfalso. cbn [map app] in Q2. rewrite <- Q2 in Hkn. rewrite (Hkn d) in Hkey by (left; reflexivity). discriminate. }
      cbn [map snd app] in Q2. injection Q2 as <- Q2. symmetry in Q2. apply app_eq_nil in Q2 as [Q2 ->]. destruct data; [|discriminate]. clear Q2.
      rewrite (Hkd k d) in Hkey by (left; reflexivity). injection Hkey as ->.
      split; [|split].
      + apply vw_list with (idx := [j]); [exact (item_not_leaf idn l j s o Ho)|constructor; [intros []|constructor]|intros []|]. constructor; [|constructor]. exists o. split; [exact Ho|exact Hv].
      + constructor. exact Hsg.
      + intros [|[k|i] q].
        * cbn. split; [intros _; split; [exact I|eauto]|auto].
        * split; [intros []|]. intros [_ (r & c & Hin)]. destruct (Hb _ _ Hin) as (? & ? & E). discriminate E.
        * cbn [has follows]. split.
          -- destruct (nth_error l i) as [[|?|o2]|] eqn:Ei; try tauto. destruct (item_get idn l i o2 Ht Ei) as (s2 & Ho2). destruct Ho2 as [_ Es2]. rewrite Es2.
             unfold kget. cbn [aget]. destruct (py_eqb s2 s) eqn:Eq; [|tauto]. destruct (item_plain idn l i s2 o2 Ht (conj Ei Es2)) as [Hs2 _].
             apply plain_eqb in Eq; [|assumption|assumption]. subst s2. destruct (item_same idn l i j s o2 o Ht (conj Ei Es2) Ho) as [-> ->].
             intros H1. apply Hh in H1 as [F1 (r & c & Hin)]. split; [auto|]. exists r, c. apply in_after in Hin. exact Hin.
          -- intros [[-> F1] (r & c & Hin)]. rewrite Ej. destruct Ho as [_ Ho]. rewrite Ho. unfold kget. cbn [aget]. rewrite plain_refl by exact Hs.
             apply Hh. split; [exact F1|]. exists r, c. apply in_after. exact Hin.
  Qed.
End Frag.
