(** The warnings of the schema parser. *)
From Verif.Base Require Import PyStr PyNum PyVal PyDict Outcome.
From Verif.Model Require Import Flatten Titles Schema.
From Verif.Spec Require Import SchemaFields SchemaWarnings.
From Verif.Proofs Require Import SchemaTrace SchemaRun SchemaColumns.
Local Open Scope res_scope.

Section Warnings.
  Variable O : sopts.

  Definition covers (w : list swarning) (P : swarning -> Prop) : Prop :=
    (forall y, In y w -> P y) /\ forall y, P y -> exists y', In y' w /\ alike y y'.
  Lemma covers_nil : covers [] (fun _ => False).
  Proof. split; [intros y []|intros y []]. Qed.
  Lemma covers_app w1 w2 P1 P2 : covers w1 P1 -> covers w2 P2 -> covers (w1 ++ w2) (fun y => P1 y \/ P2 y).
  Proof.
    intros [A1 B1] [A2 B2]. split.
    - intros y H. apply in_app_iff in H as [H|H]; auto.
    - intros y [H|H]; [destruct (B1 y H) as (y' & I & E)|destruct (B2 y H) as (y' & I & E)]; exists y'; (split; [apply in_app_iff; auto|exact E]).
  Qed.
  Lemma covers_eq w P Q : covers w P -> (forall y, P y <-> Q y) -> covers w Q.
  Proof. intros [A B] E. split; [intros y H; apply E; auto|intros y H; apply B, E, H]. Qed.
  Lemma covers_one y0 : covers [y0] (fun y => y = y0).
  Proof. split; [intros y [<-|[]]; reflexivity|intros y ->; exists y0; split; [left; reflexivity|left; reflexivity]]. Qed.

  Definition says {X} (emit : emit_t X) (W : str -> option str -> swarning -> Prop) : Prop :=
    forall x f t st x' st' w, emit x f t st = Ok (x', st') w -> covers w (W f t).
  Inductive emits {X} (emit : emit_t X) : list (str * option str) -> X -> X -> Prop :=
  | em_nil x : emits emit [] x x
  | em_cons f t ys x st x1 st1 w x' : emit x f t st = Ok (x1, st1) w -> emits emit ys x1 x' -> emits emit ((f, t) :: ys) x x'.
  Lemma emits_app {X} (emit : emit_t X) a b x x1 x2 : emits emit a x x1 -> emits emit b x1 x2 -> emits emit (a ++ b) x x2.
  Proof. induction 1; intros H2; [exact H2|]. cbn [app]. econstructor; eauto. Qed.

  (** ** one level *)
  Definition inner (S : sv) (P : place) (y : swarning) : Prop := exists T q, objects_at O S P T q /\ object_says O T q y.
  Definition prop_says (P : place) (ids : list str) (n : str) (v : sv) (y : swarning) : Prop :=
    unknown O P n v y \/ (exists i, objects v i /\ array_says O P n v i y) \/
    (an_object O v /\ inner v (sub_place (at_path P) (at_titles P) ids n v sl) y) \/
    (exists j, objects v j /\ inner j (sub_place (at_path P) (at_titles P) ids n v zero_sl) y).
  Lemma inner_iff S P y : inner S P y <-> nothing_in S P y \/ exists n v, property O S n v /\ prop_says P (ids_at O S P) n v y.
  Proof.
    split.
    - intros (T & q & A & Say). destruct A as [S P|S P n v T q Pn On An|S P n v j T q Pn On An].
      + destruct Say as [H|(n & v & Pr & [H|H])]; [left; exact H| |]; right; exists n, v; (split; [exact Pr|]); [left|right; left]; exact H.
      + right. exists n, v. split; [exact Pn|]. right; right; left. split; [exact On|]. rewrite below_eq in An. exists T, q. auto.
      + right. exists n, v. split; [exact Pn|]. right; right; right. exists j. split; [exact On|]. rewrite below_eq in An. exists T, q. auto.
    - intros [H|(n & v & Pn & [H|[H|[(On & T & q & An & H)|(j & On & T & q & An & H)]]])].
      + exists S, P. split; [apply oa_here|left; exact H].
      + exists S, P. split; [apply oa_here|]. right. exists n, v. auto.
      + exists S, P. split; [apply oa_here|]. right. exists n, v. auto.
      + exists T, q. split; [|exact H]. eapply oa_object; [exact Pn|exact On|]. rewrite below_eq. exact An.
      + exists T, q. split; [|exact H]. eapply oa_array; [exact Pn|exact On|]. rewrite below_eq. exact An.
  Qed.

  Definition rec_says (rec : parser) : Prop := forall X (emit : emit_t X) W, says emit W ->
    forall x P pp v lk st x' st' w, slashed pp = at_path P -> pp = [] \/ (forall o, ~ alternatives v o) -> (forall R, top v R -> named_below O R P) ->
      rec X emit x pp v (at_ids P) lk (at_titles P) st = Ok (x', st') w ->
      exists ys, emits emit ys x x' /\ (forall f t, In (f, t) ys <-> exists R, top v R /\ gives O R f t) /\
        covers w (fun y => (exists R f t, top v R /\ gives O R f t /\ W f t y) \/ exists R, top v R /\ inner R P y).

  Lemma top_self v : (forall o, ~ alternatives v o) -> forall R, top v R <-> R = v.
  Proof.
    intros NA R. split; [intros [(l & A & _)|[_ E]]; [destruct (NA _ A)|exact E]|intros ->; right; auto].
  Qed.
  Lemma slashed_below pp n : n <> [] -> slashed (pp ++ n) = pp ++ n ++ sl.
  Proof. intros N. unfold slashed. destruct (pp ++ n) eqn:E; [apply app_eq_nil in E as [_ E]; contradiction|]. rewrite <- E, <- app_assoc. reflexivity. Qed.

  Lemma lists_mentions r f : lists r f -> mentions f r.
  Proof.
    destruct r as [s|l|r d]; cbn [lists mentions]; [|auto|].
    - destruct s; cbn; auto. intros (c & Hc & ->). apply in_split in Hc as (a & b & ->). exists a, b. reflexivity.
    - intros H. destruct (sget f d) as [x|] eqn:E; [eauto|]. apply sget_None in E. contradiction.
  Qed.
  Lemma lists_iter r l w : iter_of r = Ok l w -> w = [] /\ forall f, In (VS (SStr f)) l <-> lists r f.
  Proof.
    destruct r as [s|x|r d]; cbn [iter_of lists].
    - destruct s; cbn; try discriminate. intros [= <- <-]. split; [reflexivity|]. intros f. rewrite in_map_iff. split; [intros (c & [= <-] & H); eauto|intros (c & H & ->); eauto].
    - intros [= <- <-]. split; [reflexivity|]. tauto.
    - intros [= <- <-]. split; [reflexivity|]. intros f. rewrite !in_map_iff. split; [intros (kv & [= <-] & H); eauto|intros (kv & <- & H); eauto].
  Qed.
  Lemma set_add_In x l y : In y (set_add x l) <-> y = x \/ In y l.
  Proof.
    unfold set_add. destruct (str_mem x l) eqn:E; [apply str_mem_In in E; split; [auto|intros [-> |H]; auto]|]. rewrite in_app_iff. cbn. intuition.
  Qed.
  Lemma set_add_NoDup x l : NoDup l -> NoDup (set_add x l).
  Proof.
    intros H. unfold set_add. destruct (str_mem x l) eqn:E; [exact H|]. apply NoDup_snoc; [exact H|]. intros Q. apply str_mem_In in Q. congruence.
  Qed.
  Lemma missed_ok rolled r m w : missed rolled r = Ok m w -> w = [] /\ NoDup m /\ forall f, In f m <-> lists r f /\ ~ In f rolled.
  Proof.
    unfold missed. intros H. bok H. apply lists_iter in E as (-> & L). cbv zeta in F. destruct (negb _); [discriminate|].
    set (left := filter _ a) in F. destruct (forallb _ left) eqn:Fa; [|discriminate]. injection F as <- <-. split; [reflexivity|].
    assert (Hl : forall f, In (VS (SStr f)) left <-> lists r f /\ ~ In f rolled).
    { intros f. unfold left. rewrite filter_In, L, Bool.negb_true_iff. split; intros [A B]; (split; [exact A|]).
      - intros Q. apply str_mem_In in Q. congruence.
      - destruct (str_mem f rolled) eqn:E; [|reflexivity]. apply str_mem_In in E. contradiction. }
    clearbody left. clear L Fa.
    assert (G : forall l acc, NoDup acc -> let r := fold_left (fun acc x => match x with VS (SStr s) => set_add s acc | _ => acc end) l acc in
       NoDup r /\ forall f, In f r <-> In f acc \/ In (VS (SStr f)) l).
    { clear. induction l as [|x l IH]; intros acc N; cbv zeta; cbn [fold_left]; [split; [exact N|cbn; tauto]|]. cbv zeta in IH.
      assert (D : (exists t, x = VS (SStr t)) \/ (forall t, x <> VS (SStr t)) /\ match x with VS (SStr s) => set_add s acc | _ => acc end = acc).
      { destruct x as [y| |]; [|right; split; [intros t Q; discriminate Q|reflexivity]..]. destruct y; try (right; split; [intros t Q; discriminate Q|reflexivity]). left. eexists. reflexivity. }
      destruct D as [(t & ->)|[D ->]].
      - destruct (IH _ (set_add_NoDup t acc N)) as [I1 I2]. split; [exact I1|]. intros f. rewrite I2, set_add_In. cbn. split; [intros [[-> |H]|H]; auto|intros [H|[H|H]]; auto]. injection H as ->. auto.
      - destruct (IH acc N) as [I1 I2]. split; [exact I1|]. intros f. rewrite I2. cbn [In]. split; [tauto|]. intros [H|[H|H]]; auto. destruct (D _ H). }
    cbv zeta in G. destruct (G left [] (NoDup_nil _)) as [G1 G2]. split; [exact G1|]. intros f. rewrite G2, Hl. cbn. tauto.
  Qed.

  Section Step.
    Variable rec : parser.
    Hypothesis R : rec_says rec.
    Context {X : Type}.
    Variable emit : emit_t X.
    Variable W : str -> option str -> swarning -> Prop.
    Hypothesis Sa : says emit W.
    Variables (P : place) (ids : list str) (lk : nat).

    Definition prop_ok name v x x' w := exists ys, emits emit ys x x' /\ (forall f t, In (f, t) ys <-> prop_col O name v f t) /\
      covers w (fun y => (exists f t, prop_col O name v f t /\ W f t y) \/ prop_says P ids name v y).

    Lemma kind_leaf_only v ty : leaf O v ty -> ~ an_object O v /\ forall i, ~ objects v i.
    Proof.
      intros L. split.
      - intros [A B]. destruct L as [? ?|? (N & _) _|? (N & _)|? ? (N & _)|N|N|N|N|N]; contradiction.
      - intros i ((No & Ta & Ei) & A1 & A2 & A3 & A4).
        assert (U : forall j, an_array v j -> j = i) by (intros j (_ & _ & Ej); exact (entry_fun _ _ _ _ Ej Ei)).
        destruct L as [N|j Aj Q|j Aj _ Q|j k Aj _ _ Q|? N|? N|? N|? N|? N]; try contradiction; try (apply U in Aj; subst j); try contradiction.
        destruct Q as [Q|Q]; [contradiction|]. unfold typed in A1. rewrite Q in A1. destruct A1.
    Qed.
    Lemma leaf_ok name v ty x st x' st' w : leaf O v ty -> emit x name (title_of v) st = Ok (x', st') w -> prop_ok name v x x' w.
    Proof.
      intros L H. destruct (kind_leaf_only v ty L) as [NO NA]. exists [(name, title_of v)].
      assert (C : forall f t, prop_col O name v f t <-> f = name /\ t = title_of v).
      { intros f t. split; [intros [(? & _ & E)|[(A & _)|(i & ? & ? & A & _)]]; [exact E|contradiction|destruct (NA _ A)]|intros [-> ->]; left; exists ty; auto]. }
      split; [econstructor; [exact H|constructor]|]. split.
      - intros f t. rewrite C. split; [intros [[= <- <-]|[]]; auto|intros [-> ->]; left; reflexivity].
      - eapply covers_eq; [exact (Sa _ _ _ _ _ _ _ H)|]. intros y. split.
        + intros Q. left. exists name, (title_of v). split; [apply C; auto|exact Q].
        + intros [(f & t & Q & Y)|[(Q & _)|[(i & Q & _)|[(Q & _)|(i & Q & _)]]]]; [apply C in Q as [-> ->]; exact Y| | | |].
          * destruct (Q ty). constructor. exact L.
          * destruct (NA _ Q).
          * contradiction.
          * destruct (NA _ Q).
    Qed.
    Lemma child_table_w raw st c w : child_table O lk raw st = Ok c w -> w = [].
    Proof. unfold child_table. destruct raw as [[]| |]; intros Q; try discriminate; injection Q as _ <-; reflexivity. Qed.
    Lemma top_typed v : typed (u "object") v -> forall Q, top v Q <-> Q = v.
    Proof. intros T. apply top_self. apply typed_object_no_alts, T. Qed.

    Lemma wrap_says name t : says (fun x f ct st => emit x (name ++ sl ++ f) (join_title t ct) st) (fun f c => W (name ++ sl ++ f) (join_title t c)).
    Proof. intros x f c st x' st' w H. exact (Sa _ _ _ _ _ _ _ H). Qed.
    Lemma wrap_emits name t ys x x' : emits (fun x f ct st => emit x (name ++ sl ++ f) (join_title t ct) st) ys x x' ->
      emits emit (map (fun y => (name ++ sl ++ fst y, join_title t (snd y))) ys) x x'.
    Proof. induction 1; [constructor|]. cbn [map fst snd]. econstructor; eauto. Qed.

    Lemma object_ok name v raw x st x' st' w : typed (u "object") v -> name <> [] ->
      (an_object O v -> named_below O v (sub_place (at_path P) (at_titles P) ids name v sl)) ->
      parse_object O rec emit (at_path P) ids lk (at_titles P) name v raw (title_of v) x st = Ok (x', st') w -> prop_ok name v x x' w.
    Proof.
      intros Ty Nn Nb H. unfold parse_object in H. bok H. apply geo_run in E as (-> & G). destruct a.
      - cbn [app]. eapply leaf_ok; [apply leaf_geo; [exact Ty|apply G; reflexivity]|exact F].
      - assert (Ob : an_object O v) by (split; [exact Ty|rewrite <- G; discriminate]). specialize (Nb Ob). cbv zeta in F. bok F. apply child_table_w in E as ->. cbn [app].
        set (P' := sub_place (at_path P) (at_titles P) ids name v sl) in *.
        destruct (R _ _ _ (wrap_says name (title_of v)) x P' (at_path P ++ name) v a _ _ _ _ (slashed_below _ _ Nn) (or_intror (typed_object_no_alts v Ty))
          ltac:(intros Q HQ; apply (top_typed v Ty) in HQ; subst Q; exact Nb) F0) as (ys & Em & Ys & Cv).
        assert (C : forall f t, prop_col O name v f t <-> exists f' t', gives O v f' t' /\ f = name ++ sl ++ f' /\ t = join_title (title_of v) t').
        { intros f t. split; [intros [(ty & L & _)|[(_ & Q)|(i & ? & ? & A & _)]]|intros Q; right; left; auto].
          - destruct (kind_leaf_only v ty L) as [Q _]. contradiction.
          - exact Q.
          - destruct A as ((A & _) & _). contradiction. }
        exists (map (fun y => (name ++ sl ++ fst y, join_title (title_of v) (snd y))) ys). split; [apply wrap_emits; exact Em|]. split.
        + intros f t. rewrite C, in_map_iff. split.
          * intros ([f' t'] & [= <- <-] & Hy). apply Ys in Hy as (Q & HQ & Hy). apply (top_typed v Ty) in HQ. subst Q. exists f', t'. auto.
          * intros (f' & t' & Hy & -> & ->). exists (f', t'). split; [reflexivity|]. apply Ys. exists v. split; [apply (top_typed v Ty); reflexivity|exact Hy].
        + eapply covers_eq; [exact Cv|]. intros y. split.
          * intros [(Q & f & t & HQ & Hy & Wy)|(Q & HQ & Hy)]; apply (top_typed v Ty) in HQ; subst Q.
            { left. exists (name ++ sl ++ f), (join_title (title_of v) t). split; [apply C; exists f, t; auto|exact Wy]. }
            right; right; right; left. split; [exact Ob|exact Hy].
          * intros [(f & t & Hy & Wy)|[(Q & _)|[(i & Q & _)|[(_ & Hy)|(i & Q & _)]]]].
            { apply C in Hy as (f' & t' & Hy & -> & ->). left. exists v, f', t'. split; [apply (top_typed v Ty); reflexivity|]. auto. }
            { destruct (Q (u "object")). apply kind_object, Ob. }
            { destruct Q as ((Q & _) & _). contradiction. }
            { right. exists v. split; [apply (top_typed v Ty); reflexivity|exact Hy]. }
            { destruct Q as ((Q & _) & _). contradiction. }
    Qed.

    Let consume sn name v : emit_t (X * list str) := consume_sub O emit (at_path P) (at_titles P) sn name v (title_of v).
    Definition roll_says name v f c y : Prop := rolls O v f = true /\ W (name ++ zero_sl ++ f) (join_title (title_of v) c) y.
    Lemma consume_says sn name v : says (consume sn name v) (fun f c y => untitled O P name v f c y \/ roll_says name v f c y).
    Proof.
      intros [x rolled] f c st [x1 r1] st1 w H. unfold consume, consume_sub in H. cbv zeta in H. bok H. bok F. apply covers_app.
      - clear E0 F0. unfold untitled. destruct (so_titles O).
        + destruct c as [c|]; [destruct (at_titles P) as [p|]; [destruct (title_of v) as [t|]|]|]; injection E as _ <-.
          * eapply covers_eq; [apply covers_nil|]. intros y. split; [intros []|intros (_ & [])].
          * eapply covers_eq; [apply covers_one|]. intros y. tauto.
          * eapply covers_eq; [apply covers_one|]. intros y. tauto.
          * eapply covers_eq; [apply covers_one|]. intros y. tauto.
        + injection E as _ <-. eapply covers_eq; [apply covers_nil|]. intros y. split; [intros []|intros (Q & _); discriminate Q].
      - apply rolls_run in E0 as (-> & ->). unfold roll_says. cbn [app]. destruct (rolls O v f).
        + bok F0. destruct a0 as [x2 st2]. injection F as <- <- <- <-. rewrite app_nil_r. eapply covers_eq; [exact (Sa _ _ _ _ _ _ _ E0)|]. intros y. tauto.
        + injection F0 as <- <- <- <-. eapply covers_eq; [apply covers_nil|]. intros y. split; [intros []|intros (Q & _); discriminate Q].
    Qed.
    Lemma consume_emits sn name v ys y y' : emits (consume sn name v) ys y y' ->
      emits emit (flat_map (fun z => if rolls O v (fst z) then [(name ++ zero_sl ++ fst z, join_title (title_of v) (snd z))] else []) ys) (fst y) (fst y') /\
      forall f, In f (snd y') <-> In f (snd y) \/ rolls O v f = true /\ exists t, In (f, t) ys.
    Proof.
      induction 1 as [y|f c ys [x rolled] st [x1 r1] st1 w y' H _ [I1 I2]]; [split; [constructor|]; intros f; split; [auto|intros [H|(_ & t & [])]; exact H]|].
      unfold consume, consume_sub in H. cbv zeta in H. bok H. bok F. clear E. apply rolls_run in E0 as (-> & ->). cbn [flat_map fst snd] in *.
      destruct (rolls O v f) eqn:Er.
      - bok F0. destruct a0 as [x2 st2]. injection F as <- <- <- _. split; [eapply emits_app; [econstructor; [exact E|constructor]|exact I1]|].
        intros g. rewrite I2, set_add_In. split.
        + intros [[-> |H]|(Hg & t & H)]; [right; split; [exact Er|]; exists c; left; reflexivity|left; exact H|right; split; [exact Hg|]; exists t; right; exact H].
        + intros [H|(Hg & t & [[= <- <-]|H])]; [auto|auto|right; split; [exact Hg|]; exists t; exact H].
      - injection F0 as <- <- <- _. split; [exact I1|]. intros g. rewrite I2. split.
        + intros [H|(Hg & t & H)]; [auto|right; split; [exact Hg|]; exists t; right; exact H].
        + intros [H|(Hg & t & [[= <- <-]|H])]; [auto|congruence|right; split; [exact Hg|]; exists t; exact H].
    Qed.
    Lemma missed_says v i rolled w : (forall f, In f rolled <-> rolls O v f = true /\ exists t, gives O i f t) ->
      (if so_rollup O then h <- has (u "rollUp") v ;; if h : bool then r <- idx (u "rollUp") v ;; m <- missed rolled r ;; match m with [] => ret tt | _ => warn1 (SNotRolledUp m) end else ret tt else ret tt) = Ok tt w ->
      (exists r d, v = VO r d) -> covers w (not_rolled O v i).
    Proof.
      intros Hr H (rv & dv & Hv). unfold not_rolled.
      destruct (so_rollup O) eqn:Eo; [|injection H as <-; eapply covers_eq; [apply covers_nil|]; intros y; split; [intros []|intros (Q & _); discriminate Q]].
      bok H. apply has_ok in E as (-> & E). cbn [app]. destruct a.
      2:{ injection F as <-. eapply covers_eq; [apply covers_nil|]. intros y. split; [intros []|]. intros (_ & r & m & (r' & d' & Q & En) & _). assert (false = true); [|discriminate]. apply E. rewrite Q. exists r. exact En. }
      bok F. apply idx_ok in E0 as (-> & Ea). bok F0. apply missed_ok in E0 as (-> & Nm & Hm). cbn [app].
      assert (Hm' : forall f, In f a0 <-> lists a f /\ ~ exists t, gives O i f t).
      { intros f. rewrite Hm, Hr. split; intros (A & B); (split; [exact A|]).
        - intros Q. apply B. split; [|exact Q]. apply rolls_spec. split; [exact Eo|]. exists a. split; [exact Ea|apply lists_mentions; exact A].
        - intros (_ & Q). exact (B Q). }
      assert (U : forall r, entry (u "rollUp") v r -> r = a) by (intros r Er; exact (entry_fun _ _ _ _ Er Ea)).
      destruct a0 as [|f0 m].
      - injection F as <-. eapply covers_eq; [apply covers_nil|]. intros y. split; [intros []|]. intros (_ & r & m & Er & _ & Nn & _ & Q). apply U in Er. subst r. destruct m as [|f m]; [destruct (Nn eq_refl)|].
        apply (Hm' f). apply Q. left. reflexivity.
      - injection F as <-. split.
        + intros y [<-|[]]. split; [reflexivity|]. exists a, (f0 :: m). split; [exact Ea|]. split; [reflexivity|]. split; [discriminate|]. split; [exact Nm|exact Hm'].
        + intros y (_ & r & m' & Er & -> & _ & _ & Q). apply U in Er. subst r. eexists. split; [left; reflexivity|]. right. exists m', (f0 :: m). split; [reflexivity|]. split; [reflexivity|].
          intros f. rewrite Q. symmetry. apply Hm'.
    Qed.

    Lemma objects_ok name v i raw x st x' st' w : objects v i -> name <> [] -> named_below O i (sub_place (at_path P) (at_titles P) ids name v zero_sl) ->
      parse_objects O rec emit (at_path P) ids lk (at_titles P) name v raw (title_of v) x st = Ok (x', st') w -> prop_ok name v x x' w.
    Proof.
      intros Ob Nn Nb H. unfold parse_objects in H. set (sn := sub_name O (at_path P) (at_titles P) name (title_of v)) in *.
      set (st2 := match so_titles O with true => _ | false => _ end) in H. set (st3 := upd_subs _ st2) in H. cbv zeta in H.
      bok H. apply child_table_w in E as ->. set (st4 := fold_left _ ids st3) in F. cbv zeta in F. bok F. apply idx_ok in E as (-> & E).
      assert (a0 = i) as -> by (destruct Ob as ((_ & _ & Ei) & _); exact (entry_fun _ _ _ _ E Ei)).
      bok F0. destruct a0 as [[y rolled] sty]. bok F. injection F0 as <- <- <-. rewrite app_nil_r. cbn [app]. destruct a0.
      match type of E0 with _ = Ok _ ?w5 => change (rec (X * list str)%type (consume sn name v) (x, []) (at_path P ++ name ++ sl ++ [48%N]) i ids a (sub_title (at_titles P) (title_of v)) st4 = Ok (y, rolled, sty) w5) in E0 end.
      assert (Ti : typed (u "object") i) by apply Ob.
      set (P' := sub_place (at_path P) (at_titles P) ids name v zero_sl) in *.
      assert (Sl : slashed (at_path P ++ name ++ sl ++ [48%N]) = at_path P').
      { unfold slashed. destruct (at_path P ++ name ++ sl ++ [48%N]) eqn:Q; [apply app_eq_nil in Q as [_ Q]; apply app_eq_nil in Q as [Q _]; contradiction|]. rewrite <- Q, <- !app_assoc. reflexivity. }
      destruct (R _ _ _ (consume_says sn name v) (x, []) P' _ i a _ _ _ _ Sl (or_intror (typed_object_no_alts i Ti))
          ltac:(intros Q HQ; apply (top_typed i Ti) in HQ; subst Q; exact Nb) E0) as (ys & Em & Ys & Cv).
      assert (Ys' : forall f t, In (f, t) ys <-> gives O i f t).
      { intros f t. rewrite Ys. split; [intros (Q & HQ & Hy); apply (top_typed i Ti) in HQ; subst Q; exact Hy|intros Hy; exists i; split; [apply (top_typed i Ti); reflexivity|exact Hy]]. }
      apply consume_emits in Em as (Em & Hr). cbn [fst snd] in Em, Hr.
      match type of E1 with _ = Ok _ ?w6 => assert (Cm : covers w6 (not_rolled O v i)) end.
      { eapply missed_says; [|exact E1|destruct E as (r & d & -> & _); eauto]. intros f. rewrite Hr. cbn [In]. split; [intros [[]|(A & t & B)]; split; [exact A|]; exists t; apply Ys'; exact B|intros (A & t & B); right; split; [exact A|]; exists t; apply Ys'; exact B]. }
      assert (Ui : forall j, objects v j -> j = i) by (intros j ((_ & _ & Ej) & _); exact (entry_fun _ _ _ _ Ej E)).
      assert (C : forall f t, prop_col O name v f t <-> exists f' t', gives O i f' t' /\ rolled_up O v f' /\ f = name ++ zero_sl ++ f' /\ t = join_title (title_of v) t').
      { intros f t. split; [intros [(ty & L & _)|[((A & _) & _)|(j & f' & t' & A & B)]]|intros (f' & t' & Q); right; right; exists i, f', t'; auto].
        - destruct (kind_leaf_only v ty L) as [_ Q]. destruct (Q i Ob).
        - destruct Ob as ((Q & _) & _). contradiction.
        - apply Ui in A. subst j. eauto. }
      eexists. split; [exact Em|]. split.
      - intros f t. rewrite C, in_flat_map. split.
        + intros ([f' t'] & Hy & Hz). cbn [fst snd] in Hz. destruct (rolls O v f') eqn:Er; [|destruct Hz]. destruct Hz as [[= <- <-]|[]]. exists f', t'. split; [apply Ys'; exact Hy|]. split; [apply rolls_spec; exact Er|auto].
        + intros (f' & t' & Hy & Er & -> & ->). exists (f', t'). split; [apply Ys'; exact Hy|]. cbn [fst snd]. apply rolls_spec in Er. rewrite Er. left. reflexivity.
      - eapply covers_eq; [eapply covers_app; [exact Cv|exact Cm]|]. intros z. split.
        + intros [[(Q & f & t & HQ & Hy & [Wy|(Er & Wy)])|(Q & HQ & Hy)]|Hy].
          * apply (top_typed i Ti) in HQ. subst Q. right; right; left. exists i. split; [exact Ob|]. left. exists f, t. auto.
          * apply (top_typed i Ti) in HQ. subst Q. left. do 2 eexists. split; [apply C; exists f, t; split; [exact Hy|]; split; [apply rolls_spec; exact Er|auto]|exact Wy].
          * apply (top_typed i Ti) in HQ. subst Q. right; right; right; right. exists i. auto.
          * right; right; left. exists i. split; [exact Ob|]. right. exact Hy.
        + intros [(f & t & Hy & Wy)|[(Q & _)|[(j & Q & Hy)|[((A & _) & _)|(j & Q & Hy)]]]].
          * apply C in Hy as (f' & t' & Hy & Er & -> & ->). left. left. exists i, f', t'. split; [apply (top_typed i Ti); reflexivity|]. split; [exact Hy|]. right. split; [apply rolls_spec; exact Er|exact Wy].
          * destruct (Q (u "array")). eapply kind_array, Ob.
          * apply Ui in Q. subst j. destruct Hy as [(f & t & Hy & Wy)|Hy]; [|right; exact Hy]. left. left. exists i, f, t. split; [apply (top_typed i Ti); reflexivity|]. auto.
          * destruct Ob as ((Q & _) & _). contradiction.
          * apply Ui in Q. subst j. left. right. exists i. split; [apply (top_typed i Ti); reflexivity|exact Hy].
    Qed.
    Lemma array_ok name v raw x st x' st' w : ~ typed (u "object") v -> typed (u "array") v -> name <> [] ->
      (forall i, objects v i -> named_below O i (sub_place (at_path P) (at_titles P) ids name v zero_sl)) ->
      parse_array O rec emit (at_path P) ids lk (at_titles P) name v raw (title_of v) x st = Ok (x', st') w -> prop_ok name v x x' w.
    Proof.
      intros No Ta Nn Nb H. unfold parse_array in H. cbv zeta in H. bok H. apply idx_ok in E as (-> & Ei). bok F. apply type_set_ok in E as (-> & Ets & _). rename F0 into F. cbn [app].
      assert (A : an_array v a) by (split; [exact No|split; [exact Ta|exact Ei]]).
      destruct (inset (u "string") a0 || isnil a0) eqn:E1.
      { apply (str_or_nil a0 a Ets) in E1. eapply leaf_ok; [eapply leaf_strings; eauto|exact F]. }
      apply (str_or_nil_false a0 a Ets) in E1 as [N1 N2]. subst a0.
      destruct (inset (u "number") (types a)) eqn:E2.
      { apply inset_typed in E2. eapply leaf_ok; [eapply leaf_numbers; eauto|exact F]. }
      apply inset_not in E2. destruct (inset (u "array") (types a)) eqn:E3.
      { apply inset_typed in E3. bok F. apply idx_ok in E as (-> & Ej). bok F0. apply type_set_ok in E as (-> & -> & _). cbn [app].
        destruct (inset (u "string") (types a0) || inset (u "number") (types a0)) eqn:E4; [|discriminate]. rewrite Bool.orb_true_iff, !inset_typed in E4.
        eapply leaf_ok; [eapply leaf_arrays; eauto|exact F]. }
      apply inset_not in E3. destruct (inset (u "object") (types a)) eqn:E4; [|discriminate]. apply inset_typed in E4.
      assert (Ob : objects v a) by (split; [exact A|auto]). eapply objects_ok; [exact Ob|exact Nn|exact (Nb _ Ob)|exact F].
    Qed.

    Definition props_ok (l : list (str * sv)) x x' w := exists ys, emits emit ys x x' /\
      (forall f t, In (f, t) ys <-> exists n v, In (n, v) l /\ left_in O v /\ prop_col O n v f t) /\
      covers w (fun y => exists n v, In (n, v) l /\ left_in O v /\ ((exists f t, prop_col O n v f t /\ W f t y) \/ prop_says P ids n v y)).
    Lemma prop_full name v x st x' st' w : (left_in O v -> named_prop O P ids name v) ->
      parse_prop O rec emit (at_path P) ids lk (at_titles P) name v x st = Ok (x', st') w -> props_ok [(name, v)] x x' w.
    Proof.
      intros Nm H. unfold parse_prop in H. bok H. apply deprecated_ok in E as (-> & D). cbn [app]. destruct a.
      { injection F as <- _ <-. assert (D' : ~ left_in O v) by (intros Q; destruct (proj1 D eq_refl) as [A B]; exact (Q A B)). exists []. split; [constructor|]. split.
        - intros f t. split; [intros []|intros (n & y & [[= <- <-]|[]] & Q & _); contradiction].
        - eapply covers_eq; [apply covers_nil|]. intros y. split; [intros []|intros (n & z & [[= <- <-]|[]] & Q & _); contradiction]. }
      assert (L : left_in O v) by (intros A B; destruct D as [_ D]; discriminate D; auto). clear D. destruct (Nm L) as (Nn & No & Na). clear Nm.
      assert (Q : forall w, prop_ok name v x x' w -> props_ok [(name, v)] x x' w).
      { intros w (ys & Em & Ys & Cv). exists ys. split; [exact Em|]. split.
        - intros f t. rewrite Ys. split; [intros A; exists name, v; split; [left; reflexivity|auto]|intros (n & z & [[= <- <-]|[]] & _ & A); exact A].
        - eapply covers_eq; [exact Cv|]. intros y. split; [intros A; exists name, v; split; [left; reflexivity|auto]|intros (n & z & [[= <- <-]|[]] & _ & A); exact A]. }
      apply Q. clear Q.
      bok F. apply type_set_ok in E as (-> & -> & rv & dv & Hv). bok F0. rename a into raw. bok F. cbn [app].
      destruct (title_text_ok v raw a _ _ E E0) as (-> & ->). apply raw_title_ok in E as (-> & _). clear E0. cbv zeta in F0. cbn [app].
      set (st1 := match title_of v with Some t => _ | None => _ end) in F0. clearbody st1.
      destruct (inset (u "object") (types v)) eqn:E1. { apply inset_typed in E1. eapply object_ok; eauto. }
      apply inset_not in E1. destruct (inset (u "array") (types v)) eqn:E2. { apply inset_typed in E2. eapply array_ok; eauto. }
      apply inset_not in E2. destruct (inset (u "string") (types v) || isnil (types v)) eqn:E3.
      { apply (str_or_nil _ v eq_refl) in E3. bok F0. apply get_ok in E as (-> & r & d & Ev & Ef). cbn [app]. destruct (is_str (u "date") a) eqn:E4.
        - apply is_str_true in E4. subst a. eapply leaf_ok; [|exact F]. apply leaf_date; auto. destruct Ef as [Ef|[_ Q]]; [|discriminate]. exists r, d. auto.
        - eapply leaf_ok; [|exact F]. apply leaf_string; auto. intros (r' & d' & Q & Eq). rewrite Ev in Q. injection Q as <- <-.
          assert (a = VS (SStr (u "date"))) as -> by (destruct Ef as [Ef|[Ef _]]; congruence). cbn in E4. discriminate. }
      apply (str_or_nil_false _ v eq_refl) in E3 as [N1 N2]. destruct (inset (u "number") (types v)) eqn:E4.
      { apply inset_typed in E4. eapply leaf_ok; [|exact F0]. apply leaf_number; auto. }
      apply inset_not in E4. destruct (inset (u "integer") (types v)) eqn:E5.
      { apply inset_typed in E5. eapply leaf_ok; [|exact F0]. apply leaf_integer; auto. }
      apply inset_not in E5. destruct (inset (u "boolean") (types v)) eqn:E6.
      { apply inset_typed in E6. eapply leaf_ok; [|exact F0]. apply leaf_boolean; auto. }
      apply inset_not in E6. injection F0 as <- _ <-.
      assert (NL : forall ty, ~ leaf O v ty).
      { intros ty Lf. destruct Lf as [A _|? (_ & A & _) _|? (_ & A & _)|? ? (_ & A & _)|? ? [A|A]|? ? [A|A]|? ? ? A|? ? ? ? A|? ? ? ? ? A]; contradiction. }
      assert (NO : ~ an_object O v) by (intros [A _]; contradiction).
      assert (NA : forall i, ~ objects v i) by (intros i ((_ & A & _) & _); contradiction).
      assert (NC : forall f t, ~ prop_col O name v f t).
      { intros f t [(ty & A & _)|[(A & _)|(i & ? & ? & A & _)]]; [exact (NL _ A)|exact (NO A)|exact (NA _ A)]. }
      exists []. split; [constructor|]. split; [intros f t; split; [intros []|intros A; destruct (NC _ _ A)]|].
      eapply covers_eq; [apply covers_one|]. intros y. split.
      - intros ->. right; left. split; [|reflexivity]. intros t [ty A|A|i A]; [exact (NL _ A)|exact (NO A)|exact (NA _ A)].
      - intros [(f & t & A & _)|[(_ & A)|[(i & A & _)|[(A & _)|(i & A & _)]]]]; [destruct (NC _ _ A)|exact A|destruct (NA _ A)|contradiction|destruct (NA _ A)].
    Qed.
    Lemma props_full l : (forall n v, In (n, v) l -> left_in O v -> named_prop O P ids n v) -> forall x st x' st' w,
      parse_props O rec emit (at_path P) ids lk (at_titles P) l x st = Ok (x', st') w -> props_ok l x x' w.
    Proof.
      induction l as [|[n v] l IH]; intros Nm x st x' st' w H; cbn [parse_props] in H.
      - injection H as <- _ <-. exists []. split; [constructor|]. split; [intros f t; split; [intros []|intros (n & v & [] & _)]|].
        eapply covers_eq; [apply covers_nil|]. intros y. split; [intros []|intros (n & v & [] & _)].
      - bok H. destruct a as [x1 st1]. apply prop_full in E as (y1 & Em1 & Y1 & C1); [|apply Nm; left; reflexivity].
        apply IH in F as (y2 & Em2 & Y2 & C2); [|intros m z Hz; apply Nm; right; exact Hz].
        exists (y1 ++ y2). split; [eapply emits_app; eauto|]. split.
        + intros f t. rewrite in_app_iff, Y1, Y2. split.
          * intros [(m & z & [Q|[]] & A)|(m & z & Q & A)]; exists m, z; (split; [|exact A]); [left|right]; exact Q.
          * intros (m & z & [Q|Q] & A); [left|right]; exists m, z; (split; [|exact A]); [left|]; exact Q.
        + eapply covers_eq; [eapply covers_app; [exact C1|exact C2]|]. intros y. split.
          * intros [(m & z & [Q|[]] & A)|(m & z & Q & A)]; exists m, z; (split; [|exact A]); [left|right]; exact Q.
          * intros (m & z & [Q|Q] & A); [left|right]; exists m, z; (split; [|exact A]); [left|]; exact Q.
    Qed.
  End Step.

  Lemma alts_texts_w rec X (emit : emit_t X) pp ids lk pt l : Forall (fun v => exists s, v = VS (SStr s)) l -> forall x st x' st' w,
    parse_alts rec emit pp ids lk pt l x st = Ok (x', st') w -> x' = x /\ w = [].
  Proof.
    induction 1 as [|v l (s & ->) _ IH]; intros x st x' st' w; cbn [parse_alts]; [intros [= <- _ <-]; auto|]. intros H. bok H. bok F.
    match type of E with _ = Ok _ ?w1 => assert (a = false /\ w1 = []) as [-> ->] end.
    { bok E. cbn [has] in E1. injection E1 as <- <-. destruct (contains s (u "type")); [|injection F as <- <-; auto]. bok F. discriminate E. }
    destruct a0 as [x1 st1]. injection E0 as <- <- <-. exact (IH _ _ _ _ _ F0).
  Qed.
  Lemma has_alts_w v b w : has_alts v = Ok b w -> w = [].
  Proof.
    unfold has_alts. intros H. bok H. apply has_ok in E as (-> & _). destruct a; [|injection F as _ <-; reflexivity]. bok F. apply idx_ok in E as (-> & _).
    destruct (is_str (u "array") a); [|injection F0 as _ <-; reflexivity]. bok F0. apply has_ok in E as (-> & _). destruct a0; [|injection F as _ <-; reflexivity].
    bok F. apply idx_ok in E as (-> & _). apply has_ok in F0 as (-> & _). reflexivity.
  Qed.
  Lemma id_fields_w ppath ids ptitle props l w : id_fields O ppath ids ptitle props = Ok l w -> w = [].
  Proof.
    unfold id_fields. intros H. bok H. apply has_ok in E as (-> & _). destruct a; [|injection F as _ <-; reflexivity]. destruct (so_titles O); [|injection F as _ <-; reflexivity].
    bok F. apply idx_ok in E as (-> & _). bok F0. apply get_ok in E as (-> & _). cbv zeta in F. destruct (vfalsy a0); [injection F as _ <-; reflexivity|].
    destruct a0 as [[]| |]; try discriminate; injection F as _ <-; reflexivity.
  Qed.

  Lemma alts_full rec (R : rec_says rec) X (emit : emit_t X) W (Sa : says emit W) P lk l : at_path P = [] ->
    (forall v, In v l -> entry (u "type") v (VS (SStr (u "object"))) -> named_below O v P) -> forall x st x' st' w,
    parse_alts rec emit [] (at_ids P) lk (at_titles P) l x st = Ok (x', st') w ->
    exists ys, emits emit ys x x' /\ (forall f t, In (f, t) ys <-> exists v, (In v l /\ entry (u "type") v (VS (SStr (u "object")))) /\ gives O v f t) /\
      covers w (fun y => exists v, (In v l /\ entry (u "type") v (VS (SStr (u "object")))) /\ ((exists f t, gives O v f t /\ W f t y) \/ inner v P y)).
  Proof.
    intros HP. induction l as [|v l IH]; intros Nm x st x' st' w H; cbn [parse_alts] in H.
    - injection H as <- _ <-. exists []. split; [constructor|]. split; [intros f t; split; [intros []|intros (v & ([] & _) & _)]|].
      eapply covers_eq; [apply covers_nil|]. intros y. split; [intros []|intros (v & ([] & _) & _)].
    - bok H. bok F.
      match type of E with _ = Ok _ ?w1 => assert (B : w1 = [] /\ (a = true <-> entry (u "type") v (VS (SStr (u "object"))))) end.
      { bok E. apply has_ok in E1 as (-> & E1). destruct a1.
        - bok F. apply idx_ok in E as (-> & E). injection F1 as <- <-. split; [reflexivity|]. rewrite is_str_true. split; [intros ->; exact E|intros Q; exact (entry_fun _ _ _ _ E Q)].
        - injection F as <- <-. split; [reflexivity|]. split; [discriminate|]. intros (r & d & -> & Q). apply E1. exists (VS (SStr (u "object"))). exact Q. }
      destruct B as [-> B]. clear E. destruct a0 as [x1 st1]. cbn [app].
      apply IH in F0 as (y2 & Em2 & Y2 & C2); [|intros z Hz; apply Nm; right; exact Hz]. destruct a.
      + assert (Ev : entry (u "type") v (VS (SStr (u "object")))) by (apply B; reflexivity).
        assert (Tv : typed (u "object") v). { destruct Ev as (r & d & -> & Q). unfold typed, types. rewrite Q. left. reflexivity. }
        assert (Tt : forall Q, top v Q <-> Q = v) by (apply top_self, typed_object_no_alts, Tv).
        destruct (R _ _ _ Sa x P [] v lk _ _ _ _ (eq_sym HP) (or_introl eq_refl) ltac:(intros Q HQ; apply Tt in HQ; subst Q; apply Nm; [left; reflexivity|exact Ev]) E0) as (y1 & Em1 & Y1 & C1).
        exists (y1 ++ y2). split; [eapply emits_app; eauto|]. split.
        * intros f t. rewrite in_app_iff, Y1, Y2. split.
          { intros [(Q & HQ & A)|(z & (Hz & Ez) & A)]; [apply Tt in HQ; subst Q; exists v|exists z]; (split; [split; [|assumption]|exact A]); [left; reflexivity|right; exact Hz]. }
          { intros (z & ([<-|Hz] & Ez) & A); [left; exists v; split; [apply Tt; reflexivity|exact A]|right; exists z; auto]. }
        * eapply covers_eq; [eapply covers_app; [exact C1|exact C2]|]. intros y. split.
          { intros [[(Q & f & t & HQ & A)|(Q & HQ & A)]|(z & (Hz & Ez) & A)].
            - apply Tt in HQ. subst Q. exists v. split; [split; [left; reflexivity|exact Ev]|]. left. eauto.
            - apply Tt in HQ. subst Q. exists v. split; [split; [left; reflexivity|exact Ev]|]. right. exact A.
            - exists z. split; [split; [right; exact Hz|exact Ez]|exact A]. }
          { intros (z & ([<-|Hz] & Ez) & A); [|right; exists z; auto]. left. destruct A as [(f & t & A)|A]; [left; exists v, f, t|right; exists v]; (split; [apply Tt; reflexivity|exact A]). }
      + injection E0 as <- <- <-. cbn [app]. assert (Nv : ~ entry (u "type") v (VS (SStr (u "object")))) by (intros Q; apply B in Q; discriminate).
        exists y2. split; [exact Em2|]. split.
        * intros f t. rewrite Y2. split; intros (z & (Hz & Ez) & A); exists z; (split; [split; [|exact Ez]|exact A]); [right; exact Hz|]. destruct Hz as [<-|Hz]; [contradiction|exact Hz].
        * eapply covers_eq; [exact C2|]. intros y. split; intros (z & (Hz & Ez) & A); exists z; (split; [split; [|exact Ez]|exact A]); [right; exact Hz|]. destruct Hz as [<-|Hz]; [contradiction|exact Hz].
  Qed.

  Lemma alternatives_fun v o o' : alternatives v o -> alternatives v o' -> o = o'.
  Proof. intros (i & _ & A & B) (i' & _ & A' & B'). pose proof (entry_fun _ _ _ _ A A') as <-. exact (entry_fun _ _ _ _ B B'). Qed.
  Lemma dict_full n : rec_says (parse_dict O n).
  Proof.
    induction n as [|n IH]; intros X emit W Sa x P pp v lk st x' st' w Sl Alt Nm H; [discriminate|]. cbn [parse_dict] in H. cbv zeta in H. change (match pp with [] => [] | _ => pp ++ sl end) with (slashed pp) in H. rewrite Sl in H.
    bok H. pose proof (has_alts_w _ _ _ E) as ->. cbn [app]. destruct a.
    - bok F. apply idx_ok in E0 as (-> & E0). bok F0. apply idx_ok in E1 as (-> & E1). bok F. cbn [app].
      assert (Av : alternatives v a0) by (exists a; split; [exact (has_alts_true _ _ E)|auto]).
      destruct Alt as [-> |Alt]; [|destruct (Alt _ Av)]. cbn [slashed] in Sl. rewrite <- Sl in F0.
      assert (None_ : (forall l, a0 <> VA l) -> forall R, ~ top v R).
      { intros Na R [(l & A & _)|(A & _)]; [apply (Na l); exact (alternatives_fun _ _ _ Av A)|exact (A _ Av)]. }
      match type of E2 with _ = Ok _ ?w3 => match type of F0 with _ = Ok _ ?w4 => assert (Texts : Forall (fun v => exists s, v = VS (SStr s)) a1 -> w3 = [] -> (forall l, a0 <> VA l) -> exists ys, emits emit ys x x' /\ (forall f t, In (f, t) ys <-> exists R, top v R /\ gives O R f t) /\
        covers (w3 ++ w4) (fun y => (exists R f t, top v R /\ gives O R f t /\ W f t y) \/ exists R, top v R /\ inner R P y)) end end.
      { intros Ft -> Na. apply alts_texts_w in F0 as [-> ->]; [|exact Ft]. exists []. split; [constructor|]. split; [intros f t; split; [intros []|intros (Q & HQ & _); destruct (None_ Na _ HQ)]|].
        eapply covers_eq; [apply covers_nil|]. intros y. split; [intros []|]. intros [(Q & _ & _ & HQ & _)|(Q & HQ & _)]; exact (None_ Na _ HQ). }
      destruct a0 as [s|l|r d].
      + destruct s; try discriminate. injection E2 as <- <-. apply Texts; [|reflexivity|discriminate]. apply Forall_forall. intros y Hy. apply in_map_iff in Hy as (c & <- & _). eexists. reflexivity.
      + injection E2 as <- <-. cbn [app].
        assert (Tt : forall R, top v R <-> In R l /\ entry (u "type") R (VS (SStr (u "object")))).
        { intros R. split; [intros [(l' & A & B)|(A & _)]; [pose proof (alternatives_fun _ _ _ Av A) as Q; injection Q as <-; exact B|destruct (A _ Av)]|intros B; left; exists l; auto]. }
        apply (alts_full _ IH _ emit W Sa P lk l (eq_sym Sl)) in F0 as (ys & Em & Y & C); [|intros z Hz Ez; apply Nm, Tt; auto].
        exists ys. split; [exact Em|]. split.
        * intros f t. rewrite Y. split; intros (R & HR & A); exists R; (split; [apply Tt; exact HR|exact A]).
        * eapply covers_eq; [exact C|]. intros y. split.
          { intros (R & HR & [(f & t & A)|A]); [left; exists R, f, t|right; exists R]; (split; [apply Tt; exact HR|exact A]). }
          { intros [(R & f & t & HR & A)|(R & HR & A)]; exists R; (split; [apply Tt; exact HR|]); [left; exists f, t|right]; exact A. }
      + injection E2 as <- <-. apply Texts; [|reflexivity|discriminate]. apply Forall_forall. intros y Hy. apply in_map_iff in Hy as (c & <- & _). eexists. reflexivity.
    - destruct (has_alts_ok _ _ _ E) as (_ & NA). specialize (NA eq_refl). bok F. apply has_ok in E0 as (-> & E0). cbn [app].
      assert (Tt : forall R, top v R <-> R = v) by (apply top_self; exact NA).
      destruct a.
      + bok F0. apply idx_ok in E1 as (-> & E1). bok F. cbn [app]. pose proof (id_fields_w _ _ _ _ _ _ E2) as ->. cbn [app]. destruct a as [s|l|r d]; try discriminate.
        pose proof (id_fields_ok _ _ _ _ _ _ _ _ _ E1 E2) as Ea. assert (Ea' : a0 = ids_at O v P) by (rewrite Ea; destruct P; reflexivity). clear Ea. subst a0.
        assert (Pr : forall m z, property O v m z <-> In (m, z) d /\ left_in O z).
        { intros m z. split; [intros (r' & d' & Ep & A & B); pose proof (entry_fun _ _ _ _ E1 Ep) as Q; injection Q as <- <-; auto|intros (A & B); exists r, d; auto]. }
        apply (props_full _ IH emit W Sa P (ids_at O v P) lk d) in F0 as (ys & Em & Y & C).
        2:{ intros m z Hz Lz. apply named_below_prop; [apply Nm, Tt; reflexivity|apply Pr; auto]. }
        exists ys. split; [exact Em|]. split.
        * intros f t. rewrite Y. split.
          { intros (m & z & A & B & D). exists v. split; [apply Tt; reflexivity|]. apply column_iff. exists m, z. split; [apply Pr; auto|exact D]. }
          { intros (Q & HQ & D). apply Tt in HQ. subst Q. apply column_iff in D as (m & z & A & D). apply Pr in A as [A B]. exists m, z. auto. }
        * eapply covers_eq; [exact C|]. intros y. split.
          { intros (m & z & A & B & [(f & t & D & Wy)|D]).
            - left. exists v, f, t. split; [apply Tt; reflexivity|]. split; [apply column_iff; exists m, z; split; [apply Pr; auto|exact D]|exact Wy].
            - right. exists v. split; [apply Tt; reflexivity|]. apply inner_iff. right. exists m, z. split; [apply Pr; auto|exact D]. }
          { intros [(Q & f & t & HQ & D & Wy)|(Q & HQ & D)]; apply Tt in HQ; subst Q.
            - apply column_iff in D as (m & z & A & D). apply Pr in A as [A B]. exists m, z. split; [exact A|]. split; [exact B|]. left. exists f, t. auto.
            - apply inner_iff in D as [(D & _)|(m & z & A & D)]; [destruct (D _ E1)|]. apply Pr in A as [A B]. exists m, z. auto. }
      + injection F0 as <- <- <-.
        assert (Np : forall p, ~ entry (u "properties") v p) by (intros p (r & d & -> & Q); assert (false = true) by (apply E0; exists p; exact Q); discriminate).
        assert (Ng : forall f t, ~ gives O v f t) by (intros f t D; apply column_iff in D as (m & z & (r & d & Ep & _) & _); exact (Np _ Ep)).
        exists []. split; [constructor|]. split; [intros f t; split; [intros []|intros (Q & HQ & D); apply Tt in HQ; subst Q; exact (Ng _ _ D)]|].
        eapply covers_eq; [apply covers_one|]. intros y. split.
        * intros ->. right. exists v. split; [apply Tt; reflexivity|]. apply inner_iff. left. split; [exact Np|reflexivity].
        * intros [(Q & f & t & HQ & D & _)|(Q & HQ & D)]; apply Tt in HQ; subst Q; [destruct (Ng _ _ D)|]. apply inner_iff in D as [(_ & D)|(m & z & (r & d & Ep & _) & _)]; [exact D|destruct (Np _ Ep)].
  Qed.

  Lemma main_says : says (main_emit O) (fun f t y => so_titles O = true /\ t = None /\ y = SNoTitle f).
  Proof.
    intros x f t st x' st' w. unfold main_emit. destruct (so_titles O); [destruct t as [t|]|]; intros [= <- <- <-].
    - eapply covers_eq; [apply covers_nil|]. intros y. split; [intros []|intros (_ & Q & _); discriminate Q].
    - eapply covers_eq; [apply covers_one|]. intros y. tauto.
    - eapply covers_eq; [apply covers_nil|]. intros y. split; [intros []|intros (Q & _); discriminate Q].
  Qed.
  Theorem schema_warnings S st w : parse_schema O S = Ok st w -> named_fields O S ->
    (forall y, In y w -> reported O S y) /\ forall y, reported O S y -> exists y', In y' w /\ alike y y'.
  Proof.
    intros H Nf. unfold parse_schema in H. bok H. injection F as <- <-. rewrite app_nil_r. destruct a as [x' st'].
    match goal with |- (forall y, In y ?w1 -> _) /\ _ => change (covers w1 (reported O S)) end.
    assert (Nm : forall R, top S R -> named_below O R whole).
    { intros R HR T q n v A Pr. eapply Nf; [exact HR| |exact Pr]. clear - A. induction A as [|a p n0 v0 c q On Ob _ IH|a p n0 v0 i c q On Ob _ IH]; [constructor|exact (within_object _ _ _ _ _ On Ob IH)|exact (within_array _ _ _ _ _ _ On Ob IH)]. }
    destruct (dict_full _ unit (main_emit O) _ main_says tt whole [] S 0%nat _ _ _ _ eq_refl (or_introl eq_refl) Nm E) as (ys & _ & _ & C).
    eapply covers_eq; [exact C|]. intros y. unfold reported, inner. split.
    - intros [(R & f & t & HR & G & Ht & -> & ->)|(R & HR & T & q & A & B)]; [right; split; [exact Ht|]; exists R, f; auto|left; exists R, T, q; auto].
    - intros [(R & T & q & HR & A & B)|(Ht & R & f & HR & G & ->)]; [right; exists R; split; [exact HR|]; exists T, q; auto|left; exists R, f, None; auto].
  Qed.
End Warnings.
