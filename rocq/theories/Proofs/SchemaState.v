(** What the actions of the schema parser leave behind. *)
From Verif.Base Require Import PyStr PyNum PyVal PyDict Outcome.
From Verif.Model Require Import Flatten Titles Schema.
From Verif.Spec Require Import SchemaFields.
From Verif.Proofs Require Import SchemaTrace SchemaRun SchemaColumns.
Local Open Scope res_scope.

Section State.
  Variable O : sopts.

  (** ** the order of the actions: a sheet is made before it is used *)
  Fixpoint ordered (known : list str) (tr : list act) : Prop :=
    match tr with
    | [] => True
    | ASheet sn :: tr' => ordered (sn :: known) tr'
    | AId sn _ _ :: tr' | ACol sn _ _ :: tr' => In sn known /\ ordered known tr'
    | _ :: tr' => ordered known tr'
    end.
  Lemma ordered_incl tr : forall k k', incl k k' -> ordered k tr -> ordered k' tr.
  Proof.
    induction tr as [|a tr IH]; intros k k' Hi H; [exact I|]. destruct a; cbn [ordered] in *; try (eapply IH; [exact Hi|exact H]).
    - eapply IH; [|exact H]. intros y [<-|Hy]; [left; reflexivity|right; apply Hi; exact Hy].
    - destruct H as [H1 H2]. split; [apply Hi; exact H1|eapply IH; [exact Hi|exact H2]].
    - destruct H as [H1 H2]. split; [apply Hi; exact H1|eapply IH; [exact Hi|exact H2]].
  Qed.
  Lemma ordered_app a b : forall k, ordered k a -> ordered k b -> ordered k (a ++ b).
  Proof.
    induction a as [|x a IH]; intros k Ha Hb; [exact Hb|]. destruct x; cbn [ordered app] in *; try (apply IH; [exact Ha|exact Hb]).
    - apply IH; [exact Ha|]. eapply ordered_incl; [|exact Hb]. intros y Hy. right. exact Hy.
    - destruct Ha as [H1 H2]. split; [exact H1|apply IH; auto].
    - destruct Ha as [H1 H2]. split; [exact H1|apply IH; auto].
  Qed.
  Lemma ordered_intable k lk t n : ordered k (in_table lk t n).
  Proof. destruct t; exact I. Qed.
  Lemma ordered_object n t tr : forall k, ordered k tr -> ordered k (flat_map (lift_object n t) tr).
  Proof.
    induction tr as [|a tr IH]; intros k H; [exact I|]. destruct a; cbn [flat_map lift_object app ordered] in *; try (apply IH; exact H); split; try apply IH; tauto.
  Qed.
  Lemma ordered_objects sn pp n pt t up tr : forall k, In sn k -> ordered k tr -> ordered k (flat_map (lift_objects O sn pp n pt t up) tr).
  Proof.
    induction tr as [|a tr IH]; intros k Hk H; [exact I|]. destruct a; cbn [flat_map lift_objects app ordered] in *; try (apply IH; assumption); try (split; [tauto|]; apply IH; tauto).
    - apply IH; [right; exact Hk|exact H].
    - apply ordered_app; [|apply IH; assumption]. apply ordered_app.
      + unfold sub_col. destruct (so_titles O); [destruct t0; [destruct pt; [destruct t|]|]|]; cbn; auto.
      + unfold roll_act. destruct (up f); exact I.
  Qed.
  Lemma trace_ordered :
    (forall pp ids pt lk k v tr, dict_tr O pp ids pt lk k v tr -> forall kn, ordered kn tr) /\
    (forall pp ids pt lk k l tr, alts_tr O pp ids pt lk k l tr -> forall kn, ordered kn tr) /\
    (forall pp ids pt lk k l tr, props_tr O pp ids pt lk k l tr -> forall kn, ordered kn tr) /\
    (forall pp ids pt lk k n v tr, prop_tr O pp ids pt lk k n v tr -> forall kn, ordered kn tr).
  Proof.
    apply trace_ind; try (intros; exact I); try (intros; assumption).
    - intros; auto.
    - intros; auto.
    - intros; auto.
    - intros; apply ordered_app; auto.
    - intros; apply ordered_app; auto.
    - intros; apply ordered_intable.
    - intros pp ids pt lk k n v ty pre _ _ Hp kn. apply ordered_app; [apply ordered_intable|]. apply ordered_app; [destruct Hp as [-> | ->]; exact I|exact I].
    - intros pp ids pt lk k n v child tr _ _ _ _ IH kn. apply ordered_app; [apply ordered_intable|]. cbn [ordered]. apply ordered_object. apply IH.
    - intros pp ids pt lk k n v i child up sn tr _ _ _ _ _ _ IH kn. apply ordered_app; [apply ordered_intable|]. cbn [ordered]. apply ordered_app.
      + destruct (so_titles O); [destruct pt|]; exact I.
      + cbn [ordered]. apply ordered_app.
        * assert (S : In sn (sn :: kn)) by (left; reflexivity). clear IH. induction ids as [|f ids IHi]; [exact I|]. cbn [map ordered]. auto.
        * apply ordered_objects; [left; reflexivity|apply IH].
  Qed.

  (** ** the sheets *)
  Definition sheet_with (st : sps) (sn : str) (P : sheet -> Prop) : Prop := exists s, sget sn (sp_subs st) = Some s /\ P s.
  Definition made (st : sps) (sn : str) : Prop := sheet_with st sn (fun _ => True).
  Definition has_col (st : sps) (sn c : str) : Prop := sheet_with st sn (fun s => In c (sh_cols s)).
  Definition has_id (st : sps) (sn c : str) : Prop := sheet_with st sn (fun s => In c (sh_idcols s)).
  Definition new_like (root : str) (s : sheet) : Prop := NoDup (sh_cols s) /\ NoDup (sh_idcols s) /\ sh_root s = root /\ sh_lines s = LMem [].
  Definition good (st : sps) : Prop :=
    NoDup (map fst (sp_subs st)) /\ (forall sn s, sget sn (sp_subs st) = Some s -> new_like (so_root_id O) s) /\
    new_like [] (sp_main st) /\ sh_idcols (sp_main st) = [].

  Lemma add_col_cols c s x : In x (sh_cols (add_col c s)) <-> In x (sh_cols s) \/ x = c.
  Proof.
    unfold add_col. destruct (str_mem c (sh_cols s)) eqn:E; cbn.
    - apply str_mem_In in E. split; [auto|intros [H| ->]; assumption].
    - rewrite in_app_iff. cbn. split; [intros [H|[H|[]]]; auto|intros [H|H]; auto].
  Qed.
  Lemma add_col_like root c s : new_like root s -> new_like root (add_col c s).
  Proof.
    intros (A & B & C & D). unfold add_col. destruct (str_mem c (sh_cols s)) eqn:E; [repeat split; assumption|]. repeat split; cbn; try assumption.
    apply NoDup_snoc; [exact A|]. intros H. apply str_mem_In in H. congruence.
  Qed.
  Lemma add_col_ids c s : sh_idcols (add_col c s) = sh_idcols s.
  Proof. unfold add_col. destruct (str_mem _ _); reflexivity. Qed.
  Lemma add_idcol_ids c s x : In x (sh_idcols (add_idcol c s)) <-> In x (sh_idcols s) \/ x = c.
  Proof.
    unfold add_idcol. destruct (str_mem c (sh_idcols s)) eqn:E; cbn.
    - apply str_mem_In in E. split; [auto|intros [H| ->]; assumption].
    - rewrite in_app_iff. cbn. split; [intros [H|[H|[]]]; auto|intros [H|H]; auto].
  Qed.
  Lemma add_idcol_like root c s : new_like root s -> new_like root (add_idcol c s).
  Proof.
    intros (A & B & C & D). unfold add_idcol. destruct (str_mem c (sh_idcols s)) eqn:E; [repeat split; assumption|]. repeat split; cbn; try assumption.
    apply NoDup_snoc; [exact B|]. intros H. apply str_mem_In in H. congruence.
  Qed.
  Lemma add_idcol_cols c s : sh_cols (add_idcol c s) = sh_cols s.
  Proof. unfold add_idcol. destruct (str_mem _ _); reflexivity. Qed.

  Lemma on_sub_get sn f st x : sget x (sp_subs (on_sub sn f st)) = if str_eqb sn x then option_map f (sget x (sp_subs st)) else sget x (sp_subs st).
  Proof.
    unfold on_sub, upd_subs. cbn. destruct (sget sn (sp_subs st)) as [s|] eqn:E.
    - destruct (str_eqb_spec sn x) as [<-|N]; [rewrite sget_sset_eq, E; reflexivity|]. apply sget_sset_neq. congruence.
    - destruct (str_eqb_spec sn x) as [<-|N]; [rewrite E; reflexivity|reflexivity].
  Qed.
  Lemma on_sub_keys sn f st : NoDup (map fst (sp_subs st)) -> NoDup (map fst (sp_subs (on_sub sn f st))).
  Proof. intros H. unfold on_sub, upd_subs. cbn. destruct (sget sn (sp_subs st)); [apply sset_NoDup; exact H|exact H]. Qed.
  Lemma on_sub_good sn f st : (forall root s, new_like root s -> new_like root (f s)) -> good st -> good (on_sub sn f st).
  Proof.
    intros Hf (A & B & C & D). split; [apply on_sub_keys; exact A|]. split; [|split; assumption].
    intros x s. rewrite on_sub_get. destruct (str_eqb sn x); [|apply B]. destruct (sget x (sp_subs st)) as [y|] eqn:E; [|discriminate]. cbn. intros [= <-]. apply Hf. eapply B. exact E.
  Qed.
  Lemma on_sub_with sn f st x (P P' : sheet -> Prop) : (forall s, sget sn (sp_subs st) = Some s -> x = sn -> P (f s) <-> P' s) -> (x <> sn -> forall s, P s <-> P' s) ->
    (sheet_with (on_sub sn f st) x P <-> sheet_with st x P').
  Proof.
    intros H1 H2. unfold sheet_with. rewrite on_sub_get. destruct (str_eqb_spec sn x) as [<-|N].
    - destruct (sget sn (sp_subs st)) as [s|] eqn:E; cbn; [|split; intros (? & Q & _); discriminate]. split; intros (s' & [= <-] & Hs); (eexists; split; [reflexivity|]); apply (H1 s eq_refl eq_refl); exact Hs.
    - split; intros (s & E & Hs); exists s; (split; [exact E|]); apply H2; auto.
  Qed.

  (** ** one action *)
  Definition adds_sheet (a : act) (sn : str) : Prop := a = ASheet sn.
  Definition adds_col (a : act) (sn c : str) : Prop := exists t, a = ACol sn c t.
  Definition adds_id (a : act) (sn c : str) : Prop := exists lk, a = AId sn c lk.
  Lemma do_act_good a st : good st -> good (do_act O a st).
  Proof.
    intros G. destruct a; cbn [do_act]; try exact G.
    - destruct G as (A & B & C & D). unfold upd_subs, shas, ahas. cbn. change (aget str_eqb sn (sp_subs st)) with (sget sn (sp_subs st)).
      destruct (sget sn (sp_subs st)) eqn:E; cbn; [split; [|split; [|split]]; assumption|]. split; [apply sset_NoDup; exact A|]. split; [|split; assumption].
      cbn. intros x y. destruct (str_eqb_spec sn x) as [<-|N]; [rewrite sget_sset_eq; intros [= <-]; repeat split; constructor|]. rewrite sget_sset_neq by congruence. apply B.
    - apply on_sub_good; [|exact G]. intros root s L. apply (add_idcol_like root f s L).
    - destruct title; (apply on_sub_good; [|exact G]); intros root y L; apply (add_col_like root c y L).
  Qed.
  Lemma do_act_made a st x : made (do_act O a st) x <-> made st x \/ adds_sheet a x.
  Proof.
    unfold adds_sheet. destruct a; cbn [do_act]; try (split; [auto|intros [H|H]; [exact H|discriminate H]]).
    - unfold made, sheet_with, upd_subs, shas, ahas. cbn. change (aget str_eqb sn (sp_subs st)) with (sget sn (sp_subs st)).
      destruct (str_eqb_spec sn x) as [<-|N].
      + split; [auto|]. intros _. destruct (sget sn (sp_subs st)) eqn:E; [exists s; auto|]. rewrite sget_sset_eq. eexists. split; [reflexivity|exact I].
      + destruct (sget sn (sp_subs st)) eqn:E; [|rewrite sget_sset_neq by congruence]; (split; [auto|intros [H|[= H]]; [exact H|congruence]]).
    - unfold made. rewrite on_sub_with with (P' := fun _ => True) by tauto. split; [auto|intros [H|H]; [exact H|discriminate H]].
    - destruct title; unfold made; rewrite on_sub_with with (P' := fun _ => True) by tauto; (split; [auto|intros [H|H]; [exact H|discriminate H]]).
  Qed.
  Lemma do_act_col a st x y : (match a with AId sn _ _ | ACol sn _ _ => made st sn | _ => True end) -> has_col (do_act O a st) x y <-> has_col st x y \/ adds_col a x y.
  Proof.
    unfold adds_col. intros M. destruct a; cbn [do_act]; try (split; [auto|intros [H|(? & H)]; [exact H|discriminate H]]).
    - unfold has_col, sheet_with, upd_subs, shas, ahas. cbn. change (aget str_eqb sn (sp_subs st)) with (sget sn (sp_subs st)).
      destruct (sget sn (sp_subs st)) eqn:E; [split; [auto|intros [H|(? & H)]; [exact H|discriminate H]]|].
      destruct (str_eqb_spec sn x) as [<-|N].
      + rewrite sget_sset_eq, E. split; [intros (s & [= <-] & [])|intros [(s & H & _)|(? & H)]; discriminate].
      + rewrite sget_sset_neq by congruence. split; [auto|intros [H|(? & H)]; [exact H|discriminate H]].
    - unfold has_col. rewrite on_sub_with with (P' := fun s => In y (sh_cols s)); [split; [auto|intros [H|(? & H)]; [exact H|discriminate H]]| |tauto].
      intros s _ _. cbn. rewrite add_idcol_cols. reflexivity.
    - destruct M as (s & M & _). unfold has_col.
      assert (Q : forall f, (forall s, In y (sh_cols (f s)) <-> In y (sh_cols s) \/ y = c) ->
        (sheet_with (on_sub sn f st) x (fun s => In y (sh_cols s)) <-> sheet_with st x (fun s => In y (sh_cols s)) \/ (exists t, ACol sn c title = ACol x y t))).
      { intros f Hf. unfold sheet_with. rewrite on_sub_get. destruct (str_eqb_spec sn x) as [<-|N].
        - rewrite M. cbn. split.
          + intros (s' & [= <-] & H). apply Hf in H as [H| ->]; [left; exists s; auto|right; eauto].
          + intros [(s' & [= <-] & H)|(t & [= ->])]; (eexists; split; [reflexivity|]); apply Hf; auto.
        - split; [auto|intros [H|(? & [= H])]; [exact H|congruence]]. }
      destruct title; apply Q; intros s'; cbn; apply add_col_cols.
  Qed.
  Lemma do_act_id a st x y : (match a with AId sn _ _ | ACol sn _ _ => made st sn | _ => True end) -> has_id (do_act O a st) x y <-> has_id st x y \/ adds_id a x y.
  Proof.
    unfold adds_id. intros M. destruct a; cbn [do_act]; try (split; [auto|intros [H|(? & H)]; [exact H|discriminate H]]).
    - unfold has_id, sheet_with, upd_subs, shas, ahas. cbn. change (aget str_eqb sn (sp_subs st)) with (sget sn (sp_subs st)).
      destruct (sget sn (sp_subs st)) eqn:E; [split; [auto|intros [H|(? & H)]; [exact H|discriminate H]]|].
      destruct (str_eqb_spec sn x) as [<-|N].
      + rewrite sget_sset_eq, E. split; [intros (s & [= <-] & [])|intros [(s & H & _)|(? & H)]; discriminate].
      + rewrite sget_sset_neq by congruence. split; [auto|intros [H|(? & H)]; [exact H|discriminate H]].
    - destruct M as (s & M & _). unfold has_id, sheet_with. rewrite on_sub_get. destruct (str_eqb_spec sn x) as [<-|N].
      + rewrite M. cbn. split.
        * intros (s' & [= <-] & H). cbn in H. apply add_idcol_ids in H as [H| ->]; [left; exists s; auto|right; eauto].
        * intros [(s' & [= <-] & H)|(t & [= ->])]; (eexists; split; [reflexivity|]); cbn; apply add_idcol_ids; auto.
      + split; [auto|intros [H|(? & [= H])]; [exact H|congruence]].
    - assert (Q : forall f, (forall s, sh_idcols (f s) = sh_idcols s) ->
        (sheet_with (on_sub sn f st) x (fun s => In y (sh_idcols s)) <-> sheet_with st x (fun s => In y (sh_idcols s)) \/ (exists lk, ACol sn c title = AId x y lk))).
      { intros f Hf. rewrite on_sub_with with (P' := fun s => In y (sh_idcols s)); [split; [auto|intros [H|(? & H)]; [exact H|discriminate H]]| |tauto]. intros s _ _. rewrite Hf. reflexivity. }
      unfold has_id. destruct title; apply Q; intros s'; cbn; apply add_col_ids.
  Qed.
  Lemma do_act_main a st : sp_main (do_act O a st) = sp_main st.
  Proof. destruct a; cbn [do_act]; try reflexivity. destruct title; reflexivity. Qed.

  (** ** all of them *)
  Definition main_heading (f : str) (t : option str) (c : str) : Prop := if so_titles O then t = Some c else c = f.
  Lemma main_emit_ok x f t st x1 st1 w : main_emit O x f t st = Ok (x1, st1) w ->
    sp_subs st1 = sp_subs st /\ (good st -> good st1) /\ (forall c, In c (sh_cols (sp_main st1)) <-> In c (sh_cols (sp_main st)) \/ main_heading f t c) /\
    (so_titles O = true -> t = None -> w = [SNoTitle f]).
  Proof.
    unfold main_emit, main_heading. destruct (so_titles O).
    - destruct t as [t|]; cbn; intros [= <- <- <-].
      + split; [reflexivity|]. split; [|split; [|discriminate]].
        * intros (A & B & C & D). split; [exact A|]. split; [exact B|]. split; [apply (add_col_like _ _ _ C)|]. cbn. rewrite add_col_ids. exact D.
        * intros c. cbn. rewrite add_col_cols. split; intros [H|H]; auto; right; congruence.
      + split; [reflexivity|]. split; [auto|]. split; [|auto]. intros c. split; [auto|intros [H|H]; [exact H|discriminate]].
    - intros [= <- <- <-]. split; [reflexivity|]. split; [|split; [|discriminate]].
      * intros (A & B & C & D). split; [exact A|]. split; [exact B|]. split; [apply (add_col_like _ _ _ C)|]. cbn. rewrite add_col_ids. exact D.
      * intros c. cbn. apply add_col_cols.
  Qed.
  Theorem runs_state tr : forall x st x' st' kn, runs O (main_emit O) tr x st x' st' -> good st -> ordered kn tr -> (forall sn, In sn kn -> made st sn) ->
    good st' /\
    (forall sn, made st' sn <-> made st sn \/ In (ASheet sn) tr) /\
    (forall sn c, has_col st' sn c <-> has_col st sn c \/ exists t, In (ACol sn c t) tr) /\
    (forall sn c, has_id st' sn c <-> has_id st sn c \/ exists lk, In (AId sn c lk) tr) /\
    (forall c, In c (sh_cols (sp_main st')) <-> In c (sh_cols (sp_main st)) \/ exists f t, In (AYield f t) tr /\ main_heading f t c).
  Proof.
    induction tr as [|a tr IH]; intros x st x' st' kn H G Or Kn.
    - destruct H as [_ ->]. split; [exact G|]. split; [intros; cbn; tauto|]. split; [|split]; intros; (split; [auto|intros [Hc|Hc]; [exact Hc|]]); destruct Hc as (? & Hc); try destruct Hc as (? & [] & _); destruct Hc.
    - destruct (match a with AYield f t => true | _ => false end) eqn:Ea.
      + destruct a; try discriminate. destruct H as (x1 & st1 & w & E & H). destruct (main_emit_ok _ _ _ _ _ _ _ E) as (E1 & G1 & M1 & _).
        assert (Kn1 : forall sn, In sn kn -> made st1 sn) by (intros sn Hs; unfold made, sheet_with; rewrite E1; apply Kn; exact Hs).
        destruct (IH _ _ _ _ _ H (G1 G) Or Kn1) as (I1 & I2 & I3 & I4 & I5). clear IH.
        unfold made, has_col, has_id, sheet_with in *. rewrite E1 in I2, I3, I4. split; [exact I1|]. cbn [In]. split; [|split; [|split]].
        * intros sn. rewrite I2. split; [tauto|intros [A|[A|A]]; [auto|discriminate|auto]].
        * intros sn c. rewrite I3. split; [intros [A|(t' & A)]; eauto|intros [A|(t' & [A|A])]; [auto|discriminate|eauto]].
        * intros sn c. rewrite I4. split; [intros [A|(t' & A)]; eauto|intros [A|(t' & [A|A])]; [auto|discriminate|eauto]].
        * intros c. rewrite I5, M1. split.
          -- intros [[A|A]|(f' & t' & A & B)]; [auto|right; exists f, t; auto|right; exists f', t'; auto].
          -- intros [A|(f' & t' & [A|A] & B)]; [auto|injection A as <- <-; auto|right; exists f', t'; auto].
      + assert (H' : runs O (main_emit O) tr x (do_act O a st) x' st') by (destruct a; try exact H; discriminate).
        set (kn' := match a with ASheet sn => sn :: kn | _ => kn end).
        assert (Or' : ordered kn' tr) by (destruct a; cbn in Or |- *; tauto).
        assert (Mk : match a with AId sn _ _ | ACol sn _ _ => made st sn | _ => True end) by (destruct a; try exact I; apply Kn; apply Or).
        assert (Kn' : forall sn, In sn kn' -> made (do_act O a st) sn).
        { intros sn Hs. apply do_act_made. unfold adds_sheet. destruct a; cbn [kn'] in Hs; try (left; apply Kn; exact Hs). destruct Hs as [<-|Hs]; [right; reflexivity|left; apply Kn; exact Hs]. }
        destruct (IH _ _ _ _ _ H' (do_act_good a st G) Or' Kn') as (I1 & I2 & I3 & I4 & I5). clear IH.
        split; [exact I1|]. cbn [In]. split; [|split; [|split]].
        * intros sn. rewrite I2, do_act_made. unfold adds_sheet. tauto.
        * intros sn c. rewrite I3, (do_act_col a st sn c Mk). unfold adds_col. split; [intros [[A|(t & A)]|(t & A)]; eauto|intros [A|(t & [A|A])]; eauto].
        * intros sn c. rewrite I4, (do_act_id a st sn c Mk). unfold adds_id. split; [intros [[A|(t & A)]|(t & A)]; eauto|intros [A|(t & [A|A])]; eauto].
        * intros c. rewrite I5, do_act_main. split; [intros [A|(f & t & A & B)]; eauto 6|intros [A|(f & t & [A|A] & B)]; [auto|destruct a; discriminate|eauto 6]].
  Qed.

  Lemma start_good : good sps_start.
  Proof. split; [constructor|]. split; [intros sn s H; discriminate H|]. split; [|reflexivity]. repeat split; constructor. Qed.

  (** ** the whole schema *)
  Lemma alternatives_fun v a b : alternatives v a -> alternatives v b -> a = b.
  Proof. intros (i & _ & A & B) (j & _ & C & D). pose proof (entry_fun _ _ _ _ A C) as <-. exact (entry_fun _ _ _ _ B D). Qed.
  Lemma top_facts pp ids pt lk k v tr : dict_tr O pp ids pt lk k v tr -> pp = [] -> (forall R, top v R -> named_below O R (mk [] pt ids)) ->
    facts O tr (fun f t => exists R, top v R /\ gives O R f t) (fun q ids' n w i => exists R, top v R /\ arr O R (mk [] pt ids) q ids' n w i).
  Proof.
    intros T E N.
    assert (Plain : (forall o, ~ alternatives v o) -> facts O tr (fun f t => exists R, top v R /\ gives O R f t) (fun q ids' n w i => exists R, top v R /\ arr O R (mk [] pt ids) q ids' n w i)).
    { intros NA. assert (Tv : top v v) by (right; auto).
      assert (U : forall R, top v R -> R = v) by (intros R [(l & A & _)|[_ H]]; [destruct (NA _ A)|exact H]).
      eapply facts_eq; [apply (proj1 (trace_facts O) _ _ _ _ _ _ _ T NA)| |].
      - rewrite E. apply N. exact Tv.
      - intros f t. split; [intros H; exists v; auto|]. intros (R & HR & H). rewrite (U R HR) in H. exact H.
      - rewrite E. intros q ids' n w i. split; [intros H; exists v; auto|]. intros (R & HR & H). rewrite (U R HR) in H. exact H. }
    destruct T as [pp ids pt lk k v l tr A T|pp ids pt lk k v o A Nl|pp ids pt lk k v r d tr NA Ep T|pp ids pt lk k v NA NP]; [| |apply Plain; exact NA|apply Plain; exact NA]; clear Plain.
    - rewrite E in T. cbn [slashed] in T.
      assert (Tv : forall R, top v R <-> In R l /\ entry (u "type") R (VS (SStr (u "object")))).
      { intros R. split.
        - intros [(l' & A' & H1 & H2)|[NA _]]; [|destruct (NA _ A)]. pose proof (alternatives_fun _ _ _ A A') as Q. injection Q as <-. auto.
        - intros [H1 H2]. left. exists l. auto. }
      eapply facts_eq; [apply (proj1 (proj2 (trace_facts O)) _ _ _ _ _ _ _ T eq_refl)| |].
      + intros R H1 H2. apply N. apply Tv. auto.
      + intros f t. split; intros (R & H); exists R; rewrite Tv in *; tauto.
      + intros q ids' n w i. split; intros (R & H); exists R; rewrite Tv in *; tauto.
    - assert (NT : forall R, ~ top v R).
      { intros R [(l' & A' & _)|[NA _]]; [|destruct (NA _ A)]. destruct (Nl _ (alternatives_fun _ _ _ A A')). }
      eapply facts_eq; [apply facts_nil| |]; [intros f t|intros q ids' n w i]; (split; [intros []|intros (R & HR & _); exact (NT R HR)]).
  Qed.

  Definition named (S : sv) : Prop := forall R, top S R -> named_below O R whole.
  Theorem parse_facts S st w : parse_schema O S = Ok st w -> named S ->
    exists tr, runs O (main_emit O) tr tt sps_start tt st /\ (forall kn, ordered kn tr) /\ dict_tr O [] [] (Some []) 0 1 S tr /\
      facts O tr (fun f t => exists R, top S R /\ gives O R f t) (fun q ids n v i => array_in O S q ids n v i).
  Proof.
    unfold parse_schema. intros H N. apply bind_ok in H as ([x st'] & w1 & w2 & H & E & _). cbn [snd] in E. injection E as <- _.
    assert (K : keeps (main_emit O)).
    { intros x0 f t st0 x1 st1 w0 E. unfold main_emit in E. destruct (so_titles O); [destruct t|]; injection E as _ <- _; reflexivity. }
    destruct (dict_runs O _ unit (main_emit O) K _ _ _ _ _ _ _ _ _ _ H) as (tr & T & R).
    { repeat constructor. } { cbn. auto. }
    exists tr. destruct x. split; [exact R|]. split; [intros kn; eapply (proj1 trace_ordered); exact T|]. split; [exact T|].
    eapply facts_eq; [apply (top_facts _ _ _ _ _ _ _ T eq_refl N)|reflexivity|].
    intros q ids n v i. split; [intros (R0 & A & T0 & B)|intros (R0 & T0 & A & B)]; exists R0; [exists T0; tauto|split; [exact A|]; exists T0; tauto].
  Qed.

  (** the main sheet has exactly the columns of the schema *)
  Theorem main_columns S st w : parse_schema O S = Ok st w -> named S ->
    forall c, In c (header (sp_main st)) <-> exists R f t, top S R /\ gives O R f t /\ main_heading f t c.
  Proof.
    intros H N c. destruct (parse_facts _ _ _ H N) as (tr & R & Or & _ & F). destruct (runs_state tr _ _ _ _ [] R start_good (Or []) (fun _ H => match H with end)) as (G & _ & _ & _ & M).
    unfold header. destruct G as (_ & _ & (_ & _ & -> & _) & ->). cbn [app]. rewrite M. cbn. split.
    - intros [[]|(f & t & Hf & Hc)]. apply (f_yield _ _ _ _ F) in Hf as (R0 & T & C). exists R0, f, t. auto.
    - intros (R0 & f & t & T & C & Hc). right. exists f, t. split; [|exact Hc]. apply (f_yield _ _ _ _ F). exists R0. auto.
  Qed.
  (** the other sheets are those of the arrays of objects *)
  Theorem sub_sheets S st w : parse_schema O S = Ok st w -> named S ->
    forall sn, In sn (map fst (sp_subs st)) <-> exists q ids n v i, array_in O S q ids n v i /\ sn = sheet_of O q n v.
  Proof.
    intros H N sn. destruct (parse_facts _ _ _ H N) as (tr & R & Or & _ & F). destruct (runs_state tr _ _ _ _ [] R start_good (Or []) (fun _ H => match H with end)) as (_ & M & _).
    rewrite <- (f_sheet _ _ _ _ F). specialize (M sn). transitivity (made st sn).
    - unfold made, sheet_with. destruct (sget sn (sp_subs st)) as [s|] eqn:E.
      + split; [exists s; auto|]. intros _. apply sget_In in E. apply (in_map fst) in E. exact E.
      + split; [intros Hs; apply sget_None in E; contradiction|intros (s & Q & _); discriminate].
    - rewrite M. split; [intros [(s & Q & _)|Q]; [discriminate Q|exact Q]|auto].
  Qed.
  Theorem sub_columns S st w : parse_schema O S = Ok st w -> named S -> forall sn s, sget sn (sp_subs st) = Some s ->
    forall c, In c (sh_cols s) <-> exists q ids n v i f t, array_in O S q ids n v i /\ sn = sheet_of O q n v /\ gives O i f t /\ sub_heading O q n v f t c.
  Proof.
    intros H N sn s Hs c. destruct (parse_facts _ _ _ H N) as (tr & R & Or & _ & F). destruct (runs_state tr _ _ _ _ [] R start_good (Or []) (fun _ H => match H with end)) as (_ & _ & M & _).
    transitivity (has_col st sn c).
    - unfold has_col, sheet_with. rewrite Hs. split; [eauto|]. intros (s' & [= <-] & Q). exact Q.
    - rewrite M. split.
      + intros [(s0 & Q & _)|(tt & Q)]; [discriminate Q|]. apply (f_col _ _ _ _ F) in Q as (q & ids & n & v & i & f & t & A & B & C & D & _). exists q, ids, n, v, i, f, t. auto.
      + intros (q & ids & n & v & i & f & t & A & B & C & D). right. eexists. apply (f_col _ _ _ _ F). exists q, ids, n, v, i, f, t. split; [exact A|]. split; [exact B|]. split; [exact C|]. split; [exact D|reflexivity].
  Qed.
  Theorem sub_ids S st w : parse_schema O S = Ok st w -> named S -> forall sn s, sget sn (sp_subs st) = Some s ->
    forall c, In c (sh_idcols s) <-> exists q ids n v i, array_in O S q ids n v i /\ sn = sheet_of O q n v /\ In c ids.
  Proof.
    intros H N sn s Hs c. destruct (parse_facts _ _ _ H N) as (tr & R & Or & _ & F). destruct (runs_state tr _ _ _ _ [] R start_good (Or []) (fun _ H => match H with end)) as (_ & _ & _ & M & _).
    transitivity (has_id st sn c).
    - unfold has_id, sheet_with. rewrite Hs. split; [eauto|]. intros (s' & [= <-] & Q). exact Q.
    - rewrite M, (f_id _ _ _ _ F). split; [intros [(s0 & Q & _)|Q]; [discriminate Q|exact Q]|auto].
  Qed.
End State.
