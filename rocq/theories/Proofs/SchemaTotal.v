(** Schemas that are fine are parsed. *)
From Verif.Base Require Import PyStr PyNum PyVal PyDict Outcome.
From Verif.Model Require Import Flatten Titles Schema.
From Verif.Spec Require Import Headings SchemaFields.
From Verif.Proofs Require Import SchemaTrace SchemaRun SchemaColumns SchemaState SchemaTitles.
Local Open Scope res_scope.

Definition fine_run {A} (m : SR A) : Prop := exists a w, m = Ok a w.
Lemma fine_ret {A} (a : A) : fine_run (ret a).
Proof. eexists _, _. reflexivity. Qed.
Lemma fine_bind {A B} (m : SR A) (f : A -> SR B) : fine_run m -> (forall a w, m = Ok a w -> fine_run (f a)) -> fine_run (bind m f).
Proof. intros (a & w & E) H. destruct (H a w E) as (b & w' & E'). exists b, (w ++ w'). rewrite E. cbn [bind]. rewrite E'. reflexivity. Qed.
Lemma fine_warn {A} x (f : unit -> SR A) : fine_run (f tt) -> fine_run (bind (warn1 x) f).
Proof. intros H. apply fine_bind; [eexists _, _; reflexivity|]. intros [] _ _. exact H. Qed.

Section Total.
  Variable O : sopts.
  Lemma has_fine k v : is_object v -> fine_run (has k v).
  Proof. intros (r & d & ->). apply fine_ret. Qed.
  Lemma get_fine k df v : is_object v -> fine_run (get k df v).
  Proof. intros (r & d & ->). cbn. destruct (sget k d); apply fine_ret. Qed.
  Lemma idx_fine k v x : entry k v x -> idx k v = ret x.
  Proof. intros (r & d & -> & E). cbn. rewrite E. reflexivity. Qed.
  Lemma has_entry k v : is_object v -> exists b, has k v = ret b /\ (b = true <-> exists x, entry k v x).
  Proof. intros (r & d & ->). eexists. split; [reflexivity|]. unfold shas, ahas. change (aget str_eqb k d) with (sget k d). destruct (sget k d) eqn:E; split; try discriminate; auto; [intros _; exists s, r, d; auto|]. intros (x & r' & d' & [= <- <-] & Q). congruence. Qed.
  Lemma type_set_fine v : is_object v -> types_listed v -> type_set v = ret (types v).
  Proof.
    intros (r & d & ->) T. unfold type_set, types, get. destruct (sget (u "type") d) as [x|] eqn:E; [|reflexivity]. rewrite bind_ret_l.
    destruct (T x) as [(s & ->)|(l & -> & H)]; [exists r, d; auto|reflexivity|].
    assert (F : forallb vhashable l = true) by (apply forallb_forall; intros y Hy; destruct (H y Hy) as (s & ->); reflexivity). rewrite F. reflexivity.
  Qed.
  Lemma title_fine v : is_object v -> text_title v -> exists raw, raw_title v = ret raw /\ title_text raw = ret (title_of v) /\ forall lk st, fine_run (child_table O lk raw st).
  Proof.
    intros (r & d & ->) T. unfold raw_title, text_title, own_title, title_of in *.
    assert (Q : exists raw, raw_title (VO r d) = ret raw /\ (own_title (VO r d) = Some raw \/ own_title (VO r d) = None /\ raw = VS SNone)).
    { unfold raw_title, own_title. destruct r as [r|]; [destruct (sget (u "title") r); [eauto|]|]; unfold get; destruct (sget (u "title") d); eauto. }
    destruct Q as (raw & E1 & E2). exists raw. split; [exact E1|]. fold (own_title (VO r d)) in *. destruct E2 as [E2|[E2 ->]]; rewrite E2 in *.
    - destruct (T raw eq_refl) as [-> |(t & ->)]; (split; [destruct t + idtac; reflexivity|]); intros lk st; apply fine_ret.
    - split; [reflexivity|]. intros; apply fine_ret.
  Qed.
  Lemma sum_in {A} (f : A -> nat) l x : In x l -> (f x <= list_sum (map f l))%nat.
  Proof. induction l as [|y l IH]; [intros []|]. change (list_sum (map f (y :: l))) with (f y + list_sum (map f l))%nat. intros [-> |H]; [lia|]. specialize (IH H). lia. Qed.
  Lemma size_prop (ps : list (str * sv)) n v r : In (n, v) ps -> (sv_size v < sv_size (VO r ps))%nat.
  Proof. intros H. cbn [sv_size]. pose proof (sum_in (fun kv : str * sv => sv_size (snd kv)) ps (n, v) H) as Q. cbn [snd] in Q. lia. Qed.
  Lemma size_entry k v x : entry k v x -> (sv_size x < sv_size v)%nat.
  Proof. intros (r & d & -> & E). apply (size_prop d k). apply sget_In. exact E. Qed.
  Lemma size_item l v : In v l -> (sv_size v < sv_size (VA l))%nat.
  Proof. intros H. cbn [sv_size]. pose proof (sum_in sv_size l v H). lia. Qed.

  Definition emits {X} (emit : emit_t X) : Prop := forall x f t st, fine_run (emit x f t st).
  Definition rec_fine (n : nat) (rec : parser) : Prop := forall X (emit : emit_t X), emits emit -> forall x pp v ids lk pt st,
    fine O v -> typed (u "object") v -> (sv_size v < n)%nat -> fine_run (rec X emit x pp v ids lk pt st).

  Section Step.
    Variable n : nat.
    Variable rec : parser.
    Hypothesis Hrec : rec_fine n rec.
    Context {X : Type}.
    Variable emit : emit_t X.
    Hypothesis He : emits emit.
    Variables (pp : str) (ids : list str) (lk : nat) (pt : option str).

    Lemma object_fine name v raw title x st : is_object v -> typed (u "object") v -> (forall p, entry (u "properties") v p -> is_object p) -> (an_object O v -> fine O v) ->
      (forall st, fine_run (child_table O lk raw st)) -> (sv_size v < n)%nat -> fine_run (parse_object O rec emit pp ids lk pt name v raw title x st).
    Proof.
      intros Hv Ty Hp Hf Hc Hs. unfold parse_object. apply fine_bind.
      - destruct (so_wkt O); [|apply fine_ret]. apply fine_bind; [apply get_fine; exact Hv|]. intros p w Ep. destruct (get_ok _ _ _ _ _ Ep) as (_ & r & d & -> & Q).
        assert (Op : is_object p) by (destruct Q as [Q|[_ ->]]; [apply Hp; exists r, d; auto|eexists _, _; reflexivity]).
        apply fine_bind; [apply has_fine; exact Op|]. intros a _ _. destruct a; [apply has_fine; exact Op|apply fine_ret].
      - intros g w Eg. destruct (geo_run O v g w Eg) as [_ G]. destruct g; [apply He|]. apply fine_bind; [apply Hc|]. intros child w' _. apply Hrec; auto.
        + intros x0 f t st0. apply He.
        + apply Hf. split; [exact Ty|]. intros Q. apply G in Q. discriminate.
    Qed.
    Lemma missed_fine rolled l : (forall y, In y l -> exists t, y = VS (SStr t)) -> fine_run (missed rolled (VA l)).
    Proof.
      intros H. unfold missed. cbn [iter_of bind ret].
      assert (F1 : forallb vhashable l = true) by (apply forallb_forall; intros y Hy; destruct (H y Hy) as (t & ->); reflexivity). rewrite F1. cbn [negb].
      match goal with |- fine_run (match (if forallb ?f ?g then _ else _) with _ => _ end) => assert (F2 : forallb f g = true) end.
      { apply forallb_forall. intros y Hy. apply filter_In in Hy as [Hy _]. destruct (H y Hy) as (t & ->). reflexivity. }
      rewrite F2. eexists _, _. reflexivity.
    Qed.
    Lemma objects_fine name v raw title x st i : is_object v -> objects v i -> fine O i -> (forall st, fine_run (child_table O lk raw st)) ->
      (forall y, entry (u "rollUp") v y -> exists l, y = VA l /\ forall z, In z l -> exists t, z = VS (SStr t)) -> (sv_size v < n)%nat ->
      fine_run (parse_objects O rec emit pp ids lk pt name v raw title x st).
    Proof.
      intros Hv Ob Hf Hc Hr Hs. unfold parse_objects. cbv zeta. apply fine_bind; [apply Hc|]. intros child w _.
      rewrite (idx_fine _ _ _ (proj2 (proj2 (proj1 Ob)))). rewrite bind_ret_l.
      destruct (has_entry (u "rollUp") v Hv) as (b & Eb & Hb).
      apply fine_bind.
      - apply Hrec; [|exact Hf|exact (proj1 (proj2 Ob))|pose proof (size_entry _ _ _ (proj2 (proj2 (proj1 Ob)))); lia].
        intros [x0 rolled] f t st0. apply fine_bind.
        + destruct (so_titles O); [|apply fine_ret]. destruct t as [t|]; [destruct pt as [p|]; [destruct title as [tt|]|]|]; try apply fine_ret; apply fine_warn, fine_ret.
        + intros st1 w1 _. apply fine_bind.
          * destruct (so_rollup O); [|apply fine_ret]. rewrite Eb. rewrite bind_ret_l. destruct b; [|apply fine_ret].
            destruct (proj1 Hb eq_refl) as (y & Ey). rewrite (idx_fine _ _ _ Ey). rewrite bind_ret_l. destruct (Hr y Ey) as (l & -> & _). apply fine_ret.
          * intros up w2 _. destruct up; [|apply fine_ret]. apply fine_bind; [apply He|]. intros [x1 st2] w3 _. apply fine_ret.
      - intros [[x1 rolled] st1] w1 _. apply fine_bind; [|intros; apply fine_ret].
        destruct (so_rollup O); [|apply fine_ret]. rewrite Eb. rewrite bind_ret_l. destruct b; [|apply fine_ret].
        destruct (proj1 Hb eq_refl) as (y & Ey). rewrite (idx_fine _ _ _ Ey). rewrite bind_ret_l. destruct (Hr y Ey) as (l & -> & Hl).
        apply fine_bind; [apply missed_fine; exact Hl|]. intros m w4 _. destruct m; [apply fine_ret|eexists _, _; reflexivity].
    Qed.
    Lemma array_fine name v raw title x st : is_object v -> ~ typed (u "object") v -> typed (u "array") v -> (forall st, fine_run (child_table O lk raw st)) ->
      (exists i, entry (u "items") v i /\ is_object i /\ types_listed i /\
         ((exists ty, leaf O v ty) /\ (forall j, entry (u "items") i j -> is_object j /\ types_listed j) \/ (objects v i /\ fine O i))) ->
      (forall y, entry (u "rollUp") v y -> exists l, y = VA l /\ forall z, In z l -> exists t, z = VS (SStr t)) -> (sv_size v < n)%nat ->
      fine_run (parse_array O rec emit pp ids lk pt name v raw title x st).
    Proof.
      intros Hv No Ta Hc (i & Ei & Oi & Ti & H) Hr Hs. unfold parse_array. cbv zeta. rewrite (idx_fine _ _ _ Ei). rewrite bind_ret_l.
      rewrite (type_set_fine i Oi Ti). rewrite bind_ret_l.
      destruct (inset (u "string") (types i) || isnil (types i)) eqn:E1; [apply He|]. destruct (inset (u "number") (types i)) eqn:E2; [apply He|].
      apply orb_false_iff in E1 as [E1 E1']. apply inset_not in E1, E2.
      assert (Nn : types i <> []) by (intros Q; rewrite Q in E1'; discriminate).
      destruct (inset (u "array") (types i)) eqn:E3.
      - apply inset_typed in E3. destruct H as [[(ty & L) Hj]|[(_ & _ & _ & _ & Q) _]]; [|contradiction].
        assert (Q : exists j, entry (u "items") i j /\ (typed (u "string") j \/ typed (u "number") j)).
        { destruct L as [A _|j (_ & _ & Ej) [A|A]|j (_ & _ & Ej) _ A|j j2 (_ & _ & Ej) _ _ A B C|_ A|_ A|_ A|_ A|_ A]; try contradiction; pose proof (entry_fun _ _ _ _ Ei Ej) as <-; try contradiction. eauto. }
        destruct Q as (j & Ej & Tj). rewrite (idx_fine _ _ _ Ej). rewrite bind_ret_l.
        destruct (Hj j Ej) as (Oj & Lj). rewrite (type_set_fine j Oj Lj). rewrite bind_ret_l.
        assert (Q : inset (u "string") (types j) || inset (u "number") (types j) = true) by (apply orb_true_iff; rewrite !inset_typed; exact Tj). rewrite Q. apply He.
      - apply inset_not in E3. destruct H as [[(ty & L) _]|[Ob Fi]].
        + exfalso. destruct L as [A _|j (_ & _ & Ej) [A|A]|j (_ & _ & Ej) _ A|j j2 (_ & _ & Ej) _ _ A B C|_ A|_ A|_ A|_ A|_ A]; try contradiction; pose proof (entry_fun _ _ _ _ Ei Ej) as <-; contradiction.
        + rewrite (proj2 (inset_typed (u "object") i) (proj1 (proj2 Ob))). apply (objects_fine name v raw title x _ i); auto.
    Qed.
    Lemma prop_fine name v x st : is_object v -> (left_in O v -> fine_property O v) -> (sv_size v < n)%nat -> fine_run (parse_prop O rec emit pp ids lk pt name v x st).
    Proof.
      intros Hv Hf Hs. unfold parse_prop. apply fine_bind.
      - unfold deprecated. destruct (so_nodep O); [|apply fine_ret]. apply fine_bind; [apply get_fine; exact Hv|]. intros a w _. destruct (negb (vfalsy a)); [apply fine_ret|]. destruct v as [|?|[r|] d]; apply fine_ret.
      - intros skip w Es. destruct (deprecated_ok O v skip w Es) as [_ Hd]. destruct skip; [apply fine_ret|].
        assert (Fp : fine_property O v) by (apply Hf; intros Q1 Q2; assert (Q : false = true) by (apply Hd; auto); discriminate).
        destruct Fp as [v Tl Tt Fo Fa Fr]. rewrite (type_set_fine v Hv Tl). rewrite bind_ret_l.
        destruct (title_fine v Hv Tt) as (raw & E1 & E2 & E3). rewrite E1. rewrite bind_ret_l.
        rewrite E2. rewrite bind_ret_l. cbv zeta.
        destruct (inset (u "object") (types v)) eqn:To; [apply inset_typed in To; destruct (Fo To) as [Fo1 Fo2]; apply object_fine; auto|]. apply inset_not in To.
        destruct (inset (u "array") (types v)) eqn:Ta; [apply inset_typed in Ta; apply array_fine; auto|].
        destruct (inset (u "string") (types v) || isnil (types v)); [apply fine_bind; [apply get_fine; exact Hv|]; intros; apply He|].
        destruct (inset (u "number") (types v)); [apply He|]. destruct (inset (u "integer") (types v)); [apply He|]. destruct (inset (u "boolean") (types v)); [apply He|].
        apply fine_warn, fine_ret.
    Qed.
    Lemma props_fine l : (forall m w, In (m, w) l -> is_object w /\ (left_in O w -> fine_property O w) /\ (sv_size w < n)%nat) -> forall x st, fine_run (parse_props O rec emit pp ids lk pt l x st).
    Proof.
      induction l as [|[m w] l IH]; intros H x st; cbn [parse_props]; [apply fine_ret|]. destruct (H m w (or_introl eq_refl)) as (H1 & H2 & H3).
      apply fine_bind; [apply prop_fine; assumption|]. intros [x1 st1] w' _. apply IH. intros m' w'' Hm. apply (H m'). right. exact Hm.
    Qed.
    Lemma alts_fine l : (forall v, In v l -> is_object v /\ (entry (u "type") v (VS (SStr (u "object"))) -> fine O v) /\ (sv_size v < n)%nat) ->
      forall x st, fine_run (parse_alts rec emit pp ids lk pt l x st).
    Proof.
      induction l as [|v l IH]; intros H x st; cbn [parse_alts]; [apply fine_ret|]. destruct (H v (or_introl eq_refl)) as (H1 & H2 & H3).
      destruct (has_entry (u "type") v H1) as (b & Eb & Hb). rewrite Eb. apply fine_bind.
      - rewrite bind_ret_l. destruct b; [|apply fine_ret]. destruct (proj1 Hb eq_refl) as (y & Ey). rewrite (idx_fine _ _ _ Ey). eexists _, _. reflexivity.
      - intros b' w' E'. apply fine_bind.
        + destruct b'; [|apply fine_ret]. cbn [bind ret app] in E'. destruct b; [|discriminate E']. destruct (proj1 Hb eq_refl) as (y & Ey). rewrite (idx_fine _ _ _ Ey) in E'. cbn [bind ret app] in E'.
          injection E' as E' _. apply is_str_true in E' as ->. apply Hrec; [exact He|apply H2; exact Ey| |exact H3]. destruct Ey as (r & d & -> & Ey). unfold typed, types. rewrite Ey. left. reflexivity.
        + intros [x1 st1] w1 _. apply IH. intros v' Hv. apply H. right. exact Hv.
    Qed.
  End Step.

  Lemma id_fields_fine ppath ids pt r ps : (forall i, sget (u "id") ps = Some i -> exists r' e, i = VO r' e /\ forall x, sget (u "title") e = Some x -> x = VS SNone \/ exists t, x = VS (SStr t)) ->
    fine_run (id_fields O ppath ids pt (VO r ps)).
  Proof.
    intros H. unfold id_fields. cbn [has bind ret]. unfold shas, ahas. change (aget str_eqb (u "id") ps) with (sget (u "id") ps). destruct (sget (u "id") ps) as [i|] eqn:E; [|eexists _, _; reflexivity].
    destruct (so_titles O); [|eexists _, _; reflexivity]. cbn [idx]. rewrite E. destruct (H i eq_refl) as (r' & e & -> & Ht). cbn [bind ret get]. destruct (sget (u "title") e) as [x|] eqn:Et; [|eexists _, _; reflexivity].
    destruct (Ht x eq_refl) as [-> |(t & ->)]; [eexists _, _; reflexivity|]. cbn [bind ret app]. destruct t; eexists _, _; reflexivity.
  Qed.
  Lemma has_alts_fine v : is_object v -> (forall i, entry (u "items") v i -> is_object i) \/ typed (u "object") v -> exists b, has_alts v = ret b /\ (b = true <-> exists o, alternatives v o).
  Proof.
    intros Hv Hi. unfold has_alts. destruct (has_entry (u "type") v Hv) as (b1 & E1 & H1). rewrite E1. cbn [bind ret]. destruct b1.
    2:{ exists false. split; [reflexivity|]. split; [discriminate|]. intros (o & i & Et & _). apply H1. eauto. }
    destruct (proj1 H1 eq_refl) as (t & Et). rewrite (idx_fine _ _ _ Et). cbn [bind ret app]. destruct (is_str (u "array") t) eqn:Es.
    2:{ exists false. split; [reflexivity|]. split; [discriminate|]. intros (o & i & Et' & _). pose proof (entry_fun _ _ _ _ Et Et') as ->. cbn in Es. discriminate. }
    apply is_str_true in Es as ->. destruct (has_entry (u "items") v Hv) as (b2 & E2 & H2). rewrite E2. cbn [bind ret app]. destruct b2.
    2:{ exists false. split; [reflexivity|]. split; [discriminate|]. intros (o & i & _ & Ei & _). apply H2. eauto. }
    destruct (proj1 H2 eq_refl) as (i & Ei). rewrite (idx_fine _ _ _ Ei). cbn [bind ret app].
    assert (Oi : is_object i). { destruct Hi as [Hi|Hi]; [apply Hi; exact Ei|]. exfalso. destruct Et as (r & d & -> & Et). unfold typed, types in Hi. rewrite Et in Hi. destruct Hi as [Hi|[]]. discriminate. }
    destruct (has_entry (u "oneOf") i Oi) as (b3 & E3 & H3). exists b3. rewrite E3. split; [reflexivity|]. rewrite H3. split.
    - intros (o & Eo). exists o, i. auto.
    - intros (o & i' & _ & Ei' & Eo). rewrite (entry_fun _ _ _ _ Ei' Ei) in Eo. eauto.
  Qed.
  (** below the alternatives *)
  Lemma dict_fine_plain n rec {X} (emit : emit_t X) pp v ids lk pt x st : rec_fine n rec -> emits emit -> fine O v -> (sv_size v <= n)%nat -> has_alts v = ret false ->
    fine_run (bind (has_alts v) (fun alts : bool => if alts then
        items <- idx (u "items") v ;; o <- idx (u "oneOf") items ;; l <- iter_of o ;;
        parse_alts rec emit pp ids lk pt l x st
      else
        p <- has (u "properties") v ;;
        if p : bool then
          props <- idx (u "properties") v ;;
          ids' <- id_fields O pp ids pt props ;;
          match props with
          | VO _ d => parse_props O rec emit pp ids' lk pt d x st
          | _ => Raise EAttributeError []
          end
        else _ <- warn1 (SNoProperties pp) ;; ret (x, st))).
  Proof.
    intros Hr He F Hs ->. destruct F as [v Hv Hp]. rewrite bind_ret_l.
    destruct (has_entry (u "properties") v Hv) as (b & Eb & Hb). rewrite Eb. rewrite bind_ret_l. destruct b; [|apply fine_warn, fine_ret].
    destruct (proj1 Hb eq_refl) as (p & Ep). rewrite (idx_fine _ _ _ Ep). rewrite bind_ret_l.
    destruct (Hp p Ep) as (r & ps & -> & H1 & H2). apply fine_bind; [apply id_fields_fine; exact H2|]. intros ids' w _. apply (props_fine n rec Hr emit He).
    intros m x0 Hm. destruct (H1 m x0 Hm) as [A B]. split; [exact A|]. split; [exact B|]. pose proof (size_prop ps m x0 r Hm). pose proof (size_entry _ _ _ Ep). lia.
  Qed.
  Lemma dict_fine n : rec_fine n (parse_dict O n).
  Proof.
    induction n as [|n IH]; intros X emit He x pp v ids lk pt st F Ty Hs; [lia|]. cbn [parse_dict].
    assert (Hv : is_object v) by (destruct F as [v Hv _]; exact Hv).
    destruct (has_alts_fine v Hv (or_intror Ty)) as (b & Eb & Hb).
    assert (b = false) as ->. { destruct b; [|reflexivity]. destruct (proj1 Hb eq_refl) as (o & A). destruct (typed_object_no_alts v Ty _ A). }
    apply (dict_fine_plain n (parse_dict O n) emit); auto. lia.
  Qed.
  Theorem schema_fine S : fine_schema O S -> exists st w, parse_schema O S = Ok st w.
  Proof.
    intros (Hv & H). assert (E : fine_run (parse_dict O (Datatypes.S (sv_size S)) unit (main_emit O) tt [] S [] 0 (Some []) sps_start)).
    { assert (He : emits (main_emit O)). { intros x f t st. unfold main_emit. destruct (so_titles O); [destruct t; [apply fine_ret|apply fine_warn, fine_ret]|apply fine_ret]. }
      pose proof (dict_fine (sv_size S)) as IH. cbn [parse_dict]. destruct H as [(NA & Hi & F)|(i & l & Ei & Oi & A & Hl)].
      - destruct (has_alts_fine S Hv (or_introl Hi)) as (b & Eb & Hb).
        assert (b = false) as ->. { destruct b; [|reflexivity]. destruct (proj1 Hb eq_refl) as (o & A). destruct (NA _ A). }
        apply (dict_fine_plain (sv_size S) (parse_dict O (sv_size S)) (main_emit O)); auto.
      - destruct (has_alts_fine S Hv) as (b & Eb & Hb); [left; intros j Ej; rewrite (entry_fun _ _ _ _ Ej Ei); exact Oi|].
        assert (b = true) as -> by (apply Hb; eauto). rewrite Eb. rewrite bind_ret_l.
        destruct A as (i' & _ & Ei' & Eo). rewrite (entry_fun _ _ _ _ Ei' Ei) in Eo. rewrite (idx_fine _ _ _ Ei). rewrite bind_ret_l.
        rewrite (idx_fine _ _ _ Eo). rewrite bind_ret_l. cbn [iter_of]. rewrite bind_ret_l.
        apply (alts_fine (sv_size S) (parse_dict O (sv_size S)) IH (main_emit O) He). intros v Hin. destruct (Hl v Hin) as [H1 H2]. split; [exact H1|]. split; [exact H2|].
        pose proof (size_item l v Hin). pose proof (size_entry _ _ _ Eo). pose proof (size_entry _ _ _ Ei). lia. }
    destruct E as (a & w & E). unfold parse_schema. rewrite E. eexists _, _. reflexivity.
  Qed.
End Total.
