(** The titles the schema parser records. *)
From Verif.Base Require Import PyStr PyNum PyVal PyDict Outcome.
From Verif.Model Require Import Flatten Titles Schema.
From Verif.Spec Require Import Headings Flat SchemaFields SchemaTitled.
From Verif.Proofs Require Import SchemaTrace SchemaRun SchemaColumns SchemaState SchemaReady.
Local Open Scope res_scope.

(** ** parts of a path *)
Definition part_ok (x : str) : Prop := ~ In 47%N x /\ x <> u "0".
Definition unnumbered (k : str) : Prop := exists l, l <> [] /\ Forall part_ok l /\ k = join [47%N] l.
Lemma split_zero a f : In (u "0") (tl (split_on 47%N (a ++ u "/0/" ++ f))).
Proof.
  induction a as [|x a IH].
  - change (tl (split_on 47%N ([] ++ u "/0/" ++ f))) with (split_on 47%N ([48%N] ++ 47%N :: f)). rewrite split_on_app; [left; reflexivity|]. intros [H|[]]. discriminate H.
  - cbn [app split_on]. destruct (x =? 47)%N.
    + cbn [tl]. destruct (split_on 47 (a ++ u "/0/" ++ f)); [destruct IH|right; exact IH].
    + destruct (split_on 47 (a ++ u "/0/" ++ f)) as [|h t]; exact IH.
Qed.
Lemma unnumbered_zero a f : ~ unnumbered (a ++ u "/0/" ++ f).
Proof.
  intros (l & Hl & F & E). pose proof (split_zero a f) as H. rewrite E in H. rewrite split_join in H; [|exact Hl|intros x Hx; rewrite Forall_forall in F; apply (F x Hx)].
  assert (Q : In (u "0") l) by (destruct l; [destruct H|right; exact H]). rewrite Forall_forall in F. destruct (F _ Q) as [_ N]. exact (N eq_refl).
Qed.
Lemma lstrip_In p s x : In x (lstrip p s) -> In x s.
Proof. induction s as [|y s IH]; cbn; [auto|]. destruct (p y); [auto|]. intros [<-|H]; auto. Qed.
Lemma strip_In p s x : In x (strip p s) -> In x s.
Proof. unfold strip, rstrip. intros H. apply in_rev in H. apply lstrip_In in H. apply in_rev in H. apply lstrip_In in H. exact H. Qed.
Lemma word_part t : word t -> part_ok t /\ part_ok (strip_spaces t).
Proof.
  intros (A & _ & B). split; split.
  - exact A.
  - intros ->. apply B. reflexivity.
  - intros H. apply strip_In in H. exact (A H).
  - exact B.
Qed.
Lemma join_cons x l : l <> [] -> join [47%N] (x :: l) = x ++ [47%N] ++ join [47%N] l.
Proof. destruct l; [congruence|reflexivity]. Qed.

Definition table_ok (D : str -> Prop) (T : table) : Prop := Forall (fun x => tn_name x = [] \/ D (tn_name x)) T.
Lemma node_ok T j : table_ok part_ok T -> part_ok (tn_name (t_node T j)).
Proof.
  intros F. assert (E : part_ok []) by (split; [intros []|discriminate]). unfold t_node. destruct (nth_in_or_default j T tn_empty) as [H|H].
  - unfold table_ok in F. rewrite Forall_forall in F. destruct (F _ H) as [Q|Q]; [rewrite Q; exact E|exact Q].
  - rewrite H. exact E.
Qed.
Lemma lookup_unnumbered lw T l : table_ok part_ok T -> Forall word l -> l <> [] -> forall i, unnumbered (lookup_list lw T i l).
Proof.
  intros F W. induction W as [|x l Wx W IH]; intros Hl i; [congruence|]. cbn [lookup_list].
  assert (C : forall y j, part_ok y -> unnumbered (y ++ match l with [] => [] | _ => [47%N] ++ lookup_list lw T j l end)).
  { intros y j Hy. destruct l as [|z l]; [exists [y]; split; [discriminate|]; split; [constructor; auto|rewrite app_nil_r; reflexivity]|].
    destruct (IH ltac:(discriminate) j) as (o & Ho & Fo & ->). exists (y :: o). split; [discriminate|]. split; [constructor; auto|]. rewrite join_cons by exact Ho. reflexivity. }
  destruct (parse_int x); [apply C, word_part, Wx|]. destruct (t_find lw T i x); [apply C, node_ok, F|].
  exists (map strip_spaces (x :: l)). split; [discriminate|]. split; [|reflexivity]. apply Forall_map. eapply Forall_impl; [|constructor; [exact Wx|exact W]]. intros a Wa. apply word_part. exact Wa.
Qed.

(** ** id columns *)
Definition prefix (ts : list str) : str := flat_map (fun t => t ++ u ":") ts.
Definition worded_id (c : str) : Prop := exists ts t, Forall word ts /\ word t /\ c = prefix ts ++ t.
Lemma split_prefix ts t : Forall word ts -> word t -> split_on colon (prefix ts ++ t) = ts ++ [t].
Proof.
  intros F W. induction F as [|x ts Wx F IH]; [apply split_on_no_sep; apply W|]. cbn [prefix flat_map]. fold (prefix ts). rewrite <- !app_assoc.
  change (x ++ u ":" ++ prefix ts ++ t) with (x ++ colon :: (prefix ts ++ t)). rewrite split_on_app by apply Wx. rewrite IH. reflexivity.
Qed.
Lemma id_unnumbered lw T i c : table_ok part_ok T -> worded_id c -> unnumbered (lookup_header lw T i c).
Proof.
  intros F (ts & t & A & B & ->). unfold lookup_header. rewrite split_prefix by assumption. apply lookup_unnumbered; [exact F| |destruct ts; discriminate].
  apply Forall_app. auto.
Qed.

Section Titled.
  Variable (O : sopts) (D : str -> Prop).

  (** ** the names in the title tables *)
  Definition names_ok (a : act) : Prop := match a with ATitle _ _ n => D n | _ => True end.
  Definition below_ok (v : sv) : Prop := forall T n w, within O v T -> property O T n w -> D n.
  Definition prop_ok (n : str) (v : sv) : Prop := D n /\ (an_object O v -> below_ok v) /\ (forall i, objects v i -> below_ok i).
  Lemma below_prop v n w : below_ok v -> property O v n w -> prop_ok n w.
  Proof.
    intros B Pr. split; [exact (B v n w (within_here O v) Pr)|]. split.
    - intros Ob T m x W. apply (B T m x). eapply within_object; eauto.
    - intros i Ob T m x W. apply (B T m x). eapply within_array; eauto.
  Qed.
  Lemma ok_table lk t n : D n -> Forall names_ok (in_table lk t n).
  Proof. intros H. destruct t; repeat constructor; apply H. Qed.
  Lemma ok_object n t tr : Forall names_ok tr -> Forall names_ok (flat_map (lift_object n t) tr).
  Proof. intros F. apply Forall_flat_map. eapply Forall_impl; [|exact F]. intros a Ha. destruct a; constructor; (exact Ha || exact I || constructor). Qed.
  Lemma ok_objects sn pp n pt t up tr : Forall names_ok tr -> Forall names_ok (flat_map (lift_objects O sn pp n pt t up) tr).
  Proof.
    intros F. apply Forall_flat_map. eapply Forall_impl; [|exact F]. intros a Ha. destruct a; try (constructor; (exact Ha || exact I || constructor)).
    cbn [lift_objects]. apply Forall_app. split.
    - unfold sub_col. destruct (so_titles O); [destruct t0; [destruct pt; [destruct t|]|]|]; repeat constructor.
    - unfold roll_act. destruct (up f); repeat constructor.
  Qed.
  Lemma trace_names :
    (forall pp ids pt lk k v tr, dict_tr O pp ids pt lk k v tr -> (forall R, top v R -> below_ok R) -> Forall names_ok tr) /\
    (forall pp ids pt lk k l tr, alts_tr O pp ids pt lk k l tr -> (forall v, In v l -> entry (u "type") v (VS (SStr (u "object"))) -> below_ok v) -> Forall names_ok tr) /\
    (forall pp ids pt lk k l tr, props_tr O pp ids pt lk k l tr -> (forall n v, In (n, v) l -> kept O v -> prop_ok n v) -> Forall names_ok tr) /\
    (forall pp ids pt lk k n v tr, prop_tr O pp ids pt lk k n v tr -> (kept O v -> prop_ok n v) -> Forall names_ok tr).
  Proof.
    assert (Tobj : forall v, typed (u "object") v -> top v v) by (intros v Ty; right; split; [apply typed_object_no_alts; exact Ty|reflexivity]).
    assert (Tone : forall v R, typed (u "object") v -> top v R -> R = v) by (intros v R Ty [(l & A & _)|[_ E]]; [destruct (typed_object_no_alts v Ty _ A)|exact E]).
    apply trace_ind.
    - intros pp ids pt lk k v l tr A _ IH H. apply IH. intros x Hx Ex. apply H. left. exists l. auto.
    - constructor.
    - intros pp ids pt lk k v r d tr NA Ep _ IH H. apply IH. intros n w Hin Hk. apply (below_prop v); [apply H; right; auto|]. exists r, d. auto.
    - constructor.
    - constructor.
    - intros pp ids pt lk k v l tr _ _ IH H. apply IH. intros x Hx. apply H. right. exact Hx.
    - intros pp ids pt lk k v l t1 t2 E _ IH1 _ IH2 H.
      assert (Ty : typed (u "object") v) by (destruct E as (r & d & -> & E); unfold typed, types; rewrite E; left; reflexivity).
      apply Forall_app. split; [apply IH1; intros R HR; rewrite (Tone v R Ty HR); apply H; [left; reflexivity|exact E]|apply IH2; intros x Hx; apply H; right; exact Hx].
    - constructor.
    - intros pp ids pt lk k n v l t1 t2 _ IH1 _ IH2 H. apply Forall_app. split; [apply IH1; apply H; left; reflexivity|apply IH2; intros m w Hm; apply H; right; exact Hm].
    - constructor.
    - intros pp ids pt lk k n v Hk _ _ _ H. apply ok_table. apply H. exact Hk.
    - intros pp ids pt lk k n v ty pre Hk _ Hp H. apply Forall_app. split; [apply ok_table; apply H; exact Hk|]. apply Forall_app. split; [destruct Hp as [-> | ->]; repeat constructor|repeat constructor].
    - intros pp ids pt lk k n v child tr Hk Ob _ _ IH H. destruct (H Hk) as (Hn & H1 & _). apply Forall_app. split; [apply ok_table; exact Hn|]. constructor; [exact I|]. apply ok_object. apply IH.
      intros R HR. rewrite (Tone v R (proj1 Ob) HR). apply H1. exact Ob.
    - intros pp ids pt lk k n v i child up sn tr Hk Ob _ _ _ _ IH H. destruct (H Hk) as (Hn & _ & H1). apply Forall_app. split; [apply ok_table; exact Hn|]. constructor; [exact I|].
      apply Forall_app. split; [destruct (so_titles O); [destruct pt|]; repeat constructor|]. constructor; [exact I|]. apply Forall_app. split; [apply Forall_map, Forall_forall; intros; exact I|].
      apply ok_objects. apply IH. intros R HR. rewrite (Tone i R (proj1 (proj2 Ob)) HR). apply H1. exact Ob.
  Qed.

  (** ** what the actions leave in the titles *)
  Definition has_title (st : sps) (sn k t : str) : Prop := sheet_with st sn (fun s => sget k (sh_titles s) = Some t).
  Lemma add_col_titles c s : sh_titles (add_col c s) = sh_titles s.
  Proof. unfold add_col. destruct (str_mem _ _); reflexivity. Qed.
  Lemma add_idcol_titles c s : sh_titles (add_idcol c s) = sh_titles s.
  Proof. unfold add_idcol. destruct (str_mem _ _); reflexivity. Qed.
  Definition sets (a : act) (T : table) (sn k t : str) : Prop :=
    a = ACol sn t (Some k) \/ exists lk, a = AId sn t lk /\ k = lookup_header (so_lower O) T lk t.
  Lemma title_on sn0 k0 t0 f st sn k t : (forall s, sh_titles (f s) = sset k0 t0 (sh_titles s)) -> made st sn0 ->
    (has_title (on_sub sn0 f st) sn k t -> has_title st sn k t \/ (sn = sn0 /\ k = k0 /\ t = t0)) /\
    ((exists t', has_title st sn k t') \/ (sn = sn0 /\ k = k0) -> exists t', has_title (on_sub sn0 f st) sn k t').
  Proof.
    intros Hf (s & Hs & _). unfold has_title, sheet_with. rewrite on_sub_get. destruct (str_eqb_spec sn0 sn) as [<-|N].
    - rewrite Hs. cbn. split.
      + intros (s' & [= <-] & H). rewrite Hf in H. destruct (list_eq_dec N.eq_dec k k0) as [->|Nk]; [rewrite sget_sset_eq in H; injection H as <-; right; auto|].
        rewrite sget_sset_neq in H by exact Nk. left. exists s. auto.
      + intros H. destruct (list_eq_dec N.eq_dec k k0) as [->|Nk]; [exists t0, (f s); split; [reflexivity|]; rewrite Hf; apply sget_sset_eq|].
        destruct H as [(t' & s' & [= <-] & H)|[_ H]]; [|contradiction]. exists t', (f s). split; [reflexivity|]. rewrite Hf, sget_sset_neq by exact Nk. exact H.
    - split; [auto|]. intros [H|[H _]]; [exact H|congruence].
  Qed.
  Lemma do_act_title a st sn k t : (match a with AId sn _ _ | ACol sn _ _ => made st sn | _ => True end) ->
    (has_title (do_act O a st) sn k t -> has_title st sn k t \/ sets a (sp_table st) sn k t) /\
    ((exists t', has_title st sn k t') \/ (exists t', sets a (sp_table st) sn k t') -> exists t', has_title (do_act O a st) sn k t').
  Proof.
    intros M. unfold sets. destruct a; cbn [do_act];
      try (split; [auto|intros [H|(t' & [H|(lk' & H & _)])]; [exact H|discriminate H|discriminate H]]).
    - unfold has_title, sheet_with, upd_subs, shas, ahas. cbn. change (aget str_eqb sn0 (sp_subs st)) with (sget sn0 (sp_subs st)).
      destruct (sget sn0 (sp_subs st)) eqn:E; [split; [auto|intros [H|(t' & [H|(lk' & H & _)])]; [exact H|discriminate H|discriminate H]]|].
      destruct (str_eqb_spec sn0 sn) as [<-|N].
      + rewrite sget_sset_eq, E. split; [intros (s & [= <-] & H); discriminate H|intros [(t' & s & H & _)|(t' & [H|(lk' & H & _)])]; discriminate H].
      + rewrite sget_sset_neq by congruence. split; [auto|intros [H|(t' & [H|(lk' & H & _)])]; [exact H|discriminate H|discriminate H]].
    - destruct (title_on sn0 (lookup_header (so_lower O) (sp_table st) lk f) f (fun s => set_title (lookup_header (so_lower O) (sp_table st) lk f) f (add_idcol f s)) st sn k t) as [A B].
      { intros s. cbn. rewrite add_idcol_titles. reflexivity. } { exact M. }
      split.
      + intros H. destruct (A H) as [Q|(-> & -> & ->)]; [auto|]. right. right. exists lk. auto.
      + intros [H|(t' & [H|(lk' & [= -> -> ->] & ->)])]; [apply B; auto|discriminate H|apply B; auto].
    - destruct title as [full|].
      + destruct (title_on sn0 full c (fun s => set_title full c (add_col c s)) st sn k t) as [A B].
        { intros s. cbn. rewrite add_col_titles. reflexivity. } { exact M. }
        split.
        * intros H. destruct (A H) as [Q|(-> & -> & ->)]; auto.
        * intros [H|(t' & [[= -> -> ->]|(lk' & H & _)])]; [apply B; auto|apply B; auto|discriminate H].
      + assert (E : forall k t, has_title (on_sub sn0 (add_col c) st) sn k t <-> has_title st sn k t).
        { intros k' t''. unfold has_title. apply on_sub_with; [|tauto]. intros s _ _. rewrite add_col_titles. reflexivity. }
        split; [intros H; left; apply E; exact H|]. intros [(t' & H)|(t' & [H|(lk' & H & _)])]; [exists t'; apply E; exact H|discriminate H|discriminate H].
  Qed.
  Definition has_main (st : sps) (k t : str) : Prop := sget k (sh_titles (sp_main st)) = Some t.
  Definition has_sheet (st : sps) (k : str * str) (sn : str) : Prop := aget pair_eqb k (sp_sub_titles st) = Some sn.
  Lemma pair_eqb_eq a b : pair_eqb a b = true <-> a = b.
  Proof.
    destruct a as [a1 a2], b as [b1 b2]. unfold pair_eqb. cbn. rewrite andb_true_iff, !str_eqb_eq. split; [intros [-> ->]; reflexivity|intros [= -> ->]; auto].
  Qed.
  Lemma pair_set k v (d : list ((str * str) * str)) k' : aget pair_eqb k' (aset pair_eqb k v d) = if pair_eqb k' k then Some v else aget pair_eqb k' d.
  Proof.
    induction d as [|[a b] d IH]; cbn; [reflexivity|]. destruct (pair_eqb k a) eqn:E; cbn.
    - apply pair_eqb_eq in E as <-. destruct (pair_eqb k' k); reflexivity.
    - destruct (pair_eqb k' a) eqn:E1; [|exact IH]. apply pair_eqb_eq in E1 as <-. destruct (pair_eqb k' k) eqn:E2; [|reflexivity].
      apply pair_eqb_eq in E2 as <-. rewrite (proj2 (pair_eqb_eq k' k') eq_refl) in E. discriminate E.
  Qed.
  Lemma set_add_In x l y : In y (set_add x l) <-> In y l \/ y = x.
  Proof.
    unfold set_add. destruct (str_mem x l) eqn:E; [apply str_mem_In in E; split; [auto|intros [H| ->]; assumption]|].
    rewrite in_app_iff. cbn. split; [intros [H|[H|[]]]; auto|intros [H|H]; auto].
  Qed.
  Lemma table_update i f T : (forall x, tn_name (f x) = tn_name x) -> table_ok D T -> table_ok D (t_update i f T).
  Proof.
    intros Hf. revert i. induction T as [|x T IH]; intros i F; [destruct i; exact F|]. inversion F as [|? ? Fx FT]; subst. destruct i; cbn [t_update].
    - constructor; [rewrite Hf; exact Fx|exact FT].
    - constructor; [exact Fx|]. exact (IH i FT).
  Qed.
  Lemma do_act_table a st : names_ok a -> table_ok D (sp_table st) -> table_ok D (sp_table (do_act O a st)).
  Proof.
    intros N F. destruct a; cbn [do_act]; try exact F.
    - destruct title; exact F.
    - cbn. unfold t_add. apply Forall_app. split; [apply table_update; [reflexivity|exact F]|]. constructor; [right; exact N|constructor].
  Qed.

  Theorem runs_titles (C : Prop) tr : forall x st x' st' kn, runs O (main_emit O) tr x st x' st' -> good O st -> ordered kn tr -> (forall sn, In sn kn -> made st sn) ->
    (C -> Forall names_ok tr) -> (C -> table_ok D (sp_table st)) ->
    (forall sn k t, has_title st' sn k t -> has_title st sn k t \/ In (ACol sn t (Some k)) tr \/ exists lk T, In (AId sn t lk) tr /\ k = lookup_header (so_lower O) T lk t /\ (C -> table_ok D T)) /\
    (forall sn k, (exists t, has_title st sn k t) \/ (exists t, In (ACol sn t (Some k)) tr) -> exists t, has_title st' sn k t) /\
    (so_titles O = true -> forall k t, has_main st' k t -> has_main st k t \/ In (AYield k (Some t)) tr) /\
    (so_titles O = true -> forall k, (exists t, has_main st k t) \/ (exists t, In (AYield k (Some t)) tr) -> exists t, has_main st' k t) /\
    (forall k sn, has_sheet st' k sn -> has_sheet st k sn \/ In (ASubTitle k sn) tr) /\
    (forall k, (exists sn, has_sheet st k sn) \/ (exists sn, In (ASubTitle k sn) tr) -> exists sn, has_sheet st' k sn) /\
    (forall p, In p (sp_rollup st') <-> In p (sp_rollup st) \/ In (ARoll p) tr).
  Proof.
    induction tr as [|a tr IH]; intros x st x' st' kn H G Or Kn Fn Ft.
    - destruct H as [_ ->]. split; [auto|]. split; [intros sn k [H|(t & [])]; exact H|]. split; [auto|]. split; [intros _ k [H|(t & [])]; exact H|]. split; [auto|].
      split; [intros k [H|(t & [])]; exact H|]. intros p. cbn. tauto.
    - assert (Fa : C -> names_ok a) by (intros c; specialize (Fn c); inversion Fn; assumption). assert (Fr : C -> Forall names_ok tr) by (intros c; specialize (Fn c); inversion Fn; assumption). destruct (match a with AYield f t => true | _ => false end) eqn:Ea.
      + destruct a as [ | | | | | | |f t]; try discriminate. destruct H as (x1 & st1 & w & E & H). destruct (main_emit_ok O _ _ _ _ _ _ _ E) as (E1 & G1 & _).
        assert (E2 : sp_table st1 = sp_table st /\ sp_sub_titles st1 = sp_sub_titles st /\ sp_rollup st1 = sp_rollup st) by (unfold main_emit in E; destruct (so_titles O); [destruct t|]; injection E as _ <- _; auto).
        assert (E3 : so_titles O = true -> sh_titles (sp_main st1) = match t with Some t => sset f t (sh_titles (sp_main st)) | None => sh_titles (sp_main st) end).
        { intros Ht. unfold main_emit in E. rewrite Ht in E. destruct t; injection E as _ <- _; [|reflexivity]. cbn. rewrite add_col_titles. reflexivity. }
        destruct E2 as (E2 & E4 & E5).
        assert (Kn1 : forall sn, In sn kn -> made st1 sn) by (intros sn Hs; unfold made, sheet_with; rewrite E1; apply Kn; exact Hs).
        assert (Ft1 : C -> table_ok D (sp_table st1)) by (rewrite E2; exact Ft).
        destruct (IH _ _ _ _ _ H (G1 G) Or Kn1 Fr Ft1) as (I1 & I2 & I3 & I4 & I5 & I6 & I7). clear IH.
        unfold has_title, sheet_with, has_sheet, has_main in *. rewrite E1 in I1, I2. rewrite E4 in I5, I6. rewrite E5 in I7. cbn [In]. split; [|split; [|split; [|split; [|split; [|split]]]]].
        * intros sn k0 t0 Hh. destruct (I1 _ _ _ Hh) as [A|[A|(lk & T & A & B)]]; eauto 8.
        * intros sn k0 [A|(t0 & [A|A])]; [auto|discriminate|eauto].
        * intros Ht k0 t0 Hh. destruct (I3 Ht _ _ Hh) as [A|A]; [|auto]. rewrite (E3 Ht) in A. destruct t as [t|]; [|auto].
          destruct (list_eq_dec N.eq_dec k0 f) as [->|Nk]; [rewrite sget_sset_eq in A; injection A as <-; auto|]. rewrite sget_sset_neq in A by exact Nk. auto.
        * intros Ht k0 A. apply (I4 Ht). rewrite (E3 Ht). destruct A as [(t0 & A)|(t0 & [A|A])].
          -- left. destruct t as [t|]; [|eauto]. destruct (list_eq_dec N.eq_dec k0 f) as [->|Nk]; [eexists; apply sget_sset_eq|]. rewrite sget_sset_neq by exact Nk. eauto.
          -- injection A as <- ->. left. eexists. apply sget_sset_eq.
          -- eauto.
        * intros k0 sn Hh. destruct (I5 _ _ Hh); auto.
        * intros k0 [A|(sn & [A|A])]; [auto|discriminate|eauto].
        * intros p. rewrite I7. split; [tauto|intros [A|[A|A]]; [auto|discriminate|auto]].
      + assert (H' : runs O (main_emit O) tr x (do_act O a st) x' st') by (destruct a; try exact H; discriminate).
        set (kn' := match a with ASheet sn => sn :: kn | _ => kn end).
        assert (Or' : ordered kn' tr) by (destruct a; cbn in Or |- *; tauto).
        assert (Mk : match a with AId sn _ _ | ACol sn _ _ => made st sn | _ => True end) by (destruct a; try exact I; apply Kn; apply Or).
        assert (Kn' : forall sn, In sn kn' -> made (do_act O a st) sn).
        { intros sn Hs. apply do_act_made. unfold adds_sheet. destruct a; cbn [kn'] in Hs; try (left; apply Kn; exact Hs). destruct Hs as [<-|Hs]; [right; reflexivity|left; apply Kn; exact Hs]. }
        destruct (IH _ _ _ _ _ H' (do_act_good O a st G) Or' Kn' Fr (fun c => do_act_table a st (Fa c) (Ft c))) as (I1 & I2 & I3 & I4 & I5 & I6 & I7). clear IH.
        assert (Mn : forall k t, has_main (do_act O a st) k t <-> has_main st k t) by (intros; unfold has_main; rewrite do_act_main; reflexivity).
        cbn [In]. split; [|split; [|split; [|split; [|split; [|split]]]]].
        * intros sn k t Hh. destruct (I1 _ _ _ Hh) as [A|[A|(lk & T & A & B)]]; [|auto|eauto 8]. apply (do_act_title a st sn k t Mk) in A as [A|[A|(lk & A & B)]]; [auto|auto|]. right. right. exists lk, (sp_table st). auto.
        * intros sn k A. apply I2. destruct A as [A|(t & [A|A])]; [| |right; eauto].
          -- left. apply (do_act_title a st sn k [] Mk). auto.
          -- left. apply (do_act_title a st sn k [] Mk). right. exists t. left. exact A.
        * intros Ht k t Hh. destruct (I3 Ht _ _ Hh) as [A|A]; [apply Mn in A; auto|auto].
        * intros Ht k A. apply (I4 Ht). destruct A as [(t & A)|(t & [A|A])]; [left; exists t; apply Mn; exact A|rewrite A in Ea; discriminate|eauto].
        * intros k sn Hh. destruct (I5 _ _ Hh) as [A|A]; [|auto]. destruct a; try (left; exact A); try discriminate.
          -- unfold has_sheet in *. cbn [do_act upd_sub_titles sp_sub_titles] in A. rewrite pair_set in A. destruct (pair_eqb k k0) eqn:E; [|auto]. apply pair_eqb_eq in E as <-. injection A as <-. auto.
          -- left. unfold has_sheet in *. destruct title; exact A.
        * intros k A. apply I6. destruct A as [(sn & A)|(sn & [A|A])]; [| |right; eauto].
          -- left. unfold has_sheet in *. destruct a; try (exists sn; exact A); [|exists sn; destruct title; exact A]. cbn [do_act upd_sub_titles sp_sub_titles]. rewrite pair_set. destruct (pair_eqb k k0); eauto.
          -- left. rewrite A. exists sn. unfold has_sheet. cbn [do_act upd_sub_titles sp_sub_titles]. rewrite pair_set, (proj2 (pair_eqb_eq k k) eq_refl). reflexivity.
        * intros p. rewrite I7.
          assert (E : (exists q, a = ARoll q) \/ ((forall q, a <> ARoll q) /\ sp_rollup (do_act O a st) = sp_rollup st)) by (destruct a as [ | | |? ? [ | ] | | | | ]; try (right; split; [discriminate|reflexivity]); left; eauto).
          destruct E as [(q & ->)|[Na ->]]; [|split; [tauto|intros [A|[A|A]]; [auto|destruct (Na _ A)|auto]]].
          cbn [do_act upd_rollup sp_rollup]. rewrite set_add_In. split; [intros [[A| ->]|A]; auto|intros [A|[[= <-]|A]]; auto].
  Qed.
End Titled.

(** ** worded schemas *)
Section Worded.
  Variable (O : sopts) (S : sv).
  Hypothesis (W : worded O S) (Ht : so_titles O = true).

  Definition good_place (p : place) : Prop := (exists ts, Forall word ts /\ at_titles p = Some (prefix ts)) /\ Forall worded_id (at_ids p).
  Lemma word_id : word (u "id").
  Proof. split; [|split]; [intros [H|[H|[]]]; discriminate H|intros [H|[H|[]]]; discriminate H|discriminate]. Qed.
  Lemma good_ids R T p : top S R -> within O R T -> good_place p -> Forall worded_id (ids_at O T p).
  Proof.
    intros HR HT ((ts & Fw & Et) & Fi). unfold ids_at. destruct T as [| |r d]; try exact Fi. destruct (sget (u "properties") d) as [[| |r0 ps]|] eqn:Ep; try exact Fi.
    destruct (sget (u "id") ps) as [i|] eqn:Ei; [|exact Fi]. apply Forall_app. split; [exact Fi|]. constructor; [|constructor].
    assert (En : entry (u "properties") (VO r d) (VO r0 ps)) by (exists r, d; auto).
    destruct (W R (VO r d) r0 ps (u "id") i HR HT En (sget_In _ _ _ Ei)) as (_ & _ & _ & W1 & _).
    rewrite Ht, Et. exists ts. destruct i as [| |r1 e]; try (exists (u "id"); split; [exact Fw|]; split; [exact word_id|reflexivity]).
    destruct (sget (u "title") e) as [[[| | | | |s|]| |]|] eqn:Es; try (exists (u "id"); split; [exact Fw|]; split; [exact word_id|reflexivity]).
    destruct s as [|c t]; [exists (u "id"); split; [exact Fw|]; split; [exact word_id|reflexivity]|]. exists (c :: t). split; [exact Fw|]. split; [|reflexivity]. exact (W1 r1 e _ eq_refl Es).
  Qed.
  Lemma property_worded R T n v : top S R -> within O R T -> property O T n v ->
    part_ok n /\ (forall t, title_of v = Some t -> word t) /\ (an_object O v \/ (exists i, objects v i) -> title_of v <> None).
  Proof. intros HR HT (r & d & E & Hin & _). destruct (W R T r d n v HR HT E Hin) as (A & B & C & _ & D). split; [split; assumption|auto]. Qed.
  Lemma good_below R T p n v sep : top S R -> within O R T -> property O T n v -> an_object O v \/ (exists i, objects v i) -> good_place p -> good_place (below O T p n v sep).
  Proof.
    intros HR HT Pr Ob G. destruct (property_worded R T n v HR HT Pr) as (_ & Wt & Wn). specialize (Wn Ob). pose proof (good_ids R T p HR HT G) as Fi. destruct G as ((ts & Fw & Et) & _).
    split; [|exact Fi]. unfold below. cbn [at_titles]. rewrite Et. destruct (title_of v) as [t|]; [|congruence]. exists (ts ++ [t]). split; [apply Forall_app; auto|].
    unfold prefix. rewrite flat_map_app. cbn [flat_map]. rewrite app_nil_r. reflexivity.
  Qed.
  Lemma within_trans R T T' : within O R T -> within O T T' -> within O R T'.
  Proof. induction 1; intros H'; [exact H'|eapply within_object; eauto|eapply within_array; eauto]. Qed.
  Lemma good_at R T0 p T q : top S R -> objects_at O T0 p T q -> within O R T0 -> good_place p -> good_place q.
  Proof.
    intros HR. induction 1 as [T0 p|T0 p n v T q Pr Ob A IH|T0 p n v i T q Pr Ob A IH]; intros Hw G; [exact G| |].
    - apply IH; [eapply within_trans; [exact Hw|]; eapply within_object; [exact Pr|exact Ob|apply within_here]|]. eapply good_below; eauto.
    - apply IH; [eapply within_trans; [exact Hw|]; eapply within_array; [exact Pr|exact Ob|apply within_here]|]. eapply good_below; eauto.
  Qed.
  Lemma array_ids q ids n v i : array_in O S q ids n v i -> Forall worded_id ids.
  Proof.
    intros (R & T & HR & A & Pr & Ob & ->). apply (good_ids R T q HR (objects_within O _ _ _ _ A)). apply (good_at R R whole T q HR A (within_here O R)).
    split; [exists []; split; [constructor|reflexivity]|constructor].
  Qed.
End Worded.

(** ** the whole schema *)
Section Whole.
  Variable (O : sopts) (S : sv) (st : sps) (w : list swarning).
  Hypothesis (E : parse_schema O S = Ok st w) (N : named_fields O S).

  Lemma start_runs (D : str -> Prop) (C : Prop) : (C -> forall R T n v, top S R -> within O R T -> property O T n v -> D n) ->
    (forall sn k t, has_title st sn k t -> item_title O S sn k t \/ exists q ids n v i lk T, array_in O S q ids n v i /\ sn = sheet_of O q n v /\ In t ids /\ k = lookup_header (so_lower O) T lk t /\ (C -> table_ok D T)) /\
    (so_titles O = true -> forall sn k, (exists t, item_title O S sn k t) -> exists t, has_title st sn k t) /\
    (so_titles O = true -> forall k, says (main_title O S k) (sget k (sh_titles (sp_main st)))) /\
    (so_titles O = true -> forall p n, says (sheet_title O S p n) (aget pair_eqb (p, n) (sp_sub_titles st))) /\
    (forall p, In p (sp_rollup st) <-> rolled_column O S p).
  Proof.
    intros HW. destruct (parse_facts O S st w E (named_fields_named O S N)) as (tr & R & Or & T & F).
    assert (Fn : C -> Forall (names_ok D) tr).
    { intros c. apply (proj1 (trace_names O D) _ _ _ _ _ _ _ T). intros R0 HR T0 n v HT Pr. exact (HW c R0 T0 n v HR HT Pr). }
    assert (Ft : C -> table_ok D (sp_table sps_start)) by (intros _; constructor; [left; reflexivity|constructor]).
    destruct (runs_titles O D C tr _ _ _ _ [] R (start_good O) (Or []) (fun _ H => match H with end) Fn Ft) as (I1 & I2 & I3 & I4 & I5 & I6 & I7).
    destruct F as [F1 F2 F3 F4 F5 F6]. split; [|split; [|split; [|split]]].
    - intros sn k t H. destruct (I1 _ _ _ H) as [(s & Q & _)|[Q|(lk & T0 & Q & Ek & Tk)]]; [discriminate Q| |].
      + left. apply F4 in Q as (q & ids & n & v & i & f & x & A & B & G & Hs & Et). destruct (so_titles O) eqn:Eo; [|discriminate Et]. injection Et as ->. exists q, ids, n, v, i, f, x. auto.
      + right. destruct (proj1 (F3 sn t) (ex_intro _ lk Q)) as (q & ids & n & v & i & A & B & G). exists q, ids, n, v, i, lk, T0. auto.
    - intros Ht sn k (t & q & ids & n & v & i & f & x & A & B & G & -> & Hs). apply I2. right. exists t. apply F4. exists q, ids, n, v, i, f, x. split; [exact A|]. split; [exact B|]. split; [exact G|]. split; [exact Hs|]. rewrite Ht. reflexivity.
    - intros Ht k. unfold says. destruct (sget k (sh_titles (sp_main st))) as [t|] eqn:Ek.
      + destruct (I3 Ht _ _ Ek) as [Q|Q]; [discriminate Q|]. apply F1 in Q as (R0 & HR & G). exists R0. auto.
      + intros t (R0 & HR & G). destruct (I4 Ht k) as (t' & Q); [right; exists t; apply F1; exists R0; auto|]. unfold has_main in Q. congruence.
    - intros Ht p n. unfold says. destruct (aget pair_eqb (p, n) (sp_sub_titles st)) as [sn|] eqn:Ek.
      + destruct (I5 _ _ Ek) as [Q|Q]; [discriminate Q|]. apply F5 in Q as (_ & q & ids & n' & v & i & a & A & B & [= -> ->] & D9). exists q, ids, v, i, a. auto.
      + intros sn (q & ids & v & i & a & A & B & D9 & G). destruct (I6 (p, n)) as (t' & Q); [right; exists sn; apply F5; split; [exact Ht|]; exists q, ids, n, v, i, a; split; [exact A|]; split; [exact D9|]; split; [rewrite B; reflexivity|exact G]|]. unfold has_sheet in Q. congruence.
    - intros p. rewrite I7, F6. cbn. unfold rolled_column. split; [intros [[]|H]; exact H|auto].
  Qed.
  Theorem titles_main : so_titles O = true -> forall k, says (main_title O S k) (sget k (sh_titles (sp_main st))).
  Proof. exact (proj1 (proj2 (proj2 (start_runs part_ok False (fun f => match f with end))))). Qed.
  Theorem titles_sheets : so_titles O = true -> forall p n, says (sheet_title O S p n) (aget pair_eqb (p, n) (sp_sub_titles st)).
  Proof. exact (proj1 (proj2 (proj2 (proj2 (start_runs part_ok False (fun f => match f with end)))))). Qed.
  Theorem titles_rolled : forall p, In p (sp_rollup st) <-> rolled_column O S p.
  Proof. exact (proj2 (proj2 (proj2 (proj2 (start_runs part_ok False (fun f => match f with end)))))). Qed.
  (** on the sheet of an array: an id column's title, or else the field's *)
  Theorem titles_any : so_titles O = true -> forall sn s, sget sn (sp_subs st) = Some s -> forall k,
    (forall t, sget k (sh_titles s) = Some t -> item_title O S sn k t \/ exists q ids n v i, array_in O S q ids n v i /\ sn = sheet_of O q n v /\ In t ids) /\
    ((exists t, item_title O S sn k t) -> exists t, sget k (sh_titles s) = Some t).
  Proof.
    intros Ht sn s Hs k. destruct (start_runs part_ok False (fun f => match f with end)) as (A & B & _). split.
    - intros t H. destruct (A sn k t) as [Q|(q & ids & n & v & i & _ & _ & Q1 & Q2 & Q3 & _)]; [exists s; auto|auto|]. right. exists q, ids, n, v, i. auto.
    - intros H. destruct (B Ht sn k H) as (t & s' & Hs' & Q). rewrite Hs in Hs'. injection Hs' as <-. eauto.
  Qed.
  Theorem titles_items : so_titles O = true -> worded O S -> forall sn s, sget sn (sp_subs st) = Some s -> forall a f,
    says (item_title O S sn (a ++ u "/0/" ++ f)) (sget (a ++ u "/0/" ++ f) (sh_titles s)).
  Proof.
    intros Ht HW sn s Hs a f. destruct (start_runs part_ok True (fun _ R T n v HR HT Pr => proj1 (property_worded O S HW R T n v HR HT Pr))) as (A & B & _). unfold says. destruct (sget (a ++ u "/0/" ++ f) (sh_titles s)) as [t|] eqn:Ek.
    - destruct (A sn (a ++ u "/0/" ++ f) t) as [Q|(q & ids & n & v & i & lk & T & Q1 & Q2 & Q3 & Q4 & Q5)]; [exists s; auto|exact Q|]. exfalso.
      apply (unnumbered_zero a f). rewrite Q4. apply id_unnumbered; [exact (Q5 I)|]. pose proof (array_ids O S HW Ht _ _ _ _ _ Q1) as Fi. rewrite Forall_forall in Fi. exact (Fi _ Q3).
    - intros t H. destruct (B Ht sn _ (ex_intro _ t H)) as (t' & s' & Hs' & Q). rewrite Hs in Hs'. injection Hs' as <-. congruence.
  Qed.
End Whole.
