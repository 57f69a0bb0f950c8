(** Boolean checks of the conditions of the round trip with titles, for the examples. *)
From Verif.Base Require Import PyStr PyNum PyVal PyDict Outcome.
From Verif.Model Require Import Flatten Titles Schema.
From Verif.Spec Require Import Headings Flat Paths SchemaFields SchemaTitled RoundTrip TitledTrip.
From Verif.Proofs Require Import SchemaCheck SchemaOnce RtCheck RtDoc.

Section TCheck.
  Variable O : sopts.
  Hypothesis Hd : so_nodep O = false.
  Hypothesis Hw : so_wkt O = false.
  Lemma props_in S n v : In (n, v) (props O S) -> property O S n v.
  Proof.
    unfold props. destruct (ent (u "properties") S) as [[|?|r d]|] eqn:E; try (intros []; fail). intros H. apply filter_In in H as [H _].
    exists r, d. split; [apply ent_entry; exact E|]. split; [exact H|]. rewrite Hd. discriminate.
  Qed.
  Definition leafb (v : sv) : bool :=
    negb (typedb (u "object") v) &&
    (if typedb (u "array") v then match ent (u "items") v with Some i => typedb (u "string") i || isnil (types i) || typedb (u "number") i | None => false end
     else typedb (u "string") v || isnil (types v) || typedb (u "number") v || typedb (u "integer") v || typedb (u "boolean") v).
  Lemma typedb_no t v : typedb t v = false -> ~ typed t v.
  Proof. intros E H. apply typedb_ok in H. congruence. Qed.
  Lemma isnil_ok {A} (l : list A) : isnil l = true -> l = [].
  Proof. destruct l; [reflexivity|discriminate]. Qed.
  Lemma leafb_ok v : leafb v = true -> exists ty, SchemaFields.leaf O v ty.
  Proof.
    unfold leafb. intros H. apply andb_true_iff in H as [Ho H]. apply negb_true_iff, typedb_no in Ho. destruct (typedb (u "array") v) eqn:Ea.
    - destruct (ent (u "items") v) as [i|] eqn:Ei; [|discriminate]. apply typedb_ok in Ea. apply ent_entry in Ei. assert (A : an_array v i) by (split; [exact Ho|]; split; assumption).
      destruct (typedb (u "string") i) eqn:Es; [eexists; eapply leaf_strings; [exact A|left; apply typedb_ok; exact Es]|]. destruct (isnil (types i)) eqn:En; [eexists; eapply leaf_strings; [exact A|right; apply isnil_ok; exact En]|].
      cbn [orb] in H. eexists. eapply leaf_numbers; [exact A|apply typedb_no; exact Es|apply typedb_ok; exact H].
    - apply typedb_no in Ea. assert (S : typedb (u "string") v || isnil (types v) = true -> exists ty, SchemaFields.leaf O v ty).
      { intros Q. assert (Q' : typed (u "string") v \/ types v = []) by (apply orb_true_iff in Q as [Q|Q]; [left; apply typedb_ok; exact Q|right; apply isnil_ok; exact Q]).
        destruct (ent (u "format") v) as [[[| | | | |t|]| |]|] eqn:Ef.
        6: { destruct (str_eqb_spec t (u "date")) as [-> |Hn]; [exists (u "date"); apply leaf_date; auto; apply ent_entry; exact Ef|].
             exists (u "string"). apply leaf_string; auto. intros X. apply ent_entry in X. rewrite Ef in X. injection X as X. contradiction. }
        all: exists (u "string"); apply leaf_string; auto; intros X; apply ent_entry in X; rewrite Ef in X; discriminate X. }
      destruct (typedb (u "string") v || isnil (types v)) eqn:E1; [apply S; reflexivity|]. apply orb_false_iff in E1 as [Es _]. apply typedb_no in Es. cbn [orb] in H.
      destruct (typedb (u "number") v) eqn:En; [eexists; apply leaf_number; auto; apply typedb_ok; exact En|]. apply typedb_no in En. cbn [orb] in H.
      destruct (typedb (u "integer") v) eqn:Et; [eexists; apply leaf_integer; auto; apply typedb_ok; exact Et|]. apply typedb_no in Et. cbn [orb] in H.
      eexists. apply leaf_boolean; auto. apply typedb_ok; exact H.
  Qed.
  Definition objectsb (v : sv) : option sv :=
    match ent (u "items") v with
    | Some i => if negb (typedb (u "object") v) && typedb (u "array") v && typedb (u "object") i && negb (typedb (u "string") i) && negb (typedb (u "number") i) && negb (typedb (u "array") i) then Some i else None
    | None => None
    end.
  Lemma objectsb_ok v i : objectsb v = Some i -> objects v i.
  Proof.
    unfold objectsb. destruct (ent (u "items") v) as [j|] eqn:E; [|discriminate]. apply ent_entry in E.
    destruct (negb (typedb (u "object") v)) eqn:A1; [|discriminate]. destruct (typedb (u "array") v) eqn:A2; [|discriminate]. destruct (typedb (u "object") j) eqn:A3; [|discriminate].
    destruct (negb (typedb (u "string") j)) eqn:A4; [|discriminate]. destruct (negb (typedb (u "number") j)) eqn:A5; [|discriminate]. destruct (negb (typedb (u "array") j)) eqn:A6; [|discriminate]. intros [= <-].
    apply negb_true_iff, typedb_no in A1, A4, A5, A6. apply typedb_ok in A2, A3. split; [split; auto|]. auto.
  Qed.
  Fixpoint alongb (p : hpath) (S : sv) : option sv :=
    match p with
    | [HKey n] => sget n (props O S)
    | HKey n :: HPos _ :: p' => match sget n (props O S) with Some v => match objectsb v with Some i => alongb p' i | None => None end | None => None end
    | HKey n :: p' => match sget n (props O S) with Some v => if typedb (u "object") v then alongb p' v else None | None => None end
    | _ => None
    end.
  Lemma alongb_ok p : forall S v, alongb p S = Some v -> along O S p v.
  Proof.
    assert (G : forall m p, (length p <= m)%nat -> forall S v, alongb p S = Some v -> along O S p v).
    { induction m as [|m IH]; intros [|[n|i] p'] Hl S v H; cbn [length] in Hl; try lia; try discriminate.
      destruct p' as [|[n'|i] p']; cbn [alongb] in H.
      - apply sget_In, props_in in H. apply along_here. exact H.
      - destruct (sget n (props O S)) as [x|] eqn:E; [|discriminate]. apply sget_In, props_in in E. destruct (typedb (u "object") x) eqn:T; [|discriminate]. apply typedb_ok in T.
        eapply along_object; [exact E|split; [exact T|intros (Q & _); congruence]|]. apply IH; [cbn [length] in *; lia|exact H].
      - destruct (sget n (props O S)) as [x|] eqn:E; [|discriminate]. apply sget_In, props_in in E. destruct (objectsb x) as [j|] eqn:B; [|discriminate]. apply objectsb_ok in B.
        eapply along_array; [exact E|exact B|]. apply IH; [cbn [length] in *; lia|exact H]. }
    exact (G (length p) p (le_n _)).
  Qed.
  Definition told (S : sv) (p : hpath) : bool :=
    match alongb p S with Some v => leafb v && match title_of v with Some _ => true | None => false end | None => false end.
  Lemma all_titled_ok S docs : forallb (fun d => forallb (fun qy => negb (leaf_b (snd qy)) || match last (fst qy) ([], Some 0%nat) with (_, None) => told S (heading_path (fst qy)) | _ => true end) (places (JO d))) docs = true -> all_titled O S docs.
  Proof.
    intros H d Q k y Hin Ha Hl. rewrite forallb_forall in H. specialize (H d Hin). rewrite forallb_forall in H. specialize (H _ (places_all _ _ _ Ha)). cbn [fst snd] in H. rewrite (proj2 (leaf_check y) Hl), last_last in H. cbn [negb orb] in H.
    unfold told in H. destruct (alongb (heading_path (Q ++ [(k, None)])) S) as [v|] eqn:E; [|discriminate]. apply andb_true_iff in H as [H1 H2]. destruct (leafb_ok v H1) as (ty & Hty). destruct (title_of v) as [t|] eqn:Et; [|discriminate].
    exists v, ty, t. split; [apply alongb_ok; exact E|auto].
  Qed.
  Definition ids_b (T : sv) : bool :=
    match ent (u "properties") T with
    | Some (VO _ d) => match sget (u "id") d with
                       | Some i => leafb i && match i with VO _ e => match sget (u "title") e, title_of i with Some (VS (SStr t)), Some t' => str_eqb t t' | _, _ => false end | _ => false end
                       | None => true end
    | _ => true
    end.
  Lemma titled_ids_ok S : all_within O S ids_b = true -> titled_ids O S.
  Proof.
    intros H T r d i W E Hi. pose proof (all_within_ok O S _ H T W) as Q. pose proof E as E'. apply ent_entry in E. unfold ids_b in Q. rewrite E, Hi in Q. apply andb_true_iff in Q as [Q1 Q2].
    split; [exists r, d; split; [exact E'|]; split; [apply sget_In; exact Hi|rewrite Hd; discriminate]|]. split; [apply leafb_ok; exact Q1|]. destruct i as [| |r' e]; try discriminate. destruct (sget (u "title") e) as [[[| | | | |t|]| |]|] eqn:Et; try discriminate.
    destruct (title_of (VO r' e)) as [t'|] eqn:Et'; [|discriminate]. apply str_eqb_eq in Q2. subst t'. exists r', e, t. auto.
  Qed.
  Lemma words_ok S : all_within O S (fun T => forallb (fun nv => negb (mem_c 58%N (fst nv)) && match title_of (snd nv) with Some t => match parse_int t with None => true | _ => false end | None => true end) (props O T)) = true ->
    forall T n v, within O S T -> property O T n v -> ~ In 58%N n /\ forall t, title_of v = Some t -> parse_int t = None.
  Proof.
    intros H T n v W Pr. pose proof (all_props_ok O S (fun n v => negb (mem_c 58%N n) && match title_of v with Some t => match parse_int t with None => true | _ => false end | None => true end) H T n v W Pr) as Q. cbn beta in Q.
    apply andb_true_iff in Q as [Q1 Q2]. split.
    - intros X. assert (Y : mem_c 58%N n = true) by (apply existsb_exists; exists 58%N; auto using N.eqb_refl). rewrite Y in Q1. discriminate.
    - intros t Et. rewrite Et in Q2. destruct (parse_int t); [discriminate|reflexivity].
  Qed.
  Lemma own_words_ok S n : all_within O S (fun T => forallb (fun mw => negb (str_mem (fst mw) (flat_map (fun nv => if str_eqb n (fst nv) then match title_of (snd nv) with Some t => [t] | None => [] end else []) (props O S)))) (props O T)) = true -> own_words O S n.
  Proof.
    intros H _ v t Pv Et T m w W Pm E. subst m. pose proof (all_props_ok O S (fun m _ => negb (str_mem m (flat_map (fun nv => if str_eqb n (fst nv) then match title_of (snd nv) with Some t => [t] | None => [] end else []) (props O S)))) H T t w W Pm) as Q. cbn beta in Q.
    apply negb_true_iff in Q. assert (X : str_mem t (flat_map (fun nv => if str_eqb n (fst nv) then match title_of (snd nv) with Some t => [t] | None => [] end else []) (props O S)) = true).
    { apply str_mem_In. apply in_flat_map. exists (n, v). split; [apply props_ok; exact Pv|]. cbn [fst snd]. rewrite str_eqb_refl, Et. left. reflexivity. }
    congruence.
  Qed.
End TCheck.
