(** Consequences of what the schema parser reports. *)
From Verif.Base Require Import PyStr PyNum PyVal PyDict Outcome.
From Verif.Model Require Import Flatten Titles Schema.
From Verif.Spec Require Import SchemaFields SchemaWarnings.
From Verif.Proofs Require Import SchemaTrace SchemaRun SchemaColumns SchemaState SchemaTypes SchemaTitles SchemaLines SchemaWarnings.

Section Reports.
  Variables (O : sopts) (S : sv) (st : sps) (w : list swarning).
  Hypothesis H : parse_schema O S = Ok st w.
  Hypothesis Nf : named_fields O S.

  Lemma quiet : (forall y, ~ reported O S y) -> w = [].
  Proof. intros Q. destruct (schema_warnings O S st w H Nf) as [A _]. destruct w as [|y l]; [reflexivity|]. destruct (Q y). apply A. left. reflexivity. Qed.
  Lemma said y : reported O S y -> (forall m, y <> SNotRolledUp m) -> In y w.
  Proof. intros R N. destruct (schema_warnings O S st w H Nf) as [_ B]. destruct (B y R) as (y' & I & [<-|(m & m' & -> & _)]); [exact I|destruct (N m eq_refl)]. Qed.

  Lemma geo_dec v : geo O v \/ ~ geo O v.
  Proof.
    unfold geo. destruct (so_wkt O); [|right; intros [Q _]; discriminate]. destruct (entry_dec (u "properties") v) as [(p & Ep)|Np]; [|right; intros [_ (p & Ep & _)]; exact (Np _ Ep)].
    destruct (mentions_dec (u "type") p) as [M1|M1]; [|right; intros [_ (p' & Ep' & M & _)]; rewrite (entry_fun _ _ _ _ Ep' Ep) in M; contradiction].
    destruct (mentions_dec (u "coordinates") p) as [M2|M2]; [|right; intros [_ (p' & Ep' & _ & M)]; rewrite (entry_fun _ _ _ _ Ep' Ep) in M; contradiction].
    left. split; [reflexivity|]. exists p. auto.
  Qed.
  Lemma kind_dec v : (exists t, kind O v t) \/ (forall t, ~ kind O v t).
  Proof.
    assert (Leaf : (exists ty, leaf O v ty) -> exists t, kind O v t) by (intros (ty & L); exists ty; constructor; exact L).
    destruct (inset_dec v (u "object")) as [To|No].
    { left. destruct (geo_dec v) as [G|G]; [apply Leaf; eexists; apply leaf_geo; assumption|eexists; apply kind_object; split; assumption]. }
    destruct (inset_dec v (u "array")) as [Ta|Na].
    - destruct (entry_dec (u "items") v) as [(i & Ei)|Ni].
      2:{ right. intros t [ty L|[A _]|i ((_ & _ & A) & _)]; [|contradiction|exact (Ni _ A)]. destruct L as [A|i (_ & _ & A)|i (_ & _ & A)|i j (_ & _ & A)|_ A|_ A|_ A|_ A|_ A]; try contradiction; exact (Ni _ A). }
      assert (Ai : an_array v i) by (split; [exact No|split; assumption]). assert (Ui : forall j, an_array v j -> j = i) by (intros j (_ & _ & Ej); exact (entry_fun _ _ _ _ Ej Ei)).
      destruct (inset_dec i (u "string")) as [Is|Ns]; [left; apply Leaf; eexists; eapply leaf_strings; eauto|].
      assert (T0 : types i = [] \/ types i <> []) by (destruct (types i); [left; reflexivity|right; discriminate]).
      destruct T0 as [T0|T0]; [left; apply Leaf; eexists; eapply leaf_strings; eauto|].
      destruct (inset_dec i (u "number")) as [In_|Nn]; [left; apply Leaf; eexists; eapply leaf_numbers; eauto|].
      destruct (inset_dec i (u "array")) as [Ia|Nia].
      + assert (D : (exists j, entry (u "items") i j /\ (typed (u "string") j \/ typed (u "number") j)) \/ (forall j, entry (u "items") i j -> ~ (typed (u "string") j \/ typed (u "number") j))).
        { destruct (entry_dec (u "items") i) as [(j & Ej)|Nj]; [|right; intros j Ej; destruct (Nj _ Ej)].
          destruct (inset_dec j (u "string")) as [A|A]; [left; exists j; auto|]. destruct (inset_dec j (u "number")) as [B|B]; [left; exists j; auto|].
          right. intros k Ek. rewrite (entry_fun _ _ _ _ Ek Ej). tauto. }
        destruct D as [(j & Ej & D)|D]; [left; apply Leaf; eexists; eapply leaf_arrays; eauto|]. right.
        intros t [ty L|[A _]|k (A & _ & _ & _ & B)]; [|contradiction|apply Ui in A; subst k; contradiction].
        destruct L as [A|k A B|k A _ B|k j A _ _ B C E|_ A|_ A|_ A|_ A|_ A]; try contradiction; apply Ui in A; subst k; [destruct B; contradiction|contradiction|exact (D _ C E)].
      + destruct (inset_dec i (u "object")) as [Io|Nio]; [left; eexists; eapply kind_array; split; [exact Ai|]; auto|]. right.
        intros t [ty L|[A _]|k (A & B & _)]; [|contradiction|apply Ui in A; subst k; contradiction].
        destruct L as [A|k A B|k A _ B|k j A _ _ B C E|_ A|_ A|_ A|_ A|_ A]; try contradiction; apply Ui in A; subst k; [destruct B; contradiction|contradiction|contradiction].
    - assert (Sd : (typed (u "string") v \/ types v = []) \/ ~ (typed (u "string") v \/ types v = [])).
      { destruct (inset_dec v (u "string")); [auto|]. destruct (types v) eqn:E; [auto|]. right. intros [A|A]; [contradiction|discriminate]. }
      destruct Sd as [Sd|Sd].
      { left. apply Leaf. assert (Fd : entry (u "format") v (VS (SStr (u "date"))) \/ ~ entry (u "format") v (VS (SStr (u "date")))).
        { destruct (entry_dec (u "format") v) as [(f & Ef)|N]; [|right; apply N]. destruct (is_str_dec (u "date") f) as [-> |D]; [auto|]. right. intros Q. exact (D (entry_fun _ _ _ _ Ef Q)). }
        destruct Fd; eexists; [apply leaf_date|apply leaf_string]; assumption. }
      assert (Ns : ~ typed (u "string") v) by tauto.
      destruct (inset_dec v (u "number")) as [A|Nn]; [left; apply Leaf; eexists; apply leaf_number; assumption|].
      destruct (inset_dec v (u "integer")) as [A|Ni]; [left; apply Leaf; eexists; apply leaf_integer; assumption|].
      destruct (inset_dec v (u "boolean")) as [A|Nb]; [left; apply Leaf; eexists; apply leaf_boolean; assumption|].
      right. intros t [ty L|[A _]|i ((_ & A & _) & _)]; try contradiction.
      destruct L as [A|i (_ & A & _)|i (_ & A & _)|i j (_ & A & _)|? ? A|? ? A|? ? ? A|? ? ? ? A|? ? ? ? ? A]; contradiction.
  Qed.
  Lemma properties_said R T q n v : top S R -> objects_at O R whole T q -> property O T n v -> (exists t, kind O v t) \/ In (SUnrecognised n (at_path q)) w.
  Proof.
    intros HR A P. destruct (kind_dec v) as [K|K]; [left; exact K|]. right. apply said; [|discriminate]. left. exists R, T, q. split; [exact HR|]. split; [exact A|].
    right. exists n, v. split; [exact P|]. left. split; [exact K|reflexivity].
  Qed.
  Lemma columns_said : so_titles O = true ->
    (forall R f t, top S R -> gives O R f t -> (exists c, t = Some c /\ In c (header (sp_main st))) \/ In (SNoTitle f) w) /\
    (forall q ids n v i f t, array_in O S q ids n v i -> gives O i f t ->
       (exists c s, sub_heading O q n v f t c /\ sget (sheet_of O q n v) (sp_subs st) = Some s /\ In c (header s)) \/
       In (SMissingTitle (at_path q ++ n ++ u "/0/" ++ f)) w \/ In (SNoArrayTitle (at_path q ++ n)) w).
  Proof.
    intros Ht. destruct (schema_columns O S st w H Nf) as (C1 & C2 & C3). rewrite Ht in C1. split.
    - intros R f t HR G. destruct t as [c|]; [left; exists c; split; [reflexivity|]; apply C1; exists R, f, (Some c); auto|]. right. apply said; [|discriminate]. right. split; [exact Ht|]. exists R, f. auto.
    - intros q ids n v i f t Ar G. pose proof Ar as (R & T & HR & A & P & Ob & _).
      assert (Y : forall y, untitled O q n v f t y -> (forall m, y <> SNotRolledUp m) -> In y w).
      { intros y Hy N. apply said; [|exact N]. left. exists R, T, q. split; [exact HR|]. split; [exact A|]. right. exists n, v. split; [exact P|]. right. exists i. split; [exact Ob|]. left. exists f, t. auto. }
      destruct t as [c|]; [destruct (at_titles q) as [p|] eqn:Ep; [destruct (title_of v) as [b|] eqn:Eb|]|].
      + left. assert (In (sheet_of O q n v) (map fst (sp_subs st))) as I by (apply C2; exists q, ids, n, v, i; auto).
        destruct (sget (sheet_of O q n v) (sp_subs st)) as [s|] eqn:Es; [|apply sget_None in Es; contradiction].
        assert (Sh : sub_heading O q n v f (Some c) (p ++ b ++ u ":" ++ c)) by (unfold sub_heading; rewrite Ht; exists p, b, c; auto).
        exists (p ++ b ++ u ":" ++ c), s. split; [exact Sh|]. split; [reflexivity|].
        destruct (C3 _ _ Es) as (i' & cols & -> & Hc & _). apply in_or_app. right. apply in_or_app. right. apply Hc. exists q, ids, n, v, i, f, (Some c). auto.
      + right; right. apply Y; [|discriminate]. unfold untitled. rewrite Ep, Eb. auto.
      + right; left. apply Y; [|discriminate]. unfold untitled. rewrite Ep. auto.
      + right; left. apply Y; [|discriminate]. unfold untitled. auto.
  Qed.
End Reports.
