(** Documents that conform to a schema have the types that the schema parser records. *)
From Verif.Base Require Import PyStr PyNum PyVal PyDict Outcome.
From Verif.Model Require Import Flatten Schema.
From Verif.Spec Require Import Paths Headings SchemaFields RoundTrip Typed Trip Conforms.
From Verif.Proofs Require Import TreeInd SchemaTypes SchemaLines.
Notation at_path := Paths.at_path.
Notation key_names := SchemaTypes.names_of.

Lemma names_app p q : key_names (p ++ q) = key_names p ++ key_names q.
Proof. unfold key_names. apply flat_map_app. Qed.
Lemma names_text p : path_text p = join (u "/") (key_names p).
Proof. reflexivity. Qed.

Section C.
  Variables (O : sopts) (S : sv) (st : sps) (w : list swarning).
  Hypothesis HP : parse_schema O S = Ok st w.
  Hypothesis HN : plain_names O S.
  Hypothesis HK : SchemaFields.keys_once O S.
  Hypothesis HA : forall o, ~ alternatives S o.
  Notation along := (along O).
  Notation plain := SchemaTypes.plain.

  (** [inside P T]: objects with schema [T] are at the path [P] *)
  Inductive inside : hpath -> sv -> Prop :=
  | in_here : inside [] S
  | in_object P T n v : inside P T -> property O T n v -> an_object O v -> inside (P ++ [HKey n]) v
  | in_array P T n v i z : inside P T -> property O T n v -> objects v i -> inside (P ++ [HKey n; HPos z]) i.
  Lemma top_S : top S S. Proof. right. split; [exact HA|reflexivity]. Qed.
  Lemma top_one R : top S R -> R = S.
  Proof. intros [(l & A & _)|[_ E]]; [destruct (HA _ A)|exact E]. Qed.
  Lemma within_trans_obj S1 T n v : within O S1 T -> property O T n v -> an_object O v -> within O S1 v.
  Proof. induction 1 as [S0|S0 m x T Pr Ob W IH|S0 m x i T Pr Ob W IH]; intros P A; [eapply within_object; [exact P|exact A|apply within_here]|exact (within_object O _ _ _ _ Pr Ob (IH P A))|exact (within_array O _ _ _ _ _ Pr Ob (IH P A))]. Qed.
  Lemma within_trans_arr S1 T n v i : within O S1 T -> property O T n v -> objects v i -> within O S1 i.
  Proof. induction 1 as [S0|S0 m x T Pr Ob W IH|S0 m x j T Pr Ob W IH]; intros P A; [eapply within_array; [exact P|exact A|apply within_here]|exact (within_object O _ _ _ _ Pr Ob (IH P A))|exact (within_array O _ _ _ _ _ Pr Ob (IH P A))]. Qed.
  Lemma inside_within P T : inside P T -> within O S T.
  Proof. induction 1; [apply within_here|eapply within_trans_obj; eauto|eapply within_trans_arr; eauto]. Qed.
  Lemma inside_along P T : inside P T -> forall p v, along T p v -> along S (P ++ p) v.
  Proof.
    induction 1 as [|P T n v I IH Pr Ob|P T n v i z I IH Pr Ob]; intros p x A; [exact A| |]; rewrite <- app_assoc; cbn [app]; apply IH; [eapply along_object|eapply along_array]; eauto.
  Qed.
  Lemma once T n v v' P : inside P T -> property O T n v -> property O T n v' -> v = v'.
  Proof. intros I H1 H2. exact (HK S T n v v' top_S (inside_within _ _ I) H1 H2). Qed.
  Lemma object_not_array v i : an_object O v -> objects v i -> False.
  Proof. intros [T _] [[N _] _]. exact (N T). Qed.
  Lemma entry_fun k v x y : entry k v x -> entry k v y -> x = y.
  Proof. intros (r & d & E & H) (r' & d' & E' & H'). rewrite E in E'. injection E' as <- <-. congruence. Qed.
  Lemma objects_fun v i j : objects v i -> objects v j -> i = j.
  Proof. intros [[_ [_ H]] _] [[_ [_ H']] _]. exact (entry_fun _ _ _ _ H H'). Qed.
  (** the first name of a path *)
  Lemma along_names T p v : along T p v -> forall k ks, key_names p = k :: ks -> exists x, property O T k x /\
    (ks = [] -> p = [HKey k] /\ x = v) /\ (ks <> [] -> exists c p', holds O x c /\ along c p' v /\ key_names p' = ks).
  Proof.
    intros A. destruct A as [T n v Pr|T n v p x Pr Ob A|T n v i z p x Pr Ob A]; cbn [SchemaTypes.names_of flat_map app]; intros k ks [= -> E].
    - exists v. split; [exact Pr|]. split; [auto|]. congruence.
    - exists v. split; [exact Pr|]. split.
      + intros ->. destruct (SchemaTypes.along_key O _ _ _ A) as (m & q & ->). discriminate E.
      + intros _. exists v, p. split; [left; auto|]. auto.
    - exists v. split; [exact Pr|]. split.
      + intros ->. destruct (SchemaTypes.along_key O _ _ _ A) as (m & q & ->). discriminate E.
      + intros _. exists i, p. split; [right; auto|]. auto.
  Qed.
  Lemma inside_names P T : inside P T -> forall p v ks, along S p v -> ks <> [] -> key_names p = key_names P ++ ks -> exists p', along T p' v /\ key_names p' = ks.
  Proof.
    induction 1 as [|P T n v I IH Pr Ob|P T n v i z I IH Pr Ob]; intros p x ks A Hk E; [exists p; auto| |];
      rewrite names_app, <- app_assoc in E; cbn [SchemaTypes.names_of flat_map app] in E;
      (destruct (IH p x (n :: ks) A) as (p' & A' & E'); [discriminate|exact E|]);
      destruct (along_names _ _ _ A' _ _ E') as (y & Py & _ & Hy); rewrite (once _ _ _ _ _ I Py Pr) in Hy; destruct (Hy Hk) as (c & p'' & Hc & A'' & E'').
    - destruct Hc as [[_ ->]|Hc]; [eauto|]. destruct (object_not_array _ _ Ob Hc).
    - destruct Hc as [[Hc _]|Hc]; [destruct (object_not_array _ _ Hc Ob)|]. rewrite (objects_fun _ _ _ Ob Hc). eauto.
  Qed.
  Lemma inside_plain P T : inside P T -> Forall plain (key_names P).
  Proof.
    induction 1 as [|P T n v I IH Pr Ob|P T n v i z I IH Pr Ob]; [constructor| |]; rewrite names_app; apply Forall_app; (split; [exact IH|]); (constructor; [|constructor]);
      exact (HN S P n v top_S (inside_along _ _ I _ _ (along_here O _ _ _ Pr))).
  Qed.
  (** what is recorded under a list of names *)
  Lemma recorded ks t : ks <> [] -> Forall plain ks -> sget (join (u "/") ks) (sp_flat st) = Some t ->
    exists p v, along S p v /\ kind O v t /\ key_names p = ks.
  Proof.
    intros Hk Hp E. destruct (type_sound O S st w HP HN _ _ E) as (R & p & v & Tp & A & K & Q). rewrite (top_one _ Tp) in A.
    assert (Hs : forall x, In x ks -> ~ In 47%N x) by (intros x Hx; rewrite Forall_forall in Hp; apply (Hp x Hx)).
    destruct Q as [Q|(_ & Hn & Q)].
    - exists p, v. split; [exact A|]. split; [exact K|]. rewrite names_text in Q. apply (f_equal (split_on 47%N)) in Q. change (u "/") with [47%N] in Q.
      rewrite !split_join in Q; [exact Q|exact Hk|exact Hs| |].
      + destruct (SchemaTypes.along_key O _ _ _ A) as (m & q & ->). discriminate.
      + intros x Hx. apply in_flat_map in Hx as (s & Hs' & Hx). destruct s; [|destruct Hx]. destruct Hx as [<-|[]].
        apply (SchemaTypes.along_plain O S p v (SchemaTypes.plains_named O S HN S top_S) A k Hs').
    - exfalso. apply Hn. intros z Hz. unfold zero_text in Q. apply (f_equal (split_on 47%N)) in Q. change sl with [47%N] in Q. change (u "/") with [47%N] in Q.
      rewrite !split_join in Q; [|destruct (SchemaTypes.along_key O _ _ _ A) as (m & q & ->); discriminate| |exact Hk|exact Hs].
      + assert (Hin : In [48%N] (map (fun s => match s with HKey k => k | HPos _ => [48%N] end) p)) by (apply in_map_iff; exists (HPos z); auto).
        rewrite <- Q in Hin. rewrite Forall_forall in Hp. destruct (Hp _ Hin) as [[_ Q'] _]. discriminate Q'.
      + intros x Hx. apply in_map_iff in Hx as (s & <- & Hs'). destruct s; [|intros [Q'|[]]; discriminate Q'].
        apply (SchemaTypes.along_plain O S p v (SchemaTypes.plains_named O S HN S top_S) A k Hs').
  Qed.
  Lemma recorded_in P T ks t : inside P T -> ks <> [] -> Forall plain ks -> sget (join (u "/") (key_names P ++ ks)) (sp_flat st) = Some t ->
    exists p v, along T p v /\ kind O v t /\ key_names p = ks.
  Proof.
    intros I Hk Hp E. destruct (recorded (key_names P ++ ks) t) as (p & v & A & K & En); [intros Q; apply app_eq_nil in Q as [_ Q]; contradiction|apply Forall_app; split; [exact (inside_plain _ _ I)|exact Hp]|exact E|].
    destruct (inside_names _ _ I p v ks A Hk En) as (p' & A' & E'). eauto.
  Qed.
  Lemma unknown P T k ks : inside P T -> (forall v, ~ property O T k v) -> Forall plain (k :: ks) -> types_of st (join (u "/") (key_names P ++ k :: ks)) = [].
  Proof.
    intros I Hn Hp. unfold types_of. destruct (sget (join (u "/") (key_names P ++ k :: ks)) (sp_flat st)) as [t|] eqn:E; [|reflexivity]. exfalso.
    destruct (recorded_in P T (k :: ks) t I) as (p & v & A & _ & En); [discriminate|exact Hp|exact E|]. destruct (along_names _ _ _ A _ _ En) as (x & Px & _). exact (Hn _ Px).
  Qed.
  Lemma known_leaf P T k v t : inside P T -> property O T k v -> kind O v t -> t <> u "object" -> types_of st (join (u "/") (key_names P ++ [k])) = t.
  Proof.
    intros I Pr K Ht. pose proof (types_found O S st w HP HN HK HA (P ++ [HKey k]) v t (inside_along _ _ I _ _ (along_here O _ _ _ Pr)) K (fun E => False_ind _ (Ht E))) as H.
    rewrite names_text, names_app in H. exact H.
  Qed.
  Lemma known_object P T k v : inside P T -> property O T k v -> an_object O v -> In (types_of st (join (u "/") (key_names P ++ [k]))) [[]; u "object"].
  Proof.
    intros I Pr Ob. unfold types_of. destruct (sget (join (u "/") (key_names P ++ [k])) (sp_flat st)) as [t|] eqn:E; [|left; reflexivity]. right. left.
    destruct (recorded_in P T [k] t I) as (p & x & A & K & En); [discriminate| |exact E|].
    { constructor; [|constructor]. exact (HN S P k v top_S (inside_along _ _ I _ _ (along_here O _ _ _ Pr))). }
    destruct (along_names _ _ _ A _ _ En) as (y & Py & Hy & _). destruct (Hy eq_refl) as [_ ->]. rewrite (once _ _ _ _ _ I Py Pr) in K.
    exact (SchemaTypes.kind_fun O _ _ _ (kind_object O _ Ob) K).
  Qed.

  (** ** the types of the fields of a document *)
  Definition agrees (ty : str) (y : jv) : Prop :=
    match y with
    | JO _ => ty = [] \/ ty = u "object"
    | JS _ => of_type ty y
    | JA l => if forallb (fun x => match x with JO _ => true | _ => false end) l then ty = [] \/ ty = u "array" else of_type ty y
    end.
  Lemma of_type_agrees ty y : of_type ty y -> agrees ty y.
  Proof.
    assert (G : forall l, l <> [] -> (forall x, In x l -> match x with JO _ => False | _ => True end) -> forallb (fun x => match x with JO _ => true | _ => false end) l = false).
    { intros [|x l] Hl H; [congruence|]. specialize (H x (or_introl eq_refl)). cbn [forallb]. destruct x; [reflexivity|reflexivity|contradiction]. }
    intros H. inversion H as [ty' t Hty Ht|z|s Hf|b|ty' l Hty Hl _ _|l Hl _|ty' L Hty HL (a & b & c & l & Hin & _)|L HL (a & b & c & l & Hin & _)]; subst; cbn [agrees text]; try exact H; rewrite G; try exact H.
    - destruct l; [congruence|discriminate].
    - intros x Hx. apply in_map_iff in Hx as (y & <- & _). exact I.
    - destruct l; [congruence|discriminate].
    - intros x Hx. apply in_map_iff in Hx as (y & <- & _). exact I.
    - destruct L; [destruct Hin|discriminate].
    - intros x Hx. apply in_map_iff in Hx as (y & <- & _). exact I.
    - destruct L; [destruct Hin|discriminate].
    - intros x Hx. apply in_map_iff in Hx as (y & <- & _). exact I.
  Qed.
  Lemma free_agrees y : free y -> agrees [] y.
  Proof.
    intros H. destruct H as [t Ht|d H|l H]; cbn [agrees text].
    - apply of_text; [left; reflexivity|exact Ht].
    - left; reflexivity.
    - assert (E : forallb (fun x => match x with JO _ => true | _ => false end) l = true); [|rewrite E; left; reflexivity].
      apply forallb_forall. intros x Hx. destruct (H x Hx) as (d & -> & _). reflexivity.
  Qed.
  Lemma all_objects l i : (forall x, In x l -> exists d, x = JO d /\ valid O i d) -> forallb (fun x => match x with JO _ => true | _ => false end) l = true.
  Proof. intros H. apply forallb_forall. intros x Hx. destruct (H x Hx) as (d & -> & _). reflexivity. Qed.
  Lemma heading_names Q : key_names (heading_path Q) = map fst Q.
  Proof. induction Q as [|[k [z|]] Q IH]; [reflexivity| |]; unfold heading_path in *; cbn [flat_map fst snd app SchemaTypes.names_of map]; f_equal; exact IH. Qed.

  (** places in a value that needs no schema *)
  Lemma free_at Q : forall y k z, free y -> at_path y (Q ++ [(k, None)]) = Some z -> free z /\ Forall plain (map fst Q ++ [k]).
  Proof.
    induction Q as [|[k1 o] Q IH]; intros y k z H E.
    - cbn [app Paths.at_path] in E. destruct y as [s|l|d]; try discriminate E. destruct (sget k d) as [x|] eqn:Ek; [|discriminate E]. injection E as <-. apply sget_In in Ek.
      inversion H as [|d' Hd|]; subst. destruct (Hd _ _ Ek) as (A & B & C). split; [exact C|]. (constructor; [split; assumption|constructor]).
    - cbn [app Paths.at_path] in E. destruct y as [s|l|d]; try discriminate E. destruct (sget k1 d) as [x|] eqn:Ek; [|destruct o; discriminate E]. apply sget_In in Ek.
      inversion H as [|d' Hd|]; subst. destruct (Hd _ _ Ek) as (A & B & C). cbn [map fst app].
      destruct o as [i|].
      + destruct x as [s|l|e]; try discriminate E. destruct (nth_error l i) as [x|] eqn:Ei; [|discriminate E]. apply nth_error_In in Ei.
        inversion C as [| |l' Hl]; subst. destruct (Hl _ Ei) as (e & -> & He). destruct (IH _ _ _ He E) as [F1 F2]. split; [exact F1|]. constructor; [split; assumption|exact F2].
      + destruct (IH _ _ _ C E) as [F1 F2]. split; [exact F1|]. constructor; [split; assumption|exact F2].
  Qed.
  Lemma valid_at Q : forall P T d k y, inside P T -> valid O T d -> at_path (JO d) (Q ++ [(k, None)]) = Some y ->
    agrees (types_of st (join (u "/") (key_names P ++ map fst Q ++ [k]))) y.
  Proof.
    induction Q as [|[k1 o] Q IH]; intros P T d k y I V E.
    - cbn [app Paths.at_path] in E. destruct (sget k d) as [x|] eqn:Ek; [|discriminate E]. injection E as <-. apply sget_In in Ek. cbn [map app].
      inversion V as [T' d' H]; subst. destruct (H _ _ Ek) as [(v & Pr & Vv)|(Hn & F1 & F2 & F)].
      + inversion Vv as [v' ty y Lf Ht|v' e Ob Ve|v' i l Ob Hl]; subst.
        * rewrite (known_leaf P T k v ty I Pr (kind_leaf O _ _ Lf)); [exact (of_type_agrees _ _ Ht)|]. pose proof (SchemaTypes.leaf_not_object O v ty Lf) as Q. intros ->. discriminate Q.
        * cbn [agrees]. destruct (known_object P T k v I Pr Ob) as [Q|[Q|[]]]; [left|right]; congruence.
        * cbn [agrees]. rewrite (all_objects l i Hl). right. apply (known_leaf P T k v (u "array") I Pr (kind_array O _ _ Ob)). discriminate.
      + rewrite (unknown P T k [] I Hn); [exact (free_agrees _ F)|]. (constructor; [split; assumption|constructor]).
    - cbn [app Paths.at_path] in E. destruct (sget k1 d) as [x|] eqn:Ek; [|destruct o; discriminate E]. apply sget_In in Ek. cbn [map fst].
      inversion V as [T' d' H]; subst. destruct (H _ _ Ek) as [(v & Pr & Vv)|(Hn & F1 & F2 & F)].
      + destruct o as [i|].
        * destruct x as [s|l|e]; try discriminate E. destruct (nth_error l i) as [x|] eqn:Ei; [|discriminate E]. apply nth_error_In in Ei.
          inversion Vv as [v' ty y0 Lf Ht|v' e Ob Ve|v' i0 l0 Ob Hl]; subst.
          { exfalso. assert (Hx : match x with JO _ => False | _ => True end).
            { inversion Ht as [| | | |ty' m Hm E2|m Hm E2|ty' m Hm E2|m Hm E2]; subst; apply in_map_iff in Ei as (q & <- & _); exact Logic.I. }
            destruct x; [destruct Q as [|[? []] ?]; discriminate E|destruct Q as [|[? []] ?]; discriminate E|contradiction]. }
          destruct (Hl _ Ei) as (e & -> & Ve). pose proof (IH (P ++ [HKey k1; HPos (Z.of_nat i)]) i0 e k y (in_array _ _ _ _ _ _ I Pr Ob) Ve E) as G.
          rewrite names_app, <- app_assoc in G. exact G.
        * inversion Vv as [v' ty y0 Lf Ht|v' e Ob Ve|v' i0 l0 Ob Hl]; subst.
          { exfalso. assert (Hx : match x with JO _ => False | _ => True end) by (inversion Ht; exact Logic.I).
            destruct x; [destruct Q as [|[? []] ?]; discriminate E|destruct Q as [|[? []] ?]; discriminate E|contradiction]. }
          { pose proof (IH (P ++ [HKey k1]) v e k y (in_object _ _ _ _ I Pr Ob) Ve E) as G. rewrite names_app, <- app_assoc in G. exact G. }
          { exfalso. destruct Q as [|[? []] ?]; discriminate E. }
      + assert (G : free y /\ Forall plain (map fst Q ++ [k])).
        { destruct o as [i|]; [|exact (free_at _ _ _ _ F E)]. destruct x as [s|l|e]; try discriminate E. destruct (nth_error l i) as [x|] eqn:Ei; [|discriminate E]. apply nth_error_In in Ei.
          inversion F as [| |l' Hl]; subst. destruct (Hl _ Ei) as (e & -> & Fe). exact (free_at _ _ _ _ Fe E). }
        destruct G as [G1 G2]. cbn [app]. rewrite (unknown P T k1 (map fst Q ++ [k]) I Hn); [exact (free_agrees _ G1)|]. constructor; [split; assumption|exact G2].
  Qed.
  Lemma valid_types d : valid O S d -> has_types (types_of st) d.
  Proof.
    intros V Q k y E. pose proof (valid_at Q [] S d k y in_here V E) as H. cbn [SchemaTypes.names_of flat_map app] in H.
    unfold type_at. rewrite names_text, heading_names, map_app. exact H.
  Qed.

  (** the names on the way to a field *)
  Lemma valid_names Q : forall P T d k y, inside P T -> valid O T d -> at_path (JO d) (Q ++ [(k, None)]) = Some y -> Forall plain (map fst Q ++ [k]).
  Proof.
    assert (Np : forall P T n v, inside P T -> property O T n v -> plain n) by (intros P T n v I Pr; exact (HN S P n v top_S (inside_along _ _ I _ _ (along_here O _ _ _ Pr)))).
    induction Q as [|[k1 o] Q IH]; intros P T d k y I V E.
    - cbn [app Paths.at_path] in E. destruct (sget k d) as [x|] eqn:Ek; [|discriminate E]. apply sget_In in Ek. cbn [map app].
      inversion V as [T' d' H]; subst. constructor; [|constructor]. destruct (H _ _ Ek) as [(v & Pr & _)|(_ & F1 & F2 & _)]; [exact (Np _ _ _ _ I Pr)|split; assumption].
    - cbn [app Paths.at_path] in E. destruct (sget k1 d) as [x|] eqn:Ek; [|destruct o; discriminate E]. apply sget_In in Ek. cbn [map fst app].
      inversion V as [T' d' H]; subst. destruct (H _ _ Ek) as [(v & Pr & Vv)|(Hn & F1 & F2 & F)].
      + constructor; [exact (Np _ _ _ _ I Pr)|]. destruct o as [i|].
        * destruct x as [s|l|e]; try discriminate E. destruct (nth_error l i) as [x|] eqn:Ei; [|discriminate E]. apply nth_error_In in Ei.
          inversion Vv as [v' ty y0 Lf Ht|v' e Ob Ve|v' i0 l0 Ob Hl]; subst.
          { exfalso. assert (Hx : match x with JO _ => False | _ => True end).
            { inversion Ht as [| | | |ty' m Hm E2|m Hm E2|ty' m Hm E2|m Hm E2]; subst; apply in_map_iff in Ei as (q & <- & _); exact Logic.I. }
            destruct x; [destruct Q as [|[? []] ?]; discriminate E|destruct Q as [|[? []] ?]; discriminate E|contradiction]. }
          destruct (Hl _ Ei) as (e & -> & Ve). exact (IH (P ++ [HKey k1; HPos (Z.of_nat i)]) i0 e k y (in_array _ _ _ _ _ _ I Pr Ob) Ve E).
        * inversion Vv as [v' ty y0 Lf Ht|v' e Ob Ve|v' i0 l0 Ob Hl]; subst.
          { exfalso. assert (Hx : match x with JO _ => False | _ => True end) by (inversion Ht; exact Logic.I).
            destruct x; [destruct Q as [|[? []] ?]; discriminate E|destruct Q as [|[? []] ?]; discriminate E|contradiction]. }
          { exact (IH (P ++ [HKey k1]) v e k y (in_object _ _ _ _ I Pr Ob) Ve E). }
          { exfalso. destruct Q as [|[? []] ?]; discriminate E. }
      + constructor; [split; assumption|].
        destruct o as [i|]; [|exact (proj2 (free_at _ _ _ _ F E))]. destruct x as [s|l|e]; try discriminate E. destruct (nth_error l i) as [x|] eqn:Ei; [|discriminate E]. apply nth_error_In in Ei.
        inversion F as [| |l' Hl]; subst. destruct (Hl _ Ei) as (e & -> & Fe). exact (proj2 (free_at _ _ _ _ Fe E)).
  Qed.
  Lemma along_last T p v : along T p v -> forall ks k, key_names p = ks ++ [k] -> exists T', within O T T' /\ property O T' k v.
  Proof.
    induction 1 as [T n v Pr|T n v p x Pr Ob A IH|T n v i z p x Pr Ob A IH]; intros ks k E; cbn [SchemaTypes.names_of flat_map app] in E.
    - destruct ks as [|? [|? ?]]; cbn [app] in E; [|discriminate E|discriminate E]. injection E as <-. exists T. split; [apply within_here|exact Pr].
    - destruct ks as [|n' ks]; cbn [app] in E.
      { injection E as _ E. destruct (SchemaTypes.along_key O _ _ _ A) as (m & q & ->). discriminate E. }
      injection E as _ E. destruct (IH ks k E) as (T' & W & P'). exists T'. split; [exact (within_object O _ _ _ _ Pr Ob W)|exact P'].
    - destruct ks as [|n' ks]; cbn [app] in E.
      { injection E as _ E. destruct (SchemaTypes.along_key O _ _ _ A) as (m & q & ->). discriminate E. }
      injection E as _ E. destruct (IH ks k E) as (T' & W & P'). exists T'. split; [exact (within_array O _ _ _ _ _ Pr Ob W)|exact P'].
  Qed.
  (** the type of a field is that of a property of that name *)
  Lemma valid_type_of Q d k y : valid O S d -> at_path (JO d) (Q ++ [(k, None)]) = Some y -> type_at (types_of st) (Q ++ [(k, None)]) <> [] ->
    exists T v, within O S T /\ property O T k v /\ kind O v (type_at (types_of st) (Q ++ [(k, None)])).
  Proof.
    intros V E Ht. unfold type_at in *. rewrite names_text, heading_names, map_app in *. cbn [map fst] in *.
    pose proof (valid_names Q [] S d k y in_here V E) as Hp. unfold types_of in *.
    destruct (sget (join (u "/") (map fst Q ++ [k])) (sp_flat st)) as [t|] eqn:Et; [|congruence].
    destruct (recorded (map fst Q ++ [k]) t) as (p & v & A & K & En); [intros X; apply app_eq_nil in X as [_ X]; discriminate X|exact Hp|exact Et|].
    destruct (along_last _ _ _ A _ _ En) as (T & W & Pr). exists T, v. auto.
  Qed.
  Lemma root_values rid docs : Forall (valid O S) docs -> not_typed O S rid [u "number"; u "boolean"] ->
    (forall d s, In d docs -> sget rid d = Some (JS s) -> exists t, s = SStr t) \/ (forall d s, In d docs -> sget rid d = Some (JS s) -> exists z, s = SInt z).
  Proof.
    intros HV Hn. rewrite Forall_forall in HV.
    assert (G : forall d s, In d docs -> sget rid d = Some (JS s) ->
      (exists v z, property O S rid v /\ SchemaFields.leaf O v (u "integer") /\ s = SInt z) \/ (exists t, s = SStr t /\ forall v, property O S rid v -> ~ SchemaFields.leaf O v (u "integer"))).
    { intros d s Hd E. apply sget_In in E. specialize (HV d Hd). inversion HV as [S' d' H]; subst. destruct (H _ _ E) as [(v & Pr & Vv)|(Hno & _ & _ & F)].
      - inversion Vv as [v' ty y Lf Ht| |]; subst. inversion Ht as [ty' t Hty Hne| z|s' Hf|b| | | |]; subst.
        + right. exists t. split; [reflexivity|]. intros v2 P2 L2. rewrite (once S rid v2 v [] in_here P2 Pr) in L2. rewrite <- (SchemaTypes.leaf_fun O v _ _ L2 Lf) in Hty. destruct Hty as [X|[X|[X|[]]]]; discriminate X.
        + left. exists v, z. auto.
        + exfalso. apply (Hn v (u "number") Pr Lf). left. reflexivity.
        + exfalso. apply (Hn v (u "boolean") Pr Lf). right. left. reflexivity.
      - right. inversion F as [t Ht| |]; subst. exists t. split; [reflexivity|]. intros v Pr. destruct (Hno v Pr). }
    destruct (existsb (fun d => match sget rid d with Some (JS (SInt _)) => true | _ => false end) docs) eqn:Ex.
    - right. apply existsb_exists in Ex as (d0 & Hd0 & E0). destruct (sget rid d0) as [[[]| |]|] eqn:E0'; try discriminate E0.
      destruct (G d0 _ Hd0 E0') as [(v & z0 & Pr & Lf & _)|(t & X & _)]; [|discriminate X].
      intros d s Hd E. destruct (G d s Hd E) as [(_ & z' & _ & _ & ->)|(t & _ & No)]; [eauto|]. destruct (No v Pr Lf).
    - left. intros d s Hd E. destruct (G d s Hd E) as [(_ & z' & _ & _ & ->)|(t & -> & _)]; [|eauto]. exfalso.
      assert (X : existsb (fun d => match sget rid d with Some (JS (SInt _)) => true | _ => false end) docs = true) by (apply existsb_exists; exists d; rewrite E; auto). congruence.
  Qed.
End C.

(** ** numbers *)
Lemma type_finite ty y s : of_type ty y -> scalar_in s y -> number s = true -> finite s.
Proof.
  assert (One : forall x, scalar_in s (JS x) -> s = x) by (intros x H; inversion H; reflexivity).
  assert (Txt : forall l, scalar_in s (JA (map text l)) -> number s = true -> finite s).
  { intros l H Hn. inversion H as [|l' x Hx Hs|]; subst. apply in_map_iff in Hx as (t & <- & _). rewrite (One _ Hs) in Hn. discriminate Hn. }
  assert (Num : forall l, Forall finite l -> scalar_in s (JA (map JS l)) -> finite s).
  { intros l Hl H. inversion H as [|l' x Hx Hs|]; subst. apply in_map_iff in Hx as (t & <- & Ht). rewrite (One _ Hs). rewrite Forall_forall in Hl. auto. }
  intros Ht Hs Hn. inversion Ht as [ty' t Hty Hne| z|s' Hf|b|ty' l Hty Hl _ _|l Hl Hf|ty' L Hty HL _|L HL _]; subst.
  - rewrite (One _ Hs) in Hn. discriminate Hn.
  - rewrite (One _ Hs). exact I.
  - rewrite (One _ Hs). exact Hf.
  - rewrite (One _ Hs) in Hn. discriminate Hn.
  - exact (Txt _ Hs Hn).
  - exact (Num _ Hf Hs).
  - inversion Hs as [|l' x Hx Hs'|]; subst. apply in_map_iff in Hx as (l & <- & _). exact (Txt _ Hs' Hn).
  - inversion Hs as [|l' x Hx Hs'|]; subst. apply in_map_iff in Hx as (l & <- & Hl). rewrite Forall_forall in HL. exact (Num _ (proj2 (HL _ Hl)) Hs').
Qed.
Lemma valid_numbers O s v : scalar_in s v -> number s = true ->
  (free v -> finite s) /\ (forall T, valid_value O T v -> finite s) /\ (forall T d, v = JO d -> valid O T d -> finite s).
Proof.
  intros Hs Hn. induction Hs as [|l x Hx Hs IH|d k x Hx Hs IH].
  - split; [|split].
    + intros F. inversion F; subst. discriminate Hn.
    + intros T V. inversion V as [v' ty y Lf Ht| |]; subst. exact (type_finite _ _ _ Ht (in_value s) Hn).
    + discriminate.
  - destruct IH as (A & B & C). split; [|split].
    + intros F. inversion F as [| |l' Hl]; subst. destruct (Hl _ Hx) as (d & -> & Fd). exact (A Fd).
    + intros T V. inversion V as [v' ty y Lf Ht| |v' i l' Ob Hl]; subst; [exact (type_finite _ _ _ Ht (in_items s l x Hx Hs) Hn)|]. destruct (Hl _ Hx) as (d & E & Vd). exact (C _ _ E Vd).
    + discriminate.
  - destruct IH as (A & B & C).
    assert (D : forall T, valid O T d -> finite s).
    { intros T V. inversion V as [T' d' H]; subst. destruct (H _ _ Hx) as [(v & _ & Vv)|(_ & _ & _ & F)]; [exact (B _ Vv)|exact (A F)]. }
    split; [|split].
    + intros F. inversion F as [|d' Hd|]; subst. destruct (Hd _ _ Hx) as (_ & _ & Fx). exact (A Fx).
    + intros T V. inversion V as [v' ty y Lf Ht|v' e Ob Ve|]; subst; [inversion Ht|]. exact (D _ Ve).
    + intros T e [= <-] V. exact (D _ V).
Qed.
Lemma valid_finite O S d : valid O S d -> numbers_finite (JO d).
Proof. intros V s Hs Hn. exact (proj2 (proj2 (valid_numbers O s (JO d) Hs Hn)) S d eq_refl V). Qed.
