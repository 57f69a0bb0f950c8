(** Boolean checks of the conditions on schemas, for the examples. *)
From Verif.Base Require Import PyStr PyNum PyVal PyDict Outcome.
From Verif.Model Require Import Flatten Titles Schema.
From Verif.Spec Require Import Headings Flat SchemaFields.
From Verif.Proofs Require Import SchemaTrace SchemaRun SchemaColumns SchemaState SchemaTypes SchemaTotal SchemaReady.

Section Check.
  Variable O : sopts.
  Definition ent (k : str) (v : sv) : option sv := match v with VO _ d => sget k d | _ => None end.
  Lemma ent_entry k v x : entry k v x <-> ent k v = Some x.
  Proof. split; [intros (r & d & -> & E); exact E|]. destruct v as [|?|r d]; try discriminate. intros E. exists r, d. auto. Qed.
  Definition typedb (t : str) (v : sv) : bool := inset t (types v).
  Lemma typedb_ok t v : typedb t v = true <-> typed t v.
  Proof. apply inset_typed. Qed.
  Definition vtrue (v : sv) : bool := negb (vfalsy v).
  Definition depb (v : sv) : bool :=
    match ent (u "deprecated") v with Some x => vtrue x | None => false end ||
    match v with VO (Some r) _ => match sget (u "deprecated") r with Some x => vtrue x | None => false end | _ => false end.
  Lemma vtrue_ok v : vtrue v = true -> truthy v.
  Proof. unfold vtrue, truthy, vfalsy. destruct v as [s|[|? ?]|r [|? ?]]; try discriminate. destruct (falsy s); [discriminate|reflexivity]. Qed.
  Lemma depb_ok v : depb v = true -> is_deprecated v.
  Proof.
    unfold depb. intros H. apply orb_true_iff in H as [H|H].
    - destruct (ent (u "deprecated") v) as [x|] eqn:E; [|discriminate]. exists x. split; [apply vtrue_ok; exact H|]. left. apply ent_entry. exact E.
    - destruct v as [|?|[r|] d]; try discriminate. destruct (sget (u "deprecated") r) as [x|] eqn:E; [|discriminate]. exists x. split; [apply vtrue_ok; exact H|]. right. exists r, d. auto.
  Qed.
  Definition props (S : sv) : list (str * sv) :=
    match ent (u "properties") S with Some (VO _ d) => filter (fun nv => negb (so_nodep O && depb (snd nv))) d | _ => [] end.
  Lemma props_ok S n v : property O S n v -> In (n, v) (props S).
  Proof.
    intros (r & d & E & Hin & Hd). apply ent_entry in E. unfold props. rewrite E. apply filter_In. split; [exact Hin|]. cbn [snd].
    destruct (so_nodep O); [|reflexivity]. destruct (depb v) eqn:Q; [|reflexivity]. destruct (Hd eq_refl). apply depb_ok. exact Q.
  Qed.
  Lemma props_size S n v : In (n, v) (props S) -> (sv_size v < sv_size S)%nat.
  Proof.
    unfold props. destruct (ent (u "properties") S) as [[|?|r d]|] eqn:E; try (intros []; fail). intros H. apply filter_In in H as [H _].
    pose proof (size_prop d n v r H). apply ent_entry in E. pose proof (size_entry _ _ _ E). lia.
  Qed.
  Definition noaltb (S : sv) : bool := match ent (u "type") S with Some x => negb (is_str (u "array") x) | None => true end.
  Lemma noaltb_ok S : noaltb S = true -> forall o, ~ alternatives S o.
  Proof. unfold noaltb. intros H o (i & Et & _). apply ent_entry in Et. rewrite Et in H. vm_compute in H. discriminate. Qed.
  Lemma top_noalt S R : noaltb S = true -> top S R -> R = S.
  Proof. intros H [(l & A & _)|[_ E]]; [destruct (noaltb_ok S H _ A)|exact E]. Qed.

  Fixpoint withins (n : nat) (S : sv) : list sv :=
    S :: match n with
         | 0%nat => []
         | Datatypes.S n' => flat_map (fun nv => (if typedb (u "object") (snd nv) then withins n' (snd nv) else []) ++
                       match ent (u "items") (snd nv) with Some i => if typedb (u "object") i then withins n' i else [] | None => [] end) (props S)
         end.
  Lemma withins_ok S T : within O S T -> forall n, (sv_size S <= n)%nat -> In T (withins n S).
  Proof.
    induction 1 as [S|S n v T Hp Ho W IH|S n v i T Hp Ho W IH]; intros k Hk.
    - destruct k; left; reflexivity.
    - apply props_ok in Hp. pose proof (props_size _ _ _ Hp). destruct k; [lia|]. right. apply in_flat_map. exists (n, v). split; [exact Hp|]. cbn [snd].
      rewrite (proj2 (typedb_ok _ _) (proj1 Ho)). apply in_or_app. left. apply IH. lia.
    - apply props_ok in Hp. pose proof (props_size _ _ _ Hp). destruct k; [lia|]. right. apply in_flat_map. exists (n, v). split; [exact Hp|]. cbn [snd].
      destruct Ho as ((_ & _ & Ei) & Ti & _). pose proof (size_entry _ _ _ Ei). apply ent_entry in Ei. rewrite Ei, (proj2 (typedb_ok _ _) Ti). apply in_or_app. right. apply IH. lia.
  Qed.
  Definition all_within (S : sv) (f : sv -> bool) : bool := forallb f (withins (sv_size S) S).
  Lemma all_within_ok S f : all_within S f = true -> forall T, within O S T -> f T = true.
  Proof. intros H T W. unfold all_within in H. rewrite forallb_forall in H. apply H. apply withins_ok; auto. Qed.
  Lemma all_props_ok S (f : str -> sv -> bool) : all_within S (fun T => forallb (fun nv => f (fst nv) (snd nv)) (props T)) = true ->
    forall T n v, within O S T -> property O T n v -> f n v = true.
  Proof. intros H T n v W P. pose proof (all_within_ok S _ H T W) as Q. rewrite forallb_forall in Q. apply (Q (n, v)). apply props_ok. exact P. Qed.

  (** names *)
  Definition nonempty (n : str) : bool := match n with [] => false | _ => true end.
  Definition plainb (n : str) : bool := nonempty n && match parse_int n with None => true | _ => false end && negb (mem_c 47%N n).
  Lemma named_ok S : noaltb S = true -> all_within S (fun T => forallb (fun nv => nonempty (fst nv)) (props T)) = true -> named_fields O S.
  Proof. intros Na H R T n v Tp W P. rewrite (top_noalt S R Na Tp) in W. pose proof (all_props_ok S (fun n _ => nonempty n) H T n v W P) as Q. destruct n; [discriminate|discriminate]. Qed.
  Lemma along_last S p v : along O S p v -> forall q n, p = q ++ [HKey n] -> exists T w, within O S T /\ property O T n w.
  Proof.
    induction 1 as [S m v Hp|S m v p w Hp Ho A IH|S m v i k p w Hp Ho A IH]; intros q n E.
    - destruct q as [|x q]; [injection E as <-; exists S, v; split; [apply within_here|exact Hp]|]. destruct q; discriminate.
    - destruct (along_key O _ _ _ A) as (m' & q' & Eq). destruct q as [|x q]; [injection E as _ E; congruence|]. injection E as _ E. destruct (IH q n E) as (T & w' & W & P). exists T, w'. split; [eapply within_object; eauto|exact P].
    - destruct (along_key O _ _ _ A) as (m' & q' & Eq). destruct q as [|x [|y q]]; [discriminate|injection E as _ E1 E; discriminate|]. injection E as _ _ E. destruct (IH q n E) as (T & w' & W & P). exists T, w'. split; [eapply within_array; eauto|exact P].
  Qed.
  Lemma plain_ok S : noaltb S = true -> all_within S (fun T => forallb (fun nv => plainb (fst nv)) (props T)) = true -> plain_names O S.
  Proof.
    intros Na H R p n v Tp A. rewrite (top_noalt S R Na Tp) in A. destruct (along_last S _ v A p n eq_refl) as (T & w & W & P).
    pose proof (all_props_ok S (fun n _ => plainb n) H T n w W P) as Q. unfold plainb in Q. apply andb_true_iff in Q as [Q Q3]. apply andb_true_iff in Q as [Q1 Q2].
    split; [split; [destruct n; discriminate|destruct (parse_int n); [discriminate|reflexivity]]|]. intros X. assert (Y : mem_c 47%N n = true) by (apply existsb_exists; exists 47%N; auto using N.eqb_refl). rewrite Y in Q3. discriminate.
  Qed.
  (** keys *)
  Fixpoint nodupb (l : list str) : bool := match l with [] => true | x :: l' => negb (str_mem x l') && nodupb l' end.
  Lemma nodupb_ok l : nodupb l = true -> NoDup l.
  Proof. induction l as [|x l IH]; intros H; [constructor|]. cbn in H. apply andb_true_iff in H as [A B]. constructor; [|auto]. intros X. apply str_mem_In in X. rewrite X in A. discriminate. Qed.
  Lemma NoDup_map_eq {A B} (f : A -> B) l a b : NoDup (map f l) -> In a l -> In b l -> f a = f b -> a = b.
  Proof.
    induction l as [|x l IH]; [intros _ []|]. cbn. intros N Ha Hb E. inversion N as [|? ? N1 N2]; subst. destruct Ha as [<-|Ha], Hb as [<-|Hb]; auto.
    - destruct N1. rewrite E. apply in_map. exact Hb.
    - destruct N1. rewrite <- E. apply in_map. exact Ha.
  Qed.
  Lemma keys_ok S : noaltb S = true -> all_within S (fun T => nodupb (map fst (props T))) = true -> keys_once O S.
  Proof.
    intros Na H R T n v w Tp W P P'. rewrite (top_noalt S R Na Tp) in W. pose proof (all_within_ok S _ H T W) as Q. apply nodupb_ok in Q. apply props_ok in P, P'.
    pose proof (NoDup_map_eq fst _ (n, v) (n, w) Q P P' eq_refl) as E. injection E as ->. reflexivity.
  Qed.

  (** sheets *)
  Fixpoint places (n : nat) (S : sv) (p : place) : list (place * str * sv) :=
    match n with
    | 0%nat => []
    | Datatypes.S n' => flat_map (fun nv => (if typedb (u "object") (snd nv) then places n' (snd nv) (below O S p (fst nv) (snd nv) (u "/")) else []) ++
        match ent (u "items") (snd nv) with
        | Some i => if typedb (u "object") i then (p, fst nv, snd nv) :: places n' i (below O S p (fst nv) (snd nv) (u "/0/")) else []
        | None => [] end) (props S)
    end.
  Lemma places_ok S p T q : objects_at O S p T q -> forall n v i, property O T n v -> objects v i -> forall k, (sv_size S <= k)%nat -> In (q, n, v) (places k S p).
  Proof.
    induction 1 as [S p|S p n v T q Hp Ho W IH|S p n v i T q Hp Ho W IH]; intros m x j Pr Ob k Hk.
    - pose proof (props_ok _ _ _ Pr) as Hp. pose proof (props_size _ _ _ Hp). destruct k; [lia|]. cbn [places]. apply in_flat_map. exists (m, x). split; [exact Hp|]. cbn [fst snd].
      destruct Ob as ((_ & _ & Ei) & Ti & _). apply ent_entry in Ei. rewrite Ei, (proj2 (typedb_ok _ _) Ti). apply in_or_app. right. left. reflexivity.
    - apply props_ok in Hp. pose proof (props_size _ _ _ Hp). destruct k; [lia|]. cbn [places]. apply in_flat_map. exists (n, v). split; [exact Hp|]. cbn [fst snd].
      rewrite (proj2 (typedb_ok _ _) (proj1 Ho)). apply in_or_app. left. eapply IH; eauto. lia.
    - apply props_ok in Hp. pose proof (props_size _ _ _ Hp). destruct k; [lia|]. cbn [places]. apply in_flat_map. exists (n, v). split; [exact Hp|]. cbn [fst snd].
      destruct Ho as ((_ & _ & Ei) & Ti & _). pose proof (size_entry _ _ _ Ei). apply ent_entry in Ei. rewrite Ei, (proj2 (typedb_ok _ _) Ti). apply in_or_app. right. right. eapply IH; eauto. lia.
  Qed.
  Lemma apart_ok S : noaltb S = true -> nodupb (map (fun a => sheet_of O (fst (fst a)) (snd (fst a)) (snd a)) (places (sv_size S) S whole)) = true -> sheets_apart O S.
  Proof.
    intros Na H q ids n v i q' ids' n' v' i' (R & T & Tp & A & P & Ob & _) (R' & T' & Tp' & A' & P' & Ob' & _) E. rewrite (top_noalt S R Na Tp) in A. rewrite (top_noalt S R' Na Tp') in A'.
    apply nodupb_ok in H. pose proof (NoDup_map_eq _ _ (q, n, v) (q', n', v') H (places_ok _ _ _ _ A _ _ _ P Ob _ (le_n _)) (places_ok _ _ _ _ A' _ _ _ P' Ob' _ (le_n _)) E) as Q.
    injection Q as -> -> _. auto.
  Qed.

  (** titles *)
  Definition key_of (v : sv) : list str := match title_of v with Some t => [so_lower O (remove_c 32%N t)] | None => [] end.
  Definition titles_ok (T : sv) : bool :=
    forallb (fun nv => negb (typedb (u "object") (snd nv) || typedb (u "array") (snd nv)) || match title_of (snd nv) with Some _ => true | None => false end) (props T) &&
    match ent (u "properties") T with Some (VO _ d) => nodupb (flat_map (fun nv => key_of (snd nv)) d) | _ => true end.
  Lemma pairs_ok (d : list (str * sv)) : NoDup (flat_map (fun nv => key_of (snd nv)) d) ->
    ForallOrdPairs (fun a b : str * sv => forall t t', left_in O (snd a) -> left_in O (snd b) -> title_of (snd a) = Some t -> title_of (snd b) = Some t' -> ~ same_title O t t') d.
  Proof.
    induction d as [|[n v] d IH]; intros N; [constructor|]. cbn [flat_map] in N. constructor.
    - apply Forall_forall. intros [m w] Hm t t' _ _ Et Et' E. cbn [snd] in *. unfold key_of at 1 in N. rewrite Et in N. cbn [app] in N. inversion N as [|? ? N1 _]; subst. apply N1.
      apply in_flat_map. exists (m, w). split; [exact Hm|]. unfold key_of. cbn [snd]. rewrite Et'. left. symmetry. exact E.
    - apply IH. unfold key_of at 1 in N. destruct (title_of (snd (n, v))); [inversion N; assumption|exact N].
  Qed.
  Lemma clear_ok S : noaltb S = true -> all_within S titles_ok = true -> clear_titles O S.
  Proof.
    intros Na H. split; [apply noaltb_ok; exact Na|]. intros T W. pose proof (all_within_ok S _ H T W) as Q. apply andb_true_iff in Q as [Q1 Q2]. split.
    - intros n v P Ho. rewrite forallb_forall in Q1. specialize (Q1 (n, v) (props_ok _ _ _ P)). cbn [snd] in Q1.
      assert (X : typedb (u "object") v || typedb (u "array") v = true) by (apply orb_true_iff; rewrite !typedb_ok; destruct Ho as [[X _]|(i & (_ & X & _) & _)]; auto).
      rewrite X in Q1. cbn [negb orb] in Q1. destruct (title_of v) as [t|]; [eauto|discriminate].
    - intros r d E. apply ent_entry in E. rewrite E in Q2. apply pairs_ok, nodupb_ok, Q2.
  Qed.

  (** readable schemas *)
  Definition objb (v : sv) : bool := match v with VO _ _ => true | _ => false end.
  Lemma objb_ok v : objb v = true -> is_object v.
  Proof. destruct v; try discriminate. intros _. eexists _, _. reflexivity. Qed.
  Definition isvs (v : sv) : bool := match v with VS _ => true | _ => false end.
  Definition istext (v : sv) : bool := match v with VS (SStr _) => true | _ => false end.
  Definition istext_none (v : sv) : bool := match v with VS (SStr _) | VS SNone => true | _ => false end.
  Lemma istext_none_ok v : istext_none v = true -> v = VS SNone \/ exists t, v = VS (SStr t).
  Proof. destruct v as [[]| |]; try discriminate; eauto. Qed.
  Definition tlistb (v : sv) : bool := match ent (u "type") v with None | Some (VS _) => true | Some (VA l) => forallb isvs l | _ => false end.
  Lemma tlistb_ok v : tlistb v = true -> types_listed v.
  Proof.
    unfold tlistb. intros H x E. apply ent_entry in E. rewrite E in H. destruct x as [s|l|]; [left; eauto| |discriminate]. right. exists l. split; [reflexivity|]. rewrite forallb_forall in H.
    intros y Hy. specialize (H y Hy). destruct y; [eauto|discriminate|discriminate].
  Qed.
  Definition optb (f : sv -> bool) (x : option sv) : bool := match x with Some v => f v | None => true end.
  Definition arrayb (fineb : sv -> bool) (v : sv) : bool :=
    match ent (u "items") v with
    | None => false
    | Some i => objb i && tlistb i &&
        (((typedb (u "string") i || isnil (types i) || typedb (u "number") i ||
           (typedb (u "array") i && match ent (u "items") i with Some j => typedb (u "string") j || typedb (u "number") j | None => false end)) &&
          optb (fun j => objb j && tlistb j) (ent (u "items") i))
         || (typedb (u "object") i && negb (typedb (u "string") i) && negb (typedb (u "number") i) && negb (typedb (u "array") i) && fineb i))
    end.
  Definition propb (fineb : sv -> bool) (v : sv) : bool :=
    tlistb v && optb istext_none (own_title v) &&
    (negb (typedb (u "object") v) || (optb objb (ent (u "properties") v) && fineb v)) &&
    (typedb (u "object") v || negb (typedb (u "array") v) || arrayb fineb v) &&
    optb (fun x => match x with VA l => forallb istext l | _ => false end) (ent (u "rollUp") v).
  Fixpoint fineb (n : nat) (v : sv) : bool :=
    match n with
    | 0%nat => false
    | Datatypes.S n' => objb v &&
        match ent (u "properties") v with
        | None => true
        | Some (VO _ ps) => forallb (fun nw => objb (snd nw) && propb (fineb n') (snd nw)) ps &&
                            optb (fun i => match i with VO _ e => optb istext_none (sget (u "title") e) | _ => false end) (sget (u "id") ps)
        | _ => false
        end
    end.
  Lemma typed_dec t v : typed t v \/ ~ typed t v.
  Proof. destruct (typedb t v) eqn:E; [left; apply typedb_ok; exact E|right; intros H; apply typedb_ok in H; congruence]. Qed.
  Lemma propb_ok n v : (forall w, fineb n w = true -> fine O w) -> propb (fineb n) v = true -> fine_property O v.
  Proof.
    intros IH H. unfold propb in H. apply andb_true_iff in H as [H H5]. apply andb_true_iff in H as [H H4]. apply andb_true_iff in H as [H H3]. apply andb_true_iff in H as [H1 H2]. constructor.
    - apply tlistb_ok. exact H1.
    - intros x E. rewrite E in H2. apply istext_none_ok. exact H2.
    - intros T. apply typedb_ok in T. rewrite T in H3. cbn [negb orb] in H3. apply andb_true_iff in H3 as [A B]. split; [|intros _; apply IH; exact B]. intros p E. apply ent_entry in E. rewrite E in A. apply objb_ok. exact A.
    - intros NT T. assert (typedb (u "object") v = false) as Q by (destruct (typedb (u "object") v) eqn:Q; [destruct NT; apply typedb_ok; exact Q|reflexivity]). pose proof (proj2 (typedb_ok (u "array") v) T) as T'. rewrite Q, T' in H4. cbn [negb orb] in H4.
      unfold arrayb in H4. destruct (ent (u "items") v) as [i|] eqn:Ei; [|discriminate]. apply ent_entry in Ei. exists i. split; [exact Ei|].
      apply andb_true_iff in H4 as [A B]. apply andb_true_iff in A as [A1 A2]. split; [apply objb_ok; exact A1|]. split; [apply tlistb_ok; exact A2|].
      assert (Ar : an_array v i) by (repeat split; assumption).
      apply orb_true_iff in B as [B|B].
      + left. apply andb_true_iff in B as [B C]. split.
        * destruct (typed_dec (u "string") i) as [S1|S1]; [eexists; eapply leaf_strings; eauto|]. destruct (types i) eqn:En; [eexists; eapply leaf_strings; eauto|]. rewrite <- En in *.
          destruct (typed_dec (u "number") i) as [S2|S2]; [eexists; eapply leaf_numbers; eauto|].
          assert (X1 : typedb (u "string") i = false) by (destruct (typedb (u "string") i) eqn:X; [destruct S1; apply typedb_ok; exact X|reflexivity]).
          assert (X2 : typedb (u "number") i = false) by (destruct (typedb (u "number") i) eqn:X; [destruct S2; apply typedb_ok; exact X|reflexivity]).
          rewrite X1, X2, En in B. cbn [isnil orb] in B. apply andb_true_iff in B as [B1 B2]. destruct (ent (u "items") i) as [j|] eqn:Ej; [|discriminate]. apply orb_true_iff in B2. rewrite !typedb_ok in B2.
          eexists. eapply leaf_arrays; eauto; [apply typedb_ok; exact B1|apply ent_entry; exact Ej].
        * intros j Ej. apply ent_entry in Ej. rewrite Ej in C. cbn [optb] in C. apply andb_true_iff in C as [C1 C2]. split; [apply objb_ok; exact C1|apply tlistb_ok; exact C2].
      + right. apply andb_true_iff in B as [B B5]. apply andb_true_iff in B as [B B4]. apply andb_true_iff in B as [B B3]. apply andb_true_iff in B as [B1 B2].
        split; [|apply IH; exact B5]. split; [exact Ar|]. split; [apply typedb_ok; exact B1|].
        repeat split; intros X; apply typedb_ok in X; [rewrite X in B2|rewrite X in B3|rewrite X in B4]; discriminate.
    - intros x E. apply ent_entry in E. rewrite E in H5. cbn [optb] in H5. destruct x as [|l|]; try discriminate. exists l. split; [reflexivity|]. rewrite forallb_forall in H5. intros y Hy. specialize (H5 y Hy). destruct y as [[]| |]; try discriminate. eauto.
  Qed.
  Lemma fineb_ok n : forall v, fineb n v = true -> fine O v.
  Proof.
    induction n as [|n IH]; intros v H; [discriminate|]. cbn [fineb] in H. apply andb_true_iff in H as [H1 H2]. constructor; [apply objb_ok; exact H1|].
    intros p E. apply ent_entry in E. rewrite E in H2. destruct p as [|?|r ps]; try discriminate. apply andb_true_iff in H2 as [H2 H3]. exists r, ps. split; [reflexivity|]. split.
    - intros m w Hm. rewrite forallb_forall in H2. specialize (H2 (m, w) Hm). cbn [snd] in H2. apply andb_true_iff in H2 as [A B]. split; [apply objb_ok; exact A|]. intros _. eapply propb_ok; eauto.
    - intros i Ei. rewrite Ei in H3. cbn [optb] in H3. destruct i as [|?|r' e]; try discriminate. exists r', e. split; [reflexivity|]. intros x Ex. rewrite Ex in H3. apply istext_none_ok. exact H3.
  Qed.
  Lemma fine_ok S n : noaltb S = true -> optb objb (ent (u "items") S) = true -> fineb n S = true -> fine_schema O S.
  Proof.
    intros Na Hi H. split; [destruct n; [discriminate|]; cbn [fineb] in H; apply andb_true_iff in H as [H _]; apply objb_ok; exact H|]. left. split; [apply noaltb_ok; exact Na|].
    split; [|eapply fineb_ok; exact H]. intros i Ei. apply ent_entry in Ei. rewrite Ei in Hi. apply objb_ok. exact Hi.
  Qed.
End Check.
