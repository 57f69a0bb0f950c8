(** A check of the conditions on documents, for the examples. *)
From Verif.Base Require Import PyStr PyNum PyVal PyDict Outcome.
From Verif.Model Require Import Convert Input Flatten.
From Verif.Spec Require Import Flat Sites Paths Headings RoundTrip Alike.
From Verif.Proofs Require Import JvInd Total RowRead.

Definition heading_key_b (k : str) : bool :=
  negb (str_eqb k []) && match parse_int k with None => true | _ => false end && negb (existsb (N.eqb 47%N) k) && str_eqb (rstrip is_bracket k) k.
Lemma heading_key_check k : heading_key_b k = true -> heading_key k.
Proof.
  unfold heading_key_b. intros H. apply andb_prop in H as [H H4]. apply andb_prop in H as [H H3]. apply andb_prop in H as [H1 H2]. split; [split|split].
  - intros ->. discriminate H1.
  - destruct (parse_int k); [discriminate|reflexivity].
  - intros Hin. rewrite (proj2 (existsb_exists (N.eqb 47%N) k)) in H3; [discriminate|]. exists 47%N. split; [exact Hin|reflexivity].
  - apply str_eqb_eq. exact H4.
Qed.
Definition plain_b (s : scalar) : bool := match s with SStr t => negb (str_eqb t []) | SInt _ => true | _ => false end.
Definition value_b (o : option jv) : bool := match o with Some (JS s) => plain_b s | _ => false end.
Lemma plain_check s : plain_b s = true -> plain_value s.
Proof. destruct s; try discriminate; intros H; [right; eauto|left]. eexists. split; [reflexivity|]. intros ->. discriminate H. Qed.
Definition scalar_same (a b : scalar) : bool :=
  match a, b with SStr x, SStr y => str_eqb x y | SInt x, SInt y => Z.eqb x y | SNone, SNone => true | SStr _, SInt _ | SInt _, SStr _ => false | _, _ => true end.
Fixpoint nodup_b {A} (eqb : A -> A -> bool) (l : list A) : bool := match l with [] => true | x :: l' => negb (existsb (eqb x) l') && nodup_b eqb l' end.
Lemma nodup_check {A} (eqb : A -> A -> bool) : (forall x, eqb x x = true) -> forall l, nodup_b eqb l = true -> NoDup l.
Proof.
  intros He l. induction l as [|x l IH]; intros H; [constructor|]. cbn in H. apply andb_prop in H as [H1 H2]. constructor; [|exact (IH H2)]. intros Hin. rewrite (proj2 (existsb_exists (eqb x) l)) in H1; [discriminate|]. exists x. auto.
Qed.
Definition field_same (a b : option jv) : bool := match a, b with Some (JS x), Some (JS y) => scalar_same x y | None, Some _ | Some _, None => false | _, _ => true end.
Lemma field_same_refl a : field_same a a = true.
Proof. destruct a as [[[]| |]|]; cbn; try reflexivity; [apply Z.eqb_refl|apply str_eqb_refl]. Qed.
Definition leaf_b (y : jv) : bool :=
  match y with
  | JS s => basic s
  | JA l => negb (Nat.eqb (length l) 0) && (forallb jbasic l || forallb (fun x => match x with JA l' => forallb jbasic l' | _ => false end) l)
  | JO _ => false
  end.
Lemma leaf_check y : leaf_b y = true <-> leaf y.
Proof.
  destruct y as [s|l|d]; cbn [leaf_b leaf]; [tauto| |split; [discriminate|tauto]]. rewrite andb_true_iff, orb_true_iff, !forallb_forall. destruct l as [|x l].
  - split; [intros [H _]; discriminate|intros [H _]; congruence].
  - split.
    + intros [_ [H|H]]; (split; [discriminate|]); [left; exact H|right]. intros z Hz. specialize (H z Hz). destruct z as [|l'|]; try discriminate. exists l'. split; [reflexivity|]. rewrite forallb_forall in H. exact H.
    + intros [_ [H|H]]; (split; [reflexivity|]); [left; exact H|right]. intros z Hz. destruct (H z Hz) as (l' & -> & H'). apply forallb_forall. exact H'.
Qed.
Fixpoint tidy_b (idn : str) (v : jv) : bool :=
  leaf_b v ||
  match v with
  | JS _ => false
  | JO d => negb (Nat.eqb (length d) 0) && nodup_b str_eqb (map fst d) &&
      (fix all (d : jobj) : bool := match d with [] => true | (k, x) :: d' => heading_key_b k && tidy_b idn x && all d' end) d &&
      match sget idn d with Some v => value_b (Some v) | None => true end
  | JA l => negb (Nat.eqb (length l) 0) &&
      (fix all (l : list jv) : bool := match l with [] => true | x :: l' => tidy_b idn x && value_b (id_field idn x) && all l' end) l &&
      nodup_b field_same (map (id_field idn) l)
  end.
Lemma value_check o : value_b o = true -> has_value o.
Proof. destruct o as [[s| |]|]; try discriminate. intros H. exists s. split; [reflexivity|exact (plain_check _ H)]. Qed.
Lemma tidy_check idn v : tidy_b idn v = true -> tidy idn v.
Proof.
  induction v as [s|l IH|d IH] using jv_ind'; intros H.
  - apply tidy_leaf. cbn in H. rewrite orb_false_r in H. exact H.
  - cbn [tidy_b] in H. apply orb_prop in H as [H|H]; [apply tidy_leaf; apply leaf_check; exact H|]. apply andb_prop in H as [H H3]. apply andb_prop in H as [H1 H2]. apply tidy_array.
    + intros ->. discriminate H1.
    + clear H1 H3. induction IH as [|x l Hx IH IHl]; intros y []; cbn in H2; apply andb_prop in H2 as [H2 H4]; apply andb_prop in H2 as [H2 H3]; [subst; split; [exact (Hx H2)|exact (value_check _ H3)]|exact (IHl H4 y H)].
    + exact (nodup_check _ field_same_refl _ H3).
  - cbn [tidy_b leaf_b orb] in H. apply andb_prop in H as [H H4]. apply andb_prop in H as [H H3]. apply andb_prop in H as [H1 H2]. apply tidy_object.
    + intros ->. discriminate H1.
    + exact (nodup_check _ str_eqb_refl _ H2).
    + clear H1 H2 H4. induction IH as [|[k x] d Hx IH IHl]; intros k' v' []; cbn in H3; apply andb_prop in H3 as [H3 H5]; apply andb_prop in H3 as [H3 H4]; [injection H as <- <-; split; [exact (heading_key_check _ H3)|exact (Hx H4)]|exact (IHl H5 _ _ H)].
    + intros v Hv. rewrite Hv in H4. exact (value_check _ H4).
Qed.
Fixpoint lacks_b (k : str) (v : jv) : bool :=
  match v with
  | JS _ => true
  | JO d => match sget k d with None => true | _ => false end && (fix all (d : jobj) : bool := match d with [] => true | (_, x) :: d' => lacks_b k x && all d' end) d
  | JA l => (fix all (l : list jv) : bool := match l with [] => true | x :: l' => lacks_b k x && all l' end) l
  end.
Definition inside_lacks_b (k : str) (d : jobj) : bool := (fix all (d : jobj) : bool := match d with [] => true | (_, x) :: d' => lacks_b k x && all d' end) d.
Lemma inside_in k d : inside_lacks_b k d = true -> forall a x, In (a, x) d -> lacks_b k x = true.
Proof. induction d as [|[a0 x0] d IH]; intros H a x []; cbn in H; apply andb_prop in H as [H1 H2]; [injection H0 as <- <-; exact H1|exact (IH H2 a x H0)]. Qed.
Lemma lacks_at k q : forall v, lacks_b k v = true -> forall d, at_path v q = Some (JO d) -> sget k d = None.
Proof.
  induction q as [|[k0 o] q IH]; intros v H d Ha; cbn [at_path] in Ha.
  - injection Ha as ->. cbn in H. apply andb_prop in H as [H _]. destruct (sget k d); [discriminate|reflexivity].
  - destruct v as [| |e]; try discriminate. cbn in H. apply andb_prop in H as [_ H]. change (inside_lacks_b k e = true) in H. destruct o as [i|].
    + destruct (sget k0 e) as [[|l|]|] eqn:E; try discriminate. destruct (nth_error l i) as [y|] eqn:Ei; [|discriminate]. apply (IH y); [|exact Ha]. apply sget_In in E. pose proof (inside_in k e H _ _ E) as Hl. cbn in Hl.
      clear - Hl Ei. revert i Ei. induction l as [|z l IHl]; intros [|i] Ei; try discriminate; cbn in Ei; cbn in Hl; apply andb_prop in Hl as [H1 H2]; [injection Ei as ->; exact H1|exact (IHl H2 i Ei)].
    + destruct (sget k0 e) as [y|] eqn:E; [|discriminate]. apply sget_In in E. exact (IH y (inside_in k e H _ _ E) d Ha).
Qed.
Lemma once_check O d : inside_lacks_b (po_root_id O) d = true -> root_id_once O (JO d).
Proof.
  intros H [|[k o] q] e Hne Ha _; [contradiction|]. cbn [at_path] in Ha. destruct o as [i|].
  - destruct (sget k d) as [[|l|]|] eqn:E; try discriminate. apply sget_In in E. pose proof (inside_in _ _ H _ _ E) as Hl. destruct (nth_error l i) as [y|] eqn:Ei; [|discriminate]. apply (lacks_at (po_root_id O) q y); [|exact Ha].
    cbn in Hl. clear - Hl Ei. revert i Ei. induction l as [|z l IHl]; intros [|i] Ei; try discriminate; cbn in Ei; cbn in Hl; apply andb_prop in Hl as [H1 H2]; [injection Ei as ->; exact H1|exact (IHl H2 i Ei)].
  - destruct (sget k d) as [y|] eqn:E; [|discriminate]. apply sget_In in E. exact (lacks_at _ q y (inside_in _ _ H _ _ E) e Ha).
Qed.
Definition documents_b (O : popts) (docs : list jobj) : bool :=
  heading_key_b (po_id_name O) && (str_eqb (po_root_id O) [] || heading_key_b (po_root_id O)) &&
  forallb (fun d => tidy_b (po_id_name O) (JO d) && value_b (sget (po_id_name O) d) && (str_eqb (po_root_id O) [] || value_b (sget (po_root_id O) d)) && inside_lacks_b (po_root_id O) d) docs &&
  nodup_b (fun a b => field_same (fst a) (fst b) && field_same (snd a) (snd b)) (map (record_key O) docs).
Theorem documents_check O docs : documents_b O docs = true -> documents O docs.
Proof.
  unfold documents_b. intros H. apply andb_prop in H as [H H4]. apply andb_prop in H as [H H3]. apply andb_prop in H as [H1 H2].
  assert (Hor : forall b, str_eqb (po_root_id O) [] || b = true -> po_root_id O <> [] -> b = true).
  { intros b Hb Hne. destruct (str_eqb_spec (po_root_id O) []); [contradiction|exact Hb]. }
  split; [exact (heading_key_check _ H1)|]. split; [intros Hne; exact (heading_key_check _ (Hor _ H2 Hne))|]. split.
  - apply Forall_forall. intros d Hd. rewrite forallb_forall in H3. specialize (H3 d Hd). apply andb_prop in H3 as [H3 H8]. apply andb_prop in H3 as [H3 H7]. apply andb_prop in H3 as [H5 H6].
    split; [exact (tidy_check _ _ H5)|]. split; [exact (value_check _ H6)|]. split; [intros Hne; exact (value_check _ (Hor _ H7 Hne))|exact (once_check O d H8)].
  - refine (nodup_check _ _ _ H4). intros [x y]. cbn. rewrite !field_same_refl. reflexivity.
Qed.

(** ** All places of a document *)
Definition under_step (st : jstep) (p : jpath * jv) : jpath * jv := (st :: fst p, snd p).
Fixpoint places (v : jv) : list (jpath * jv) :=
  ([], v) ::
  match v with
  | JO d => (fix over (d : jobj) : list (jpath * jv) :=
      match d with
      | [] => []
      | (k, x) :: d' =>
        map (under_step (k, None)) (places x) ++
        match x with
        | JA l => (fix each (i : nat) (l : list jv) : list (jpath * jv) :=
            match l with [] => [] | y :: l' => map (under_step (k, Some i)) (places y) ++ each (S i) l' end) 0 l
        | _ => []
        end ++ over d'
      end) d
  | _ => []
  end.
Definition places_each (k : str) : nat -> list jv -> list (jpath * jv) :=
  fix each (i : nat) (l : list jv) : list (jpath * jv) :=
    match l with [] => [] | y :: l' => map (under_step (k, Some i)) (places y) ++ each (S i) l' end.
Definition places_over : jobj -> list (jpath * jv) :=
  fix over (d : jobj) : list (jpath * jv) :=
    match d with
    | [] => []
    | (k, x) :: d' => map (under_step (k, None)) (places x) ++ match x with JA l => places_each k 0 l | _ => [] end ++ over d'
    end.
Lemma places_JO d : places (JO d) = ([], JO d) :: places_over d.
Proof. reflexivity. Qed.
Lemma each_place k l : forall s i y p, nth_error l i = Some y -> In p (places y) -> In (under_step (k, Some (s + i)) p) (places_each k s l).
Proof.
  induction l as [|x l IH]; intros s [|i] y p Hn Hp; try discriminate; cbn in Hn; cbn [places_each].
  - injection Hn as ->. rewrite Nat.add_0_r. apply in_or_app. left. apply in_map. exact Hp.
  - apply in_or_app. right. replace (s + S i)%nat with (S s + i)%nat by (rewrite Nat.add_succ_r; reflexivity). exact (IH (S s) i y p Hn Hp).
Qed.
Lemma over_place d k x : In (k, x) d -> (forall p, In p (places x) -> In (under_step (k, None) p) (places_over d)) /\
  (forall l i y p, x = JA l -> nth_error l i = Some y -> In p (places y) -> In (under_step (k, Some i) p) (places_over d)).
Proof.
  induction d as [|[k0 x0] d IH]; [intros []|]. intros [E|Hin]; cbn [places_over].
  - injection E as -> ->. split.
    + intros p Hp. apply in_or_app. left. apply in_map. exact Hp.
    + intros l i y p -> Hn Hp. apply in_or_app. right. apply in_or_app. left. exact (each_place k l 0 i y p Hn Hp).
  - destruct (IH Hin) as [A B]. split; intros; apply in_or_app; right; apply in_or_app; right; [apply A|eapply B]; eassumption.
Qed.
Lemma places_all Q : forall v y, at_path v Q = Some y -> In (Q, y) (places v).
Proof.
  induction Q as [|[k o] Q IH]; intros v y H.
  - injection H as ->. destruct y; left; reflexivity.
  - cbn [at_path] in H. destruct v as [| |d]; try discriminate. rewrite places_JO. right. destruct o as [i|].
    + destruct (sget k d) as [[|l|]|] eqn:E; try discriminate. destruct (nth_error l i) as [z|] eqn:Ei; [|discriminate]. apply sget_In in E.
      exact (proj2 (over_place d k (JA l) E) l i z (Q, y) eq_refl Ei (IH z y H)).
    + destruct (sget k d) as [z|] eqn:E; [|discriminate]. apply sget_In in E. exact (proj1 (over_place d k z E) (Q, y) (IH z y H)).
Qed.

(** ** Every value survives *)
Definition same_value_b (a b : scalar) : bool :=
  match a, b with
  | SStr x, SStr y => str_eqb x y
  | SBool x, SBool y => Bool.eqb x y
  | _, _ => number a && number b && py_eqb a b
  end.
Lemma same_value_check a b : same_value_b a b = true -> same_value a b.
Proof.
  assert (G : number a && number b && py_eqb a b = true -> number a = true /\ number b = true /\ py_eqb a b = true).
  { intros H. apply andb_prop in H as [H H3]. apply andb_prop in H as [H1 H2]. auto. }
  destruct a, b; cbn [same_value_b same_value]; try exact G; [apply Bool.eqb_prop|apply str_eqb_eq].
Qed.
Fixpoint all2 {A B} (f : A -> B -> bool) (l : list A) (m : list B) : bool :=
  match l, m with [], [] => true | x :: l', y :: m' => f x y && all2 f l' m' | _, _ => false end.
Lemma all2_check {A B} (f : A -> B -> bool) (R : A -> B -> Prop) : (forall x y, f x y = true -> R x y) -> forall l m, all2 f l m = true -> Forall2 R l m.
Proof. intros H l. induction l as [|x l IH]; intros [|y m] E; try discriminate; [constructor|]. cbn in E. apply andb_prop in E as [E1 E2]. constructor; auto. Qed.
Definition same_item_b (x : jv) (b : scalar) : bool := match x with JS a => same_value_b a b | _ => false end.
Lemma same_item_check x b : same_item_b x b = true -> same_item x b.
Proof. destruct x; try discriminate. apply same_value_check. Qed.
Definition same_leaf_b (y : jv) (v : cellval) : bool :=
  match y, v with
  | JS a, CV b => same_value_b a b
  | JA l, CList m => all2 same_item_b l m
  | JA l, CList2 m => all2 (fun x r => match x with JA l' => all2 same_item_b l' r | _ => false end) l m
  | _, _ => false
  end.
Lemma same_leaf_check y v : same_leaf_b y v = true -> same_leaf y v.
Proof.
  destruct y as [a|l|d], v as [b|m|m|g]; try discriminate; cbn [same_leaf_b same_leaf].
  - apply same_value_check.
  - apply all2_check. apply same_item_check.
  - apply all2_check. intros [|l'|] r H; try discriminate. exact (all2_check _ _ same_item_check _ _ H).
Qed.
Definition fit_step (types : str -> str) (q : hpath) (k : str) (r : hpath) : bool :=
  let t := types (path_text (q ++ [HKey k])) in
  match r with
  | [] => negb (str_eqb t (u "object")) && negb (str_eqb t (u "array"))
  | HKey _ :: _ => str_eqb t [] || str_eqb t (u "object")
  | HPos _ :: _ => str_eqb t [] || str_eqb t (u "array")
  end.
Fixpoint fits_b (types : str -> str) (q p : hpath) : bool :=
  match p with
  | [] => true
  | HKey k :: r => fit_step types q k r && fits_b types (q ++ [HKey k]) r
  | HPos i :: r => fits_b types (q ++ [HPos i]) r
  end.
Lemma fits_check_gen types p : forall q, fits_b types q p = true -> forall q' k r, p = q' ++ HKey k :: r -> fit_step types (q ++ q') k r = true.
Proof.
  induction p as [|st p IH]; intros q H q' k r E; [destruct q'; discriminate|]. destruct q' as [|st' q'].
  - cbn in E. injection E as -> ->. cbn [fits_b] in H. apply andb_prop in H as [H _]. rewrite app_nil_r. exact H.
  - cbn in E. injection E as -> E. replace (q ++ st' :: q') with ((q ++ [st']) ++ q') by (rewrite <- app_assoc; reflexivity). apply IH; [|exact E].
    destruct st'; cbn [fits_b] in H; [apply andb_prop in H as [_ H]|]; exact H.
Qed.
Lemma fits_check types p : fits_b types [] p = true -> fits types p.
Proof.
  intros H q k r E. pose proof (fits_check_gen types p [] H q k r E) as G. unfold fit_step in G. cbn [app] in G. cbv zeta in *. destruct r as [|[|] r].
  - apply andb_prop in G as [G1 G2]. split; intros Q; rewrite Q in *; [discriminate G1|discriminate G2].
  - apply orb_prop in G as [G|G]; apply str_eqb_eq in G; auto.
  - apply orb_prop in G as [G|G]; apply str_eqb_eq in G; auto.
Qed.
Definition id_same_b (v : cellval) (c : scalar) : bool :=
  match v, c with CV (SStr a), SStr b => str_eqb a b | CV (SInt a), SInt b => Z.eqb a b | _, _ => false end.
Lemma id_same_check v c : id_same_b v c = true -> v = CV c.
Proof. destruct v as [[]| | |], c; try discriminate; intros H; [apply Z.eqb_eq in H|apply str_eqb_eq in H]; subst; reflexivity. Qed.
Definition is_id (idn : str) (p : hpath) : bool := match last p (HPos 0) with HKey k => str_eqb k idn | _ => false end.
Definition cell_comes_b (h : jv -> jv) (P : opts) (write : scalar -> scalar) (p : hpath) (y : jv) (c : scalar) : bool :=
  fits_b (o_types P) [] p && negb (blank (write c)) &&
  match convert_type (o_conv P) (o_types P (path_text p)) (CV (write c)) with
  | Ok v [] => negb (cv_blank v) && same_leaf_b (h y) v && (negb (is_id (o_id_name P) p) || id_same_b v c)
  | _ => false
  end.
Lemma cell_comes_check h P write p y c : cell_comes_b h P write p y c = true -> cell_comes (fun y v => same_leaf (h y) v) P write p y c.
Proof.
  unfold cell_comes_b. intros H. apply andb_prop in H as [H H3]. apply andb_prop in H as [H1 H2]. split; [exact (fits_check _ _ H1)|]. split; [destruct (blank (write c)); [discriminate|reflexivity]|].
  destruct (convert_type _ _ _) as [v [|? ?]|]; try discriminate. apply andb_prop in H3 as [H3 H5]. apply andb_prop in H3 as [H3 H4]. exists v. split; [reflexivity|]. split; [destruct (cv_blank v); [discriminate|reflexivity]|].
  split; [exact (same_leaf_check _ _ H4)|]. intros E. unfold is_id in H5. rewrite E, str_eqb_refl in H5. exact (id_same_check _ _ H5).
Qed.
Definition value_differs (write : scalar -> scalar) (s t : scalar) : bool :=
  plain_b (write s) && (negb (scalar_same (write s) (write t)) || match s, t with SStr a, SStr b => str_eqb a b | SInt a, SInt b => Z.eqb a b | _, _ => false end).
Definition come_b (h : jv -> jv) (O : popts) (P : opts) (write : scalar -> scalar) (docs : list jobj) : bool :=
  negb (o_xml P) && str_eqb (o_id_name P) (po_id_name O) && str_eqb (o_root_id P) (po_root_id O) &&
  forallb (fun d => forallb (fun p => match leaf_cell O (snd p) with
    | Some (JS c) => negb (leaf_b (snd p)) || match last (fst p) ([], Some 0%nat) with (_, None) => cell_comes_b h P write (heading_path (fst p)) (snd p) c | _ => true end
    | _ => true
    end) (places (JO d))) docs &&
  forallb (fun d => forallb (fun e => match root_key O d, root_key O e with Some (JS s), Some (JS t) => value_differs write s t | _, _ => true end) docs) docs.
Theorem come_check h O P write docs : come_b h O P write docs = true -> come (fun y v => same_leaf (h y) v) O P write docs.
Proof.
  unfold come_b. intros H. apply andb_prop in H as [H H5]. apply andb_prop in H as [H H4]. apply andb_prop in H as [H H3]. apply andb_prop in H as [H1 H2].
  split; [destruct (o_xml P); [discriminate|reflexivity]|]. split; [apply str_eqb_eq; exact H2|]. split; [apply str_eqb_eq; exact H3|]. split.
  - intros d Q k y c Hd Ha Hl Hc. rewrite forallb_forall in H4. specialize (H4 d Hd). rewrite forallb_forall in H4. specialize (H4 _ (places_all _ _ _ Ha)). cbn [fst snd] in H4. rewrite Hc in H4. rewrite (proj2 (leaf_check y) Hl), last_last in H4. exact (cell_comes_check _ _ _ _ _ _ H4).
  - intros d e s t Hd He Es Et. rewrite forallb_forall in H5. specialize (H5 d Hd). rewrite forallb_forall in H5. specialize (H5 e He). rewrite Es, Et in H5. unfold value_differs in H5. apply andb_prop in H5 as [A B]. split; [exact (plain_check _ A)|].
    intros E. rewrite <- E in B. assert (R : scalar_same (write s) (write s) = true) by (destruct (write s); cbn; try reflexivity; [apply Z.eqb_refl|apply str_eqb_refl]). rewrite R in B. cbn [negb orb] in B.
    destruct s, t; try discriminate; [apply Z.eqb_eq in B|apply str_eqb_eq in B]; subst; reflexivity.
Qed.
Definition survive_b := come_b (fun y => y).
Theorem survive_check O P write docs : survive_b O P write docs = true -> survive O P write docs.
Proof. intros H. exact (come_check (fun y => y) O P write docs H). Qed.

(** without types, texts and whole numbers survive as they are *)
Theorem untyped_survive O P docs : untyped P -> o_id_name P = po_id_name O -> o_root_id P = po_root_id O -> documents O docs ->
  (forall d Q y, In d docs -> at_path (JO d) Q = Some y -> leaf y -> exists s, y = JS s /\ plain_value s) -> survive O P as_is docs.
Proof.
  intros [Hx Hu] Hi Hr HD H. split; [exact Hx|]. split; [exact Hi|]. split; [exact Hr|]. split.
  - intros d Q k y c Hd Ha Hl Hc. destruct (H d _ y Hd Ha Hl) as (s & -> & Hs). injection Hc as <-. split; [apply untyped_fits; exact Hu|]. unfold as_is.
    assert (Hb : blank s = false) by (destruct Hs as [([|? ?] & -> & Hne)|(z & ->)]; [congruence|reflexivity|reflexivity]).
    split; [exact Hb|]. exists (CV s). rewrite Hu. split; [|split; [exact Hb|split; [|reflexivity]]].
    + rewrite convert_nil by exact Hb. destruct Hs as [(x & -> & Hne)|(z & ->)]; reflexivity.
    + destruct Hs as [(x & -> & Hne)|(z & ->)]; [reflexivity|]. split; [reflexivity|]. split; [reflexivity|]. apply py_eqb_refl. reflexivity.
  - intros d e s t Hd He Es Et. unfold as_is. split; [|auto]. destruct HD as (_ & _ & F & _). rewrite Forall_forall in F. destruct (F d Hd) as (_ & _ & G & _). unfold root_key in Es. destruct (po_root_id O) as [|c r]; [discriminate|].
    destruct G as (s' & Es' & Hp); [discriminate|]. congruence.
Qed.
