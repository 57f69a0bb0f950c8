(** The round trip: the run over the rows of all sheets. *)
From Coq Require Import Permutation Lia.
From Verif.Base Require Import PyStr PyNum PyVal PyDict Outcome.
From Verif.Model Require Import Warn Lib Convert Input Flatten.
From Verif.Spec Require Import Paths Headings RoundTrip Alike.
From Verif.Proofs Require Import TreeInd FlattenPaths RowFin RowRead RtMerge RtRow RtLine RtDoc RtState.
Local Open Scope res_scope.

Definition sval (o : option jv) : scalar := match o with Some (JS s) => s | _ => SNone end.
Section Run.
  Variable alike : jv -> cellval -> Prop.
  Hypothesis Hfair : fair alike.
  Variables (P : opts) (write : scalar -> scalar) (cell_of : jv -> scalar) (docs : list jobj) (ord : Prop).
  Notation idn := (o_id_name P).
  Notation rid := (o_root_id P).
  Notation tidy := (tidy idn).
  Notation view := (view (alike := alike) idn ord).
  Notation has := (has idn).
  Hypothesis Hxml : o_xml P = false.
  Hypothesis Hcell : forall s, cell_of (JS s) = s.
  Definition rkey (o : jobj) : scalar := match rid with [] => SNone | _ => write (sval (sget rid o)) end.
  Definition ikey (o : jobj) : scalar := sval (sget idn o).
  Definition key (o : jobj) : scalar * scalar := (rkey o, ikey o).
  Hypothesis Hdocs : forall o, In o docs -> tidy (JO o) /\ has_value (sget idn o) /\ (rid <> [] -> has_value (sget rid o) /\ plain_value (rkey o)) /\ survives (alike := alike) P write cell_of o.
  Hypothesis Huniq : forall o o', In o docs -> In o' docs -> key o = key o' -> o = o'.

  Lemma ikey_plain o : In o docs -> plain_value (ikey o) /\ sget idn o = Some (JS (ikey o)).
  Proof.
    intros Ho. destruct (Hdocs o Ho) as (Ht & (s & Hs & Hp) & _). unfold ikey. rewrite Hs. cbn [sval]. split; [exact Hp|reflexivity].
  Qed.
  Lemma rkey_rootish o : In o docs -> rootish (rkey o).
  Proof.
    intros Ho. destruct (Hdocs o Ho) as (Ht & _ & Hr & _). destruct rid as [|c r] eqn:Er; [right; unfold rkey; rewrite Er; reflexivity|]. left. apply Hr. discriminate.
  Qed.

  Definition group_ok (r : scalar) (t : ttemp) : Prop :=
    rootish r /\ snd t = [] /\ fst t <> [] /\ NoDup (map fst (fst t)) /\
    forall k d, In (k, d) (fst t) -> exists o, In o docs /\ key o = (r, k) /\ view (JO o) (TDict d).
  Definition inv (st : main_state) : Prop := NoDup (map fst st) /\ forall r t, In (r, t) st -> group_ok r t.
  Definition sfind (st : main_state) (r i : scalar) : option tdict := match kget r st with Some t => kget i (fst t) | None => None end.
  Definition hs (st : main_state) (o : jobj) (q : xpath) : Prop :=
    match sfind st (rkey o) (ikey o) with Some d => has (JO o) (TDict d) q | None => False end.
  Definition gpairs (rt : scalar * ttemp) : list (scalar * scalar) := map (fun kd => (fst rt, fst kd)) (fst (snd rt)).
  Definition pairs (st : main_state) : list (scalar * scalar) := flat_map gpairs st.

  Lemma inv_roots st : inv st -> forall r t, In (r, t) st -> rootish r.
  Proof. intros [_ H] r t Hin. exact (proj1 (H r t Hin)). Qed.
  Lemma group_plain r t : group_ok r t -> forall k d, In (k, d) (fst t) -> rootish k.
  Proof. intros (_ & _ & _ & _ & H) k d Hin. destruct (H k d Hin) as (o & Ho & E & _). pose proof (f_equal snd E) as E2. cbn [snd key] in E2. subst k. left. apply ikey_plain. exact Ho. Qed.
  Lemma sfind_view st o d : inv st -> In o docs -> sfind st (rkey o) (ikey o) = Some d -> view (JO o) (TDict d).
  Proof.
    intros Hi Ho H. unfold sfind in H. destruct (kget (rkey o) st) as [t|] eqn:Et; [|discriminate].
    apply kget_in in Et; [|apply rkey_rootish; exact Ho|apply inv_roots; exact Hi]. pose proof (proj2 Hi _ _ Et) as G.
    apply kget_in in H; [|left; apply ikey_plain; exact Ho|apply (group_plain _ _ G)]. destruct G as (_ & _ & _ & _ & G). destruct (G _ _ H) as (o' & Ho' & E & Hv).
    rewrite (Huniq o o' Ho Ho' (eq_sym E)). exact Hv.
  Qed.
  Lemma pairs_hs st o : inv st -> In o docs -> In (key o) (pairs st) <-> hs st o [].
  Proof.
    intros Hi Ho. unfold hs, sfind, pairs. rewrite in_flat_map. split.
    - intros ([r t] & Hin & Hk). unfold gpairs in Hk. cbn [fst snd] in Hk. apply in_map_iff in Hk as ([k d] & E & Hk). cbn [fst] in E. pose proof (f_equal fst E) as E1. pose proof (f_equal snd E) as E2. cbn [fst snd key] in E1, E2. subst r k.
      pose proof (proj2 Hi _ _ Hin) as G. rewrite (in_kget (rkey o) st (rkey_rootish o Ho) (inv_roots st Hi) (proj1 Hi) t Hin).
      rewrite (in_kget (ikey o) (fst t)) with (d := d); [exact I|left; apply ikey_plain; exact Ho|apply (group_plain _ _ G)|apply G|exact Hk].
    - destruct (kget (rkey o) st) as [t|] eqn:Et; [|intros []]. destruct (kget (ikey o) (fst t)) as [d|] eqn:Ed; [|intros []]. intros _.
      apply kget_in in Et; [|apply rkey_rootish; exact Ho|apply inv_roots; exact Hi]. pose proof (proj2 Hi _ _ Et) as G.
      apply kget_in in Ed; [|left; apply ikey_plain; exact Ho|apply (group_plain _ _ G)]. exists (rkey o, t). split; [exact Et|]. unfold gpairs. cbn [fst snd].
      apply in_map_iff. exists (ikey o, d). auto.
  Qed.

  (** what changes when the group of [r] is set to hold [d] under [i] *)
  Lemma set_group st o d : In o docs -> inv st -> view (JO o) (TDict d) ->
    let t := match kget (rkey o) st with Some t => t | None => ([], []) end in
    let st' := kset (rkey o) (kset (ikey o) d (fst t), snd t) st in
    inv st' /\ (forall o', In o' docs -> sfind st' (rkey o') (ikey o') = if py_eqb (rkey o') (rkey o) && py_eqb (ikey o') (ikey o) then Some d else sfind st (rkey o') (ikey o')) /\
    (sfind st (rkey o) (ikey o) <> None -> pairs st' = pairs st) /\
    (sfind st (rkey o) (ikey o) = None -> kget (rkey o) st = None \/ (exists st0 t0, st = st0 ++ [(rkey o, t0)]) -> pairs st' = pairs st ++ [key o]).
  Proof.
    intros Ho Hi Hv. cbv zeta. destruct (ikey_plain o Ho) as [Hik Hsi]. pose proof (rkey_rootish o Ho) as Hrk. assert (Hik' : rootish (ikey o)) by (left; exact Hik).
    assert (Hf : forall o', In o' docs -> sfind (kset (rkey o) (kset (ikey o) d (fst (match kget (rkey o) st with Some t => t | None => ([], []) end)), snd (match kget (rkey o) st with Some t => t | None => ([], []) end)) st) (rkey o') (ikey o')
              = if py_eqb (rkey o') (rkey o) && py_eqb (ikey o') (ikey o) then Some d else sfind st (rkey o') (ikey o')).
    { intros o' Ho'. unfold sfind. rewrite kget_kset_r; [|apply rkey_rootish; exact Ho'|exact Hrk|apply inv_roots; exact Hi]. destruct (py_eqb (rkey o') (rkey o)) eqn:Er; cbn [andb]; [|reflexivity].
      apply rootish_eqb in Er; [|apply rkey_rootish; exact Ho'|exact Hrk]. cbn [fst]. destruct (kget (rkey o) st) as [t|] eqn:Et; rewrite Er, Et.
      - rewrite kget_kset_r; [reflexivity|left; apply ikey_plain; exact Ho'|exact Hik'|]. apply kget_in in Et; [|exact Hrk|apply inv_roots; exact Hi]. exact (group_plain _ _ (proj2 Hi _ _ Et)).
      - rewrite kget_kset_r; [reflexivity|left; apply ikey_plain; exact Ho'|exact Hik'|intros ? ? []]. }
    split; [|split; [exact Hf|]].
    - destruct (kget (rkey o) st) as [t|] eqn:Et.
      + destruct (kset_there (rkey o) (kset (ikey o) d (fst t), snd t) t st Hrk (inv_roots st Hi) Et) as (a & b & Es & ->). destruct Hi as [Hn Hg].
        assert (G : group_ok (rkey o) t) by (apply Hg; rewrite Es; apply in_or_app; right; left; reflexivity).
        split.
        * rewrite Es in Hn. rewrite map_app in *. exact Hn.
        * intros r t' Hin. apply in_app_or in Hin as [Hin|[Hin|Hin]]; [apply Hg; rewrite Es; apply in_or_app; left; exact Hin| |apply Hg; rewrite Es; apply in_or_app; right; right; exact Hin].
          injection Hin as <- <-. pose proof (group_plain _ _ G) as Gp. destruct G as (G1 & G2 & G3 & G4 & G5). split; [exact G1|]. split; [exact G2|]. cbn [fst].
          destruct (kget (ikey o) (fst t)) as [old|] eqn:Eo.
          -- destruct (kset_there (ikey o) d old (fst t) Hik' Gp Eo) as (a1 & b1 & Ea & ->). split; [destruct a1; discriminate|]. split; [rewrite Ea in G4; rewrite map_app in *; exact G4|].
             intros k e Hk. apply in_app_or in Hk as [Hk|[Hk|Hk]]; [apply G5; rewrite Ea; apply in_or_app; left; exact Hk| |apply G5; rewrite Ea; apply in_or_app; right; right; exact Hk].
             injection Hk as <- <-. exists o. auto.
          -- rewrite kset_end by exact Eo. split; [destruct (fst t); discriminate|]. split.
             ++ rewrite map_app. cbn [map fst]. apply NoDup_snoc; [exact G4|]. intros Hin2. apply in_map_iff in Hin2 as ([k e] & Ek & Hin2). cbn [fst] in Ek. subst k.
                rewrite (in_kget (ikey o) (fst t) Hik' Gp G4 e Hin2) in Eo. discriminate.
             ++ intros k e Hk. apply in_app_or in Hk as [Hk|[Hk|[]]]; [apply G5; exact Hk|]. injection Hk as <- <-. exists o. auto.
      + rewrite kset_end by exact Et. split.
        * rewrite map_app. cbn [map fst]. apply NoDup_snoc; [exact (proj1 Hi)|]. intros Hin. apply in_map_iff in Hin as ([r t'] & Ek & Hin). cbn [fst] in Ek. subst r.
          rewrite (in_kget (rkey o) st Hrk (inv_roots st Hi) (proj1 Hi) t' Hin) in Et. discriminate.
        * intros r t' Hin. apply in_app_or in Hin as [Hin|[Hin|[]]]; [apply (proj2 Hi); exact Hin|]. injection Hin as <- <-. split; [exact Hrk|]. split; [reflexivity|]. cbn [fst]. unfold kset. cbn [aset].
          split; [discriminate|]. split; [repeat constructor; intros []|]. intros k e [Q|[]]. injection Q as <- <-. exists o. auto.
    - unfold sfind. destruct (kget (rkey o) st) as [t|] eqn:Et.
      + destruct (kset_there (rkey o) (kset (ikey o) d (fst t), snd t) t st Hrk (inv_roots st Hi) Et) as (a & b & Es & ->).
        assert (G : group_ok (rkey o) t) by (apply Hi; rewrite Es; apply in_or_app; right; left; reflexivity). pose proof (group_plain _ _ G) as Gp.
        split.
        * intros Hne. destruct (kget (ikey o) (fst t)) as [old|] eqn:Eo; [|congruence]. destruct (kset_there (ikey o) d old (fst t) Hik' Gp Eo) as (a1 & b1 & Ea & Eb).
          rewrite Es. unfold pairs. rewrite !flat_map_app. cbn [flat_map]. f_equal. f_equal. unfold gpairs. cbn [fst snd]. rewrite Eb, Ea, !map_app. reflexivity.
        * intros Eo [Q|(st0 & t0 & E0)]; [discriminate|].
          assert (a = st0 /\ b = []) as [-> ->].
          { rewrite Es in E0. destruct b as [|x b _] using rev_ind; [apply app_inj_tail in E0 as [E0 _]; auto|]. exfalso. change (a ++ (rkey o, t) :: b ++ [x]) with (a ++ ((rkey o, t) :: b) ++ [x]) in E0.
            rewrite app_assoc in E0. apply app_inj_tail in E0 as [E0 ->]. destruct Hi as [Hn _]. rewrite Es in Hn. rewrite map_app in Hn. cbn [map fst] in Hn. apply NoDup_remove_2 in Hn. apply Hn. rewrite map_app. rewrite !in_app_iff. right. right. left. reflexivity. }
          rewrite Es. unfold pairs. rewrite !flat_map_app. cbn [flat_map]. rewrite !app_nil_r, <- app_assoc. f_equal. unfold gpairs. cbn [fst snd]. rewrite kset_end by exact Eo. rewrite map_app. reflexivity.
      + split; [congruence|]. intros _ _. rewrite kset_end by exact Et. unfold pairs. rewrite flat_map_app. reflexivity.
  Qed.

  Theorem place_step sheet o d st : In o docs -> inv st -> RtMerge.view (alike := alike) idn False (JO o) (TDict d) -> single (TDict d) ->
    main_id P d = Ok (Some (ikey o)) [] -> item_key false idn d = Ok (Some (ikey o)) [] ->
    (ord -> forall a j, has (JO o) (TDict d) (a ++ [XIdx j]) -> forall i, (i < j)%nat -> hs st o (a ++ [XIdx i])) ->
    exists st', place P sheet (rkey o) d st = Ok st' [] /\ inv st' /\
      (forall o' q, In o' docs -> hs st' o' q <-> hs st o' q \/ (o' = o /\ has (JO o) (TDict d) q)) /\
      (hs st o [] -> pairs st' = pairs st) /\
      (~ hs st o [] -> kget (rkey o) st = None \/ (exists st0 t0, st = st0 ++ [(rkey o, t0)]) -> pairs st' = pairs st ++ [key o]).
  Proof.
    intros Ho Hi Hv Hs Hm Hk Hr. destruct (Hdocs o Ho) as (Ht & _).
    assert (Huse : forall new, view (JO o) (TDict new) -> (forall q, has (JO o) (TDict new) q <-> hs st o q \/ has (JO o) (TDict d) q) ->
      place P sheet (rkey o) d st = Ok (kset (rkey o) (kset (ikey o) new (fst (match kget (rkey o) st with Some t => t | None => ([], []) end)), snd (match kget (rkey o) st with Some t => t | None => ([], []) end)) st) [] ->
      exists st', place P sheet (rkey o) d st = Ok st' [] /\ inv st' /\
      (forall o' q, In o' docs -> hs st' o' q <-> hs st o' q \/ (o' = o /\ has (JO o) (TDict d) q)) /\
      (hs st o [] -> pairs st' = pairs st) /\
      (~ hs st o [] -> kget (rkey o) st = None \/ (exists st0 t0, st = st0 ++ [(rkey o, t0)]) -> pairs st' = pairs st ++ [key o])).
    { intros new Hvn Hhn E. eexists. split; [exact E|]. destruct (set_group st o new Ho Hi Hvn) as (A & B & C & D). split; [exact A|]. split; [|split].
      - intros o' q Ho'. unfold hs at 1. match goal with |- context [sfind ?a ?b ?c] => replace (sfind a b c) with (if py_eqb (rkey o') (rkey o) && py_eqb (ikey o') (ikey o) then Some new else sfind st (rkey o') (ikey o')) by (symmetry; exact (B o' Ho')) end. destruct (py_eqb (rkey o') (rkey o)) eqn:E1; cbn [andb].
        + destruct (py_eqb (ikey o') (ikey o)) eqn:E2.
          * apply rootish_eqb in E1; [|apply rkey_rootish; assumption|apply rkey_rootish; assumption]. apply plain_eqb in E2; [|apply ikey_plain; assumption|apply ikey_plain; assumption].
            assert (o' = o) as -> by (apply Huniq; [assumption|assumption|unfold key; congruence]). rewrite Hhn. tauto.
          * fold (hs st o' q). split; [tauto|]. intros [H|[-> _]]; [exact H|]. rewrite plain_refl in E2 by (apply ikey_plain; exact Ho). discriminate.
        + fold (hs st o' q). split; [tauto|]. intros [H|[-> _]]; [exact H|]. rewrite (proj2 (rootish_eqb _ _ (rkey_rootish o Ho) (rkey_rootish o Ho)) eq_refl) in E1. discriminate.
      - intros H. apply C. unfold hs in H. destruct (sfind st (rkey o) (ikey o)); [discriminate|destruct H].
      - intros H. apply D. unfold hs in H. destruct (sfind st (rkey o) (ikey o)); [|reflexivity]. exfalso. apply H. exact I. }
    destruct (sfind st (rkey o) (ikey o)) as [old|] eqn:Ef.
    - pose proof (sfind_view st o old Hi Ho Ef) as Hvo.
      destruct (merge_objects idn Hfair ord {| dbg_sheet := sheet; dbg_root_id := o_root_id P; dbg_root := rkey o; dbg_id_name := o_id_name P; dbg_id := CV (ikey o) |} o d old Ht Hv Hs Hvo) as (new & Em & Hvn & Hhn).
      { intros Hor a j Hh i Hij. specialize (Hr Hor a j Hh i Hij). unfold hs in Hr. rewrite Ef in Hr. exact Hr. }
      apply (Huse new Hvn).
      + intros q. unfold hs. rewrite Ef. apply Hhn.
      + unfold place. unfold sfind in Ef. destruct (kget (rkey o) st) as [t|]; [|discriminate]. rewrite Hm. cbn [bind]. rewrite Ef, Em. reflexivity.
    - apply (Huse d).
      + apply promote; [exact Ht|exact Hv|exact Hs|]. intros Hor a j Hh. destruct j as [|j]; [reflexivity|]. specialize (Hr Hor a (S j) Hh 0%nat (Nat.lt_0_succ j)). unfold hs in Hr. rewrite Ef in Hr. destruct Hr.
      + intros q. unfold hs. rewrite Ef. tauto.
      + unfold place. unfold sfind in Ef. rewrite Hm. cbn [bind]. rewrite Hxml.
        destruct (kget (rkey o) st) as [t|]; [rewrite Ef|cbn [fst snd]; change (kget (ikey o) (@nil (scalar * tdict))) with (@None tdict); cbv iota]; unfold temp_append.
        * destruct t as [data nk]. rewrite Hk. cbn [bind fst snd] in *. rewrite Ef. reflexivity.
        * rewrite Hk. reflexivity.
  Qed.

  (** ** Rows *)
  Record ent := { e_obj : jobj; e_at : xpath; e_row : frow }.
  Definition good (header : list str) (e : ent) : Prop :=
    In (e_obj e) docs /\ row_only cell_of (e_obj e) (e_at e) (e_row e) /\ row_ids idn (e_at e) (e_row e) /\
    (rid <> [] -> exists s, sget rid (e_obj e) = Some (JS s) /\ sget rid (e_row e) = Some (JS s)) /\
    (forall h v, sget h (e_row e) = Some v -> In h header).
  (** the row has the value at [q] *)
  Definition tells (e : ent) (q : xpath) : Prop :=
    follows (e_at e) q /\ exists y, at_x (JO (e_obj e)) q = Some y /\ leaf y /\ sget (htext q) (e_row e) = Some (JS (cell_of y)).
  Definition knows (st : main_state) (es : list ent) : Prop := forall e q, In e es -> tells e q -> hs st (e_obj e) q.
  (** items are not skipped *)
  Definition ready_for (done : list ent) (e : ent) : Prop :=
    forall a j b, e_at e = a ++ XIdx j :: b -> forall i, (i < j)%nat -> exists e' r, In e' done /\ e_obj e' = e_obj e /\ tells e' (a ++ XIdx i :: r).
  (** the records in order of their first rows, when no record joins an earlier group *)
  Inductive adds : list jobj -> list ent -> list jobj -> Prop :=
  | adds_nil D : adds D [] D
  | adds_old D e es D' : In (e_obj e) D -> adds D es D' -> adds D (e :: es) D'
  | adds_new D e es D' : ~ In (e_obj e) D -> (forall x, In x D -> rkey x <> rkey (e_obj e)) \/ (exists D0 x, D = D0 ++ [x] /\ rkey x = rkey (e_obj e)) ->
      adds (D ++ [e_obj e]) es D' -> adds D (e :: es) D'.

  Lemma hs_app st o q r : hs st o (q ++ r) -> hs st o q.
  Proof. unfold hs. destruct (sfind st (rkey o) (ikey o)); [apply has_app|tauto]. Qed.
  Lemma group_last st D o : inv st -> pairs st = map key D -> (forall x, In x D -> rkey x <> rkey o) \/ (exists D0 x, D = D0 ++ [x] /\ rkey x = rkey o) -> In o docs ->
    kget (rkey o) st = None \/ exists st0 t0, st = st0 ++ [(rkey o, t0)].
  Proof.
    intros Hi HD H Ho. destruct H as [H|(D0 & x & -> & Ex)].
    - left. destruct (kget (rkey o) st) as [t|] eqn:Et; [exfalso|reflexivity]. apply kget_in in Et; [|apply rkey_rootish; exact Ho|apply inv_roots; exact Hi].
      destruct (proj2 Hi _ _ Et) as (_ & _ & Hne & _ & _). destruct (fst t) as [|[k d] l] eqn:El; [congruence|].
      assert (Hin : In (rkey o, k) (pairs st)). { apply in_flat_map. exists (rkey o, t). split; [exact Et|]. unfold gpairs. cbn [fst snd]. rewrite El. left. reflexivity. }
      rewrite HD in Hin. apply in_map_iff in Hin as (x & Ex & Hx). apply (H x Hx). exact (f_equal fst Ex).
    - right. destruct st as [|[r t] st _] using rev_ind; [destruct D0; discriminate|]. exists st, t. f_equal. f_equal. f_equal.
      destruct (proj2 Hi r t) as (_ & _ & Hne & _ & _); [apply in_or_app; right; left; reflexivity|]. unfold pairs in HD. rewrite flat_map_app, map_app in HD. cbn [flat_map map] in HD. rewrite app_nil_r in HD.
      unfold gpairs in HD at 2. cbn [fst snd] in HD. destruct (fst t) as [|kd l _] using rev_ind; [congruence|]. rewrite map_app in HD. cbn [map] in HD. rewrite app_assoc in HD. apply app_inj_tail in HD as [_ E].
      rewrite <- Ex. exact (f_equal fst E).
  Qed.

  Section Lines.
    Variables (b : scalar) (header : list str) (sheet : str) (hds : option (list scalar)).
    Hypothesis Hb : blank b = true.
    Hypothesis Hnd : NoDup header.
    Hypothesis Hhs : hds = None \/ hds = Some (map SStr header).

    Lemma line_run e j st done : inv st -> knows st done -> (forall e, In e done -> In (e_obj e) docs) -> good header e -> (ord -> ready_for done e) ->
      exists st', do_line P sheet hds j (table_line write b header (e_row e)) st = Ok st' [] /\ inv st' /\ knows st' (done ++ [e]) /\
        forall D D', pairs st = map key D -> incl D docs -> adds D [e] D' -> pairs st' = map key D'.
    Proof.
      intros Hi Hkn Hdone (Ho & Hro & Hri & Hrt & Hco) Hrd. destruct e as [o Q row]. cbn [e_obj e_at e_row] in *. destruct (Hdocs o Ho) as (Ht & Hid & Hr0 & Hsv).
      destruct (line_part idn P write cell_of Hxml eq_refl Hcell b o Q row header sheet hds j Hb Ht Hsv Hid Hro Hri Hnd Hco Hhs Hrt) as (cells & d & Eb & Ec & Eu & (Pv & Ps & Pf & Pl & Pi) & El).
      destruct Pi as (s & Es & Em & Ek). destruct (ikey_plain o Ho) as [_ Eik]. rewrite Eik in Es. injection Es as <-.
      assert (Er : line_root P (table_line write b header row) = rkey o).
      { rewrite El. unfold rkey. destruct rid as [|c r] eqn:Er; [reflexivity|]. destruct Hr0 as [(s0 & Es0 & _) _]; [discriminate|]. rewrite Es0. reflexivity. }
      destruct (place_step sheet o d st Ho Hi Pv Ps Em Ek) as (st' & Ep & Hi' & Hh' & K1 & K2).
      { intros Hor a k Hh i Hik. pose proof (Pf _ Hh) as Hf. destruct (follows_idx _ _ _ _ Hf) as (b0 & EQ). destruct (Hrd Hor a k b0 EQ i Hik) as (e' & r & He' & Eo & Ht').
        cbn [e_obj] in Eo. rewrite <- Eo. apply (hs_app st _ _ r). rewrite <- app_assoc. exact (Hkn e' _ He' Ht'). }
      exists st'. split.
      { unfold do_line. rewrite Eb, Ec. cbn [bind]. rewrite Eu. cbn [bind]. rewrite Er, Ep. reflexivity. }
      split; [exact Hi'|]. split.
      - intros e q Hin Hq. apply in_app_or in Hin as [Hin|[<-|[]]].
        + apply Hh'; [exact (Hdone e Hin)|left; exact (Hkn e q Hin Hq)].
        + cbn [e_obj]. apply Hh'; [exact Ho|]. right. split; [reflexivity|]. destruct Hq as (Hf & y & Ha & Hl & Hg). exact (Pl q y _ Hf Ha Hl Hg).
      - intros D D' HD Hin Ha. inversion Ha as [|? ? ? ? Hold Hn|? ? ? ? Hnew Hc Hn]; subst; inversion Hn; subst; cbn [e_obj] in *.
        + rewrite <- HD. apply K1. apply pairs_hs; [exact Hi|exact Ho|]. rewrite HD. apply in_map. exact Hold.
        + rewrite map_app, <- HD. apply K2; [|eapply group_last; eassumption]. intros Hh. apply pairs_hs in Hh; [|exact Hi|exact Ho]. rewrite HD in Hh. apply in_map_iff in Hh as (x & Ex & Hx).
          apply Hnew. rewrite <- (Huniq x o); [exact Hx|apply Hin; exact Hx|exact Ho|exact Ex].
    Qed.

    Lemma adds_app es1 : forall D es2 D', adds D (es1 ++ es2) D' <-> exists D1, adds D es1 D1 /\ adds D1 es2 D'.
    Proof.
      induction es1 as [|e es1 IH]; intros D es2 D'; cbn [app].
      - split; [intros H; exists D; split; [constructor|exact H]|]. intros (D1 & H1 & H2). inversion H1; subst. exact H2.
      - split.
        + intros H. inversion H as [|? ? ? ? Ho Hn|? ? ? ? Ho Hc Hn]; subst; apply IH in Hn as (D1 & H1 & H2); exists D1; (split; [|exact H2]); [apply adds_old|apply adds_new]; assumption.
        + intros (D1 & H1 & H2). inversion H1 as [|? ? ? ? Ho Hn|? ? ? ? Ho Hc Hn]; subst; [apply adds_old|apply adds_new]; try assumption; apply IH; eauto.
    Qed.
    Lemma adds_incl D es D' : adds D es D' -> incl D docs -> (forall e, In e es -> In (e_obj e) docs) -> incl D' docs.
    Proof.
      induction 1 as [D|D e es D' Ho Ha IH|D e es D' Ho Hc Ha IH]; intros Hi He; [exact Hi| |].
      - apply IH; [exact Hi|]. intros; apply He; right; assumption.
      - apply IH; [|intros; apply He; right; assumption]. apply incl_app; [exact Hi|]. intros x [<-|[]]. apply He. left. reflexivity.
    Qed.
    Lemma lines_run es : forall j st done, inv st -> knows st done -> (forall e, In e done -> In (e_obj e) docs) -> Forall (good header) es ->
      (ord -> forall es1 e es2, es = es1 ++ e :: es2 -> ready_for (done ++ es1) e) ->
      exists st', do_lines P sheet hds j (map (fun e => table_line write b header (e_row e)) es) st = Ok st' [] /\ inv st' /\ knows st' (done ++ es) /\
        forall D D', pairs st = map key D -> incl D docs -> adds D es D' -> pairs st' = map key D'.
    Proof.
      induction es as [|e es IH]; intros j st done Hi Hk Hd Hg Hr.
      - exists st. split; [reflexivity|]. split; [exact Hi|]. split; [rewrite app_nil_r; exact Hk|]. intros D D' HD _ Ha. inversion Ha; subst. exact HD.
      - inversion Hg as [|? ? Hg1 Hg2]; subst.
        destruct (line_run e j st done Hi Hk Hd Hg1) as (st1 & E1 & Hi1 & Hk1 & HD1). { intros Hor. specialize (Hr Hor [] e es eq_refl). rewrite app_nil_r in Hr. exact Hr. }
        assert (Hd1 : forall e0, In e0 (done ++ [e]) -> In (e_obj e0) docs). { intros e0 He. apply in_app_or in He as [He|[<-|[]]]; [exact (Hd e0 He)|exact (proj1 Hg1)]. }
        destruct (IH (j + 1)%N st1 (done ++ [e]) Hi1 Hk1 Hd1 Hg2) as (st2 & E2 & Hi2 & Hk2 & HD2).
        { intros Hor es1 e0 es2 ->. rewrite <- app_assoc. apply (Hr Hor (e :: es1) e0 es2). reflexivity. }
        exists st2. split; [cbn [map do_lines]; rewrite E1; cbn [bind]; rewrite E2; reflexivity|]. split; [exact Hi2|]. split; [rewrite <- app_assoc in Hk2; exact Hk2|].
        intros D D' HD Hin Ha. change (e :: es) with ([e] ++ es) in Ha. apply adds_app in Ha as (D1 & Ha1 & Ha2). apply (HD2 D1 D'); [exact (HD1 D D1 HD Hin Ha1)| |exact Ha2].
        eapply adds_incl; [exact Ha1|exact Hin|]. intros e0 [<-|[]]. exact (proj1 Hg1).
    Qed.
  End Lines.

  (** no warning about headings that are all different *)
  Lemma found_rev_nil (l : list str) : forall n found, NoDup l -> (forall h v, In h l -> ~ In (SStr h, v) found) -> Forall (fun hc => exists h, fst hc = SStr h /\ snd hc = @nil N) found ->
    Forall (fun hc => exists h, fst hc = SStr h /\ snd hc = @nil N) (found_rev n (map SStr l) found).
  Proof.
    induction l as [|h l IH]; intros n found Hn Hd Hf; cbn [map found_rev]; [exact Hf|]. inversion Hn as [|? ? Hn1 Hn2]; subst.
    assert (Hg : kget (SStr h) found = None).
    { apply kget_None_all. intros k v Hin. rewrite Forall_forall in Hf. destruct (Hf _ Hin) as (h' & Eh & _). cbn [fst] in Eh. subst k. rewrite py_eqb_str. destruct (str_eqb_spec h h') as [<-|Hne]; [|reflexivity].
      exfalso. exact (Hd h v (or_introl eq_refl) Hin). }
    rewrite Hg, kset_end by exact Hg. apply IH; [exact Hn2| |].
    - intros h' v Hin Hin'. apply in_app_or in Hin' as [Hin'|[Q|[]]]; [exact (Hd h' v (or_intror Hin) Hin')|]. injection Q as -> _. contradiction.
    - apply Forall_app. split; [exact Hf|]. repeat constructor. exists h. auto.
  Qed.
  Lemma no_heading_warnings sheet header : NoDup header -> heading_warnings sheet (map SStr header) = [].
  Proof.
    intros Hn. unfold heading_warnings.
    assert (F : Forall (fun hc => exists h, fst hc = SStr h /\ snd hc = @nil N) (rev (found_rev (N.of_nat (length (map SStr header))) (rev (map SStr header)) []))).
    { apply Forall_rev. rewrite <- map_rev. apply found_rev_nil; [apply NoDup_rev; exact Hn|intros ? ? _ []|constructor]. }
    cbv zeta. induction F as [|[h c] l (h' & _ & Ec) F IH]; [reflexivity|]. cbn [flat_map snd] in *. subst c. exact IH.
  Qed.

  (** a sheet with a row for each entry *)
  Definition sheet_of (b : scalar) (x : sheet_in) (es : list ent) : Prop :=
    exists header, NoDup header /\ Forall (good header) es /\ (si_headings x = None \/ si_headings x = Some (map SStr header)) /\ si_lines x = map (fun e => table_line write b header (e_row e)) es.
  Lemma sheets_run b : blank b = true -> forall xs ess, Forall2 (sheet_of b) xs ess -> forall st done, inv st -> knows st done -> (forall e, In e done -> In (e_obj e) docs) ->
    (ord -> forall es1 e es2, concat ess = es1 ++ e :: es2 -> ready_for (done ++ es1) e) ->
    exists st', do_sheets P xs st = Ok st' [] /\ inv st' /\ knows st' (done ++ concat ess) /\
      forall D D', pairs st = map key D -> incl D docs -> adds D (concat ess) D' -> pairs st' = map key D'.
  Proof.
    intros Hb xs ess F. induction F as [|x es xs ess (header & Hnd & Hg & Hh & Hl) F IH]; intros st done Hi Hk Hd Hr.
    - exists st. split; [reflexivity|]. split; [exact Hi|]. cbn [concat]. split; [rewrite app_nil_r; exact Hk|]. intros D D' HD _ Ha. inversion Ha; subst. exact HD.
    - cbn [concat] in *.
      assert (Hsh : exists st1, do_sheet P x st = Ok st1 [] /\ inv st1 /\ knows st1 (done ++ es) /\ forall D D', pairs st = map key D -> incl D docs -> adds D es D' -> pairs st1 = map key D').
      { destruct (lines_run b header (si_name x) (si_headings x) Hb Hnd Hh es 0%N st done Hi Hk Hd Hg) as (st1 & E1 & R).
        { intros Hor es1 e es2 ->. apply (Hr Hor es1 e (es2 ++ concat ess)). rewrite <- app_assoc. reflexivity. }
        exists st1. split; [|exact R]. unfold do_sheet. rewrite Hl. destruct Hh as [Hh|Hh]; [rewrite Hh in *; exact E1|]. rewrite Hh in *. destruct header as [|h header]; cbn [map].
        - destruct es as [|e es]; [cbn [map do_lines] in E1; injection E1 as <-; reflexivity|]. exfalso. inversion Hg as [|? ? (_ & _ & ((v & Hv) & _) & _ & Hc) _]; subst. exact (Hc _ _ Hv).
        - change (SStr h :: map SStr header) with (map SStr (h :: header)). rewrite (no_heading_warnings (si_name x) (h :: header) Hnd). cbn [bind]. rewrite E1. reflexivity. }
      destruct Hsh as (st1 & E1 & Hi1 & Hk1 & HD1).
      assert (Hd1 : forall e0, In e0 (done ++ es) -> In (e_obj e0) docs). { intros e0 He. apply in_app_or in He as [He|He]; [exact (Hd e0 He)|]. rewrite Forall_forall in Hg. exact (proj1 (Hg _ He)). }
      destruct (IH st1 (done ++ es) Hi1 Hk1 Hd1) as (st2 & E2 & Hi2 & Hk2 & HD2).
      { intros Hor es1 e es2 E. rewrite <- app_assoc. apply (Hr Hor (es ++ es1) e es2). rewrite E, app_assoc. reflexivity. }
      exists st2. split; [cbn [do_sheets]; rewrite E1; cbn [bind]; rewrite E2; reflexivity|]. split; [exact Hi2|]. split; [rewrite <- app_assoc in Hk2; exact Hk2|].
      intros D D' HD Hin Ha. apply adds_app in Ha as (D1 & Ha1 & Ha2). apply (HD2 D1 D'); [exact (HD1 D D1 HD Hin Ha1)| |exact Ha2].
      eapply adds_incl; [exact Ha1|exact Hin|]. intros e0 He. apply Hd1. apply in_or_app. right. exact He.
  Qed.

  Theorem run_same (arranged : list jv -> list jv -> Prop) b xs ess : blank b = true -> Forall2 (sheet_of b) xs ess -> NoDup docs ->
    (forall l l', Permutation l l' -> (ord -> l = l') -> arranged l l') ->
    (ord -> forall es1 e es2, concat ess = es1 ++ e :: es2 -> ready_for es1 e) ->
    (ord -> adds [] (concat ess) docs) ->
    (forall o q y, In o docs -> at_x (JO o) q = Some y -> leaf y -> exists e, In e (concat ess) /\ e_obj e = o /\ tells e q) ->
    exists out, unflatten P xs = Ok out [] /\ records_come alike arranged docs out.
  Proof.
    intros Hb F Hnd Harr Hrd Had Hcov.
    destruct (sheets_run b Hb xs ess F [] []) as (st & E & Hi & Hk & HD).
    { split; [constructor|intros ? ? []]. } { intros ? ? []. } { intros ? []. } { exact Hrd. }
    exists (map dict_to_v (flat_map (fun rt => map dict_to_j (temp_items (snd rt))) st)). split.
    { unfold unflatten, do_unflatten. rewrite E. reflexivity. }
    assert (Hall : forall o, In o docs -> hs st o [] /\ forall q y, at_x (JO o) q = Some y -> leaf y -> hs st o q).
    { intros o Ho. assert (A : forall q y, at_x (JO o) q = Some y -> leaf y -> hs st o q).
      { intros q y Hq Hl. destruct (Hcov o q y Ho Hq Hl) as (e & He & <- & Ht). exact (Hk e q He Ht). }
      split; [|exact A]. destruct (Hdocs o Ho) as (_ & (s & Hs & Hp) & _). apply (hs_app st o [] [XKey idn]). apply (A [XKey idn] (JS s)); [cbn [at_x]; rewrite Hs; reflexivity|apply plain_basic; exact Hp]. }
    (* the entries of the state *)
    assert (Hlist : exists D ds, Forall2 (fun o d => In o docs /\ sfind st (rkey o) (ikey o) = Some d) D ds /\ map key D = pairs st /\ flat_map (fun rt => map dict_to_j (temp_items (snd rt))) st = map dict_to_j ds).
    { assert (Hsub : forall r t, In (r, t) st -> kget r st = Some t) by (intros r t Hin; apply in_kget; [exact (inv_roots st Hi r t Hin)|apply inv_roots; exact Hi|exact (proj1 Hi)|exact Hin]).
      assert (Hin : forall rt, In rt st -> In rt st) by auto. revert Hin. generalize st at 1 4 5 as st0. induction st0 as [|[r t] st0 IH]; intros Hin.
      - exists [], []. split; [constructor|]. split; reflexivity.
      - destruct IH as (D & ds & FD & ED & Ed); [intros; apply Hin; right; assumption|]. pose proof (Hin (r, t) (or_introl eq_refl)) as Hrt. pose proof (proj2 Hi _ _ Hrt) as G. pose proof (group_plain _ _ G) as Gp.
        destruct G as (G1 & G2 & _ & G4 & G5).
        assert (Hg : exists D1, Forall2 (fun o d => In o docs /\ sfind st (rkey o) (ikey o) = Some d) D1 (map snd (fst t)) /\ map key D1 = gpairs (r, t)).
        { unfold gpairs. cbn [fst snd]. assert (Hk1 : forall kd, In kd (fst t) -> In kd (fst t)) by auto. revert Hk1. generalize (fst t) at 1 3 4 as l. induction l as [|[k d] l IHl]; intros Hk1.
          - exists []. split; [constructor|reflexivity].
          - destruct IHl as (D1 & F1 & E1); [intros; apply Hk1; right; assumption|]. pose proof (Hk1 (k, d) (or_introl eq_refl)) as Hkd. destruct (G5 k d Hkd) as (o & Ho & Eo & _).
            exists (o :: D1). cbn [map fst snd]. split; [constructor; [|exact F1]|rewrite Eo, E1; reflexivity]. split; [exact Ho|]. unfold key in Eo. pose proof (f_equal fst Eo) as Ea. pose proof (f_equal snd Eo) as Eb. cbn [fst snd] in Ea, Eb.
            unfold sfind. rewrite Ea, (Hsub r t Hrt), Eb. apply in_kget; [exact (Gp k d Hkd)|exact Gp|exact G4|exact Hkd]. }
        destruct Hg as (D1 & F1 & E1). exists (D1 ++ D), (map snd (fst t) ++ ds). split; [apply Forall2_app; assumption|]. split.
        + rewrite map_app, E1, ED. reflexivity.
        + cbn [flat_map snd]. rewrite Ed, map_app. f_equal. unfold temp_items. rewrite G2, app_nil_r. reflexivity. }
    destruct Hlist as (D & ds & FD & ED & Eds). rewrite Eds, map_map. clear Eds.
    assert (HinD : incl D docs). { intros o Ho. destruct (Forall2_in_l _ _ _ FD _ Ho) as (d & _ & H & _). exact H. }
    assert (Hpn : NoDup (pairs st)).
    { destruct Hi as [Hn Hg]. clear - Hn Hg. induction st as [|[r t] st IH]; [constructor|]. cbn [map fst] in Hn. inversion Hn as [|? ? Hn1 Hn2]; subst. unfold pairs. cbn [flat_map]. apply NoDup_app_disj.
      - unfold gpairs. cbn [fst snd]. destruct (Hg r t (or_introl eq_refl)) as (_ & _ & _ & G4 & _). rewrite <- (map_map fst (pair r)). apply FinFun.Injective_map_NoDup; [|exact G4]. intros x y Q. injection Q as ->. reflexivity.
      - apply IH; [exact Hn2|intros; apply Hg; right; assumption].
      - intros [r' k'] H1 H2. unfold gpairs in H1. cbn [fst snd] in H1. apply in_map_iff in H1 as (kd & E1 & _). injection E1 as <- _. apply in_flat_map in H2 as ([r2 t2] & Hin & H2). unfold gpairs in H2. cbn [fst snd] in H2.
        apply in_map_iff in H2 as (kd2 & E2 & _). injection E2 as -> _. apply Hn1. apply (in_map fst) in Hin. exact Hin. }
    assert (HP : Permutation docs D).
    { apply NoDup_Permutation; [exact Hnd| |].
      - rewrite <- ED in Hpn. apply NoDup_map_inv in Hpn. exact Hpn.
      - intros o. split; [|apply HinD]. intros Ho. destruct (Hall o Ho) as [H0 _]. apply pairs_hs in H0; [|exact Hi|exact Ho]. rewrite <- ED in H0. apply in_map_iff in H0 as (o' & Eo & Ho'). rewrite (Huniq o o' Ho (HinD _ Ho') (eq_sym Eo)). exact Ho'. }
    assert (HE : ord -> docs = D).
    { intros Hor. assert (Ek : map key D = map key docs) by (rewrite ED; apply (HD [] docs); [reflexivity|intros ? []|exact (Had Hor)]).
      clear - Ek HinD Huniq. assert (Hi : incl docs docs) by apply incl_refl. revert Hi Ek. generalize docs at 1 3 4 as l. induction D as [|x D IH]; intros [|y l] Hi Ek; try discriminate; [reflexivity|]. cbn [map] in Ek.
      assert (Ek1 : key x = key y) by congruence. assert (Ek2 : map key D = map key l) by congruence. f_equal.
      - apply Huniq; [apply Hi; left; reflexivity|apply HinD; left; reflexivity|congruence].
      - apply IH; [intros z Hz; apply HinD; right; exact Hz|intros z Hz; apply Hi; right; exact Hz|exact Ek2]. }
    apply (comes_array alike arranged (map JO docs) (map JO D)).
    - apply Harr; [apply Permutation_map; exact HP|]. intros Hor. rewrite <- (HE Hor). reflexivity.
    - clear - FD Hall Hi Hdocs Huniq Harr. induction FD as [|o d D ds [Ho Hf] FD IH]; [constructor|]. cbn [map]. constructor; [|exact IH].
      destruct (Hdocs o Ho) as (Ht & _). change (VDict (dict_to_v (dict_to_j d))) with (vnode_of (TDict d)). apply (complete_same idn ord arranged Harr); [exact Ht|eapply sfind_view; eassumption|].
      apply leaves_all; [exact Ht|]. intros q y Hq Hl. pose proof (proj2 (Hall o Ho) q y Hq Hl) as H. unfold hs in H. rewrite Hf in H. exact H.
  Qed.
End Run.
