(** A run of the schema parser follows a trace. *)
From Verif.Base Require Import PyStr PyNum PyVal PyDict Outcome.
From Verif.Model Require Import Flatten Titles Schema.
From Verif.Spec Require Import SchemaFields.
From Verif.Proofs Require Import SchemaTrace.
Local Open Scope res_scope.

Ltac bok H := let a := fresh "a" in let w1 := fresh "w" in let w2 := fresh "w" in let E := fresh "E" in let F := fresh "F" in
  apply bind_ok in H as (a & w1 & w2 & E & F & ->).

Lemma is_str_In k l : existsb (is_str k) l = true <-> In (VS (SStr k)) l.
Proof.
  rewrite existsb_exists. split.
  - intros (x & Hx & E). destruct x as [[]| |]; cbn in E; try discriminate. destruct (str_eqb_spec k s); [subst; exact Hx|discriminate].
  - intros H. exists (VS (SStr k)). split; [exact H|]. cbn. apply str_eqb_refl.
Qed.
Lemma is_str_true k v : is_str k v = true <-> v = VS (SStr k).
Proof. split; [destruct v as [[]| |]; cbn; try discriminate; destruct (str_eqb_spec k s); [intros _; subst; reflexivity|discriminate]|intros ->; cbn; apply str_eqb_refl]. Qed.
Lemma has_ok k v b w : has k v = Ok b w -> w = [] /\ (b = true <-> mentions k v).
Proof.
  destruct v as [s|l|r d]; cbn [has mentions].
  - destruct s; cbn; try discriminate. intros [= <- <-]. split; [reflexivity|]. apply contains_spec.
  - intros [= <- <-]. split; [reflexivity|]. apply is_str_In.
  - intros [= <- <-]. split; [reflexivity|]. unfold shas, ahas. fold (sget k d). destruct (sget k d) eqn:E; split; eauto; try discriminate. intros (x & Q). discriminate.
Qed.
Lemma idx_ok k v x w : idx k v = Ok x w -> w = [] /\ entry k v x.
Proof. destruct v as [s|l|r d]; cbn; try discriminate. destruct (sget k d) eqn:E; [|discriminate]. intros [= -> <-]. split; [reflexivity|]. exists r, d. auto. Qed.
Lemma get_ok k df v x w : get k df v = Ok x w -> w = [] /\ exists r d, v = VO r d /\ (sget k d = Some x \/ sget k d = None /\ x = df).
Proof. destruct v as [s|l|r d]; cbn; try discriminate. destruct (sget k d) eqn:E; intros [= <- <-]; (split; [reflexivity|]); exists r, d; auto. Qed.
Lemma entry_fun k v x y : entry k v x -> entry k v y -> x = y.
Proof. intros (r & d & -> & A) (r' & d' & E & B). injection E as <- <-. congruence. Qed.
Lemma mentions_entry k r d : mentions k (VO r d) <-> exists x, entry k (VO r d) x.
Proof. cbn. split; [intros (x & H); exists x, r, d; auto|intros (x & r' & d' & E & H); injection E as <- <-; eauto]. Qed.
Lemma type_set_ok v ts w : type_set v = Ok ts w -> w = [] /\ ts = types v /\ exists r d, v = VO r d.
Proof.
  unfold type_set. intros H. bok H. apply get_ok in E as (-> & r & d & -> & E). cbn [app].
  unfold types. destruct E as [E|[E ->]]; rewrite E.
  - destruct a as [s|l|r' d']; try discriminate; [injection F as <- <-; eauto|]. destruct (forallb vhashable l); [|discriminate]. injection F as <- <-. eauto.
  - cbn in F. injection F as <- <-. eauto.
Qed.
Lemma inset_typed k v : inset k (types v) = true <-> typed k v.
Proof. apply is_str_In. Qed.
Lemma inset_not k v : inset k (types v) = false <-> ~ typed k v.
Proof. rewrite <- inset_typed. destruct (inset k (types v)); split; congruence. Qed.
Lemma vfalsy_truthy v : vfalsy v = false <-> truthy v.
Proof. destruct v as [s|[|x l]|r [|x d]]; cbn; split; congruence. Qed.

Section Run.
  Variable O : sopts.

  Lemma deprecated_ok v b w : deprecated O v = Ok b w -> w = [] /\ (b = true <-> so_nodep O = true /\ is_deprecated v).
  Proof.
    unfold deprecated. destruct (so_nodep O); [|intros [= <- <-]; split; [reflexivity|]; split; [discriminate|intros []; discriminate]].
    intros H. bok H. apply get_ok in E as (-> & r & d & -> & E). cbn [app].
    destruct (vfalsy a) eqn:Fa; cbn [negb] in F.
    - assert (N : ~ exists x, truthy x /\ entry (u "deprecated") (VO r d) x).
      { intros (x & Tx & r' & d' & Q & Ex). injection Q as <- <-. apply vfalsy_truthy in Tx. destruct E as [E|[E _]]; congruence. }
      destruct r as [r|].
      + injection F as <- <-. split; [reflexivity|]. destruct (sget (u "deprecated") r) as [x|] eqn:Er.
        * rewrite Bool.negb_true_iff, vfalsy_truthy. split; [intros T; split; [reflexivity|]; exists x; split; [exact T|]; right; exists r, d; auto|].
          intros (_ & y & Ty & [Q|(r' & d' & Q & Ey)]); [exfalso; apply N; eauto|]. injection Q as <- <-. congruence.
        * split; [discriminate|]. intros (_ & y & Ty & [Q|(r' & d' & Q & Ey)]); [exfalso; apply N; eauto|]. injection Q as <- <-. congruence.
      + injection F as <- <-. split; [reflexivity|]. split; [discriminate|]. intros (_ & y & Ty & [Q|(r' & d' & Q & Ey)]); [exfalso; apply N; eauto|discriminate].
    - injection F as <- <-. split; [reflexivity|]. split; [|reflexivity]. intros _. split; [reflexivity|]. destruct E as [E|[_ ->]]; [|discriminate].
      exists a. split; [apply vfalsy_truthy; exact Fa|]. left. exists r, d. auto.
  Qed.
  Lemma raw_title_ok v raw w : raw_title v = Ok raw w -> w = [] /\ (own_title v = Some raw \/ own_title v = None /\ raw = VS SNone).
  Proof.
    destruct v as [s|l|[r|] d]; cbn [raw_title own_title]; try discriminate.
    - destruct (sget (u "title") r) as [t|] eqn:Et; [intros [= <- <-]; auto|]. intros H. apply get_ok in H as (-> & r' & d' & Q & E). injection Q as <- <-. split; [reflexivity|]. destruct E as [E|[E ->]]; auto.
    - intros H. apply get_ok in H as (-> & r' & d' & Q & E). injection Q as <- <-. split; [reflexivity|]. destruct E as [E|[E ->]]; auto.
  Qed.
  Lemma title_text_ok v raw title w w' : raw_title v = Ok raw w -> title_text raw = Ok title w' -> w' = [] /\ title = title_of v.
  Proof.
    intros H1 H2. apply raw_title_ok in H1 as (-> & H1). unfold title_of.
    destruct raw as [s|l|r d]; cbn [title_text] in H2.
    - destruct s as [| | | | |[|c s]|]; cbn in H2; destruct H1 as [-> |[-> Q]]; try discriminate;
        repeat match goal with H : (if ?c then _ else _) = _ |- _ => destruct c end; try discriminate H2; injection H2 as <- <-; auto.
    - destruct H1 as [-> |[_ Q]]; [|discriminate]. destruct l; cbn in H2; [injection H2 as <- <-; auto|discriminate].
    - destruct H1 as [-> |[_ Q]]; [|discriminate]. destruct d; cbn in H2; [injection H2 as <- <-; auto|discriminate].
  Qed.

  (** ** the title table *)
  Lemma t_update_length i f T : length (t_update i f T) = length T.
  Proof. revert i. induction T as [|x T IH]; intros [|i]; cbn; auto. Qed.
  Lemma t_update_nth i f T j : (i < length T)%nat -> nth j (t_update i f T) tn_empty = if Nat.eqb j i then f (nth i T tn_empty) else nth j T tn_empty.
  Proof.
    revert i j. induction T as [|x T IH]; intros [|i] [|j] H; cbn in *; try lia; try reflexivity. apply IH. lia.
  Qed.
  Lemma t_add_length lw i t n T : length (t_add lw i t n T) = S (length T).
  Proof. unfold t_add. rewrite app_length, t_update_length. cbn. lia. Qed.
  Lemma t_find_added lw i t n T : (i < length T)%nat -> t_find lw (t_add lw i t n T) i t = Some (length T).
  Proof.
    intros H. unfold t_find, t_node, t_add. rewrite app_nth1 by (rewrite t_update_length; exact H). rewrite t_update_nth by exact H. rewrite Nat.eqb_refl. cbn [tn_data]. apply sget_sset_eq.
  Qed.
  Lemma child_table_ok k lk raw st child w v w' title : child_table O lk raw st = Ok child w -> raw_title v = Ok raw w' -> title = title_of v ->
    (forall t, title = Some t -> t_find (so_lower O) (sp_table st) lk t = Some k) -> (title <> None -> (k < length (sp_table st))%nat) -> (lk < length (sp_table st))%nat ->
    (forall j t, t_find (so_lower O) (sp_table st) lk t = Some j -> (j < length (sp_table st))%nat) ->
    w = [] /\ child_ok k child v /\ (child < length (sp_table st))%nat.
  Proof.
    intros H R Et Hf Hk Hl Hv. apply raw_title_ok in R as (-> & R). unfold child_ok. rewrite <- Et.
    assert (Z : child_table O lk raw st = Ok child w -> w = []). { clear. unfold child_table. destruct raw as [[]| |]; intros Q; try discriminate; injection Q as _ <-; reflexivity. }
    split; [exact (Z H)|]. clear Z.
    destruct raw as [s|l|r d]; cbn [child_table] in H; try discriminate.
    destruct s; try discriminate.
    - injection H as <- <-. split; [|lia]. assert (title = None) as ->; [|reflexivity]. rewrite Et. unfold title_of. destruct R as [-> |[-> _]]; reflexivity.
    - injection H as <- <-. destruct R as [R|[_ Q]]; [|discriminate]. unfold title_of in Et. rewrite R in Et. destruct s as [|c s]; subst title.
      + split; [rewrite R; intros [Q|Q]; discriminate|]. destruct (t_find _ _ _ []) as [j|] eqn:Ej; [exact (Hv j _ Ej)|lia].
      + rewrite (Hf _ eq_refl). split; [reflexivity|]. apply Hk. discriminate.
  Qed.

  Definition ok_table (T : Titles.table) : Prop := Forall (fun x => Forall (fun kv => (snd kv < length T)%nat) (tn_data x)) T.
  Lemma ok_table_find lw T i t j : ok_table T -> t_find lw T i t = Some j -> (j < length T)%nat.
  Proof.
    unfold ok_table, t_find, t_node. intros H E. destruct (Nat.lt_ge_cases i (length T)) as [L|L].
    - rewrite Forall_forall in H. pose proof (H _ (nth_In T tn_empty L)) as Hd. apply sget_In in E. rewrite Forall_forall in Hd. exact (Hd _ E).
    - rewrite nth_overflow in E by exact L. discriminate.
  Qed.
  Lemma ok_update (N : nat) key T : forall i m, (m < N)%nat -> Forall (fun x => Forall (fun kv : str * nat => (snd kv < N)%nat) (tn_data x)) T ->
      Forall (fun x => Forall (fun kv : str * nat => (snd kv < N)%nat) (tn_data x)) (t_update i (fun x => {| tn_name := tn_name x; tn_data := sset key m (tn_data x) |}) T).
  Proof.
    induction T as [|x T IH]; intros [|i] m Hm H; cbn; auto; inversion H as [|? ? A B]; subst; constructor; auto. cbn [tn_data].
    apply Forall_forall. intros [k v] Hk. apply sset_In in Hk as [[= -> ->]|Hk]; [exact Hm|]. rewrite Forall_forall in A. exact (A _ Hk).
  Qed.
  Lemma ok_table_add lw i t n T : ok_table T -> ok_table (t_add lw i t n T).
  Proof.
    unfold ok_table. rewrite t_add_length. intros H. unfold t_add. apply Forall_app. split; [|constructor; constructor].
    apply ok_update; [lia|]. eapply Forall_impl; [|exact H]. intros x Hx. eapply Forall_impl; [|exact Hx]. cbn. intros. lia.
  Qed.

  Definition keeps {X} (emit : emit_t X) : Prop := forall x f t st x1 st1 w, emit x f t st = Ok (x1, st1) w -> sp_table st1 = sp_table st.
  Lemma do_act_table a st : match a with ATitle _ _ _ => True | _ => sp_table (do_act O a st) = sp_table st end.
  Proof. destruct a as [| | |? ? []| | | |]; try exact I; reflexivity. Qed.
  Lemma runs_table {X} (emit : emit_t X) tr : keeps emit -> forall x st x' st', runs O emit tr x st x' st' -> ok_table (sp_table st) ->
    ok_table (sp_table st') /\ length (sp_table st') = (length (sp_table st) + titles_in tr)%nat.
  Proof.
    intros K. induction tr as [|a tr IH]; intros x st x' st' H T.
    - destruct H as [-> ->]. split; [exact T|]. unfold titles_in. cbn. lia.
    - destruct a; try (cbn [runs] in H; pose proof (do_act_table) as D; apply IH in H;
        [destruct H as [H1 H2]; split; [exact H1|]; rewrite H2; unfold titles_in; cbn [filter]; f_equal; try reflexivity; destruct title; reflexivity
        |try exact T; destruct title; exact T]).
      + cbn [runs] in H. apply IH in H; [|apply ok_table_add; exact T]. destruct H as [H1 H2]. split; [exact H1|]. rewrite H2. cbn [do_act sp_table upd_table]. rewrite t_add_length. unfold titles_in. cbn [filter length]. lia.
      + cbn [runs] in H. destruct H as (x1 & st1 & w & E & H). pose proof (K _ _ _ _ _ _ _ E) as Q. apply IH in H; [|rewrite Q; exact T]. destruct H as [H1 H2]. split; [exact H1|]. rewrite H2, Q. reflexivity.
  Qed.

  Definition rec_ok (rec : parser) : Prop := forall X (emit : emit_t X), keeps emit -> forall x pp v ids lk pt st x' st' w,
    rec X emit x pp v ids lk pt st = Ok (x', st') w -> ok_table (sp_table st) -> (lk < length (sp_table st))%nat ->
    exists tr, dict_tr O pp ids pt lk (length (sp_table st)) v tr /\ runs O emit tr x st x' st'.

  Lemma titles_in_table lk t n : titles_in (in_table lk t n) = match t with Some _ => 1 | None => 0 end%nat.
  Proof. destruct t; reflexivity. Qed.
  Lemma runs_intable {X} (emit : emit_t X) lk t n x st : runs O emit (in_table lk t n) x st x (match t with Some t => upd_table (t_add (so_lower O) lk t n) st | None => st end).
  Proof. destruct t; split; reflexivity. Qed.
  Lemma runs_cons {X} (emit : emit_t X) a tr x st x' st' : match a with AYield _ _ => False | _ => True end ->
    runs O emit tr x (do_act O a st) x' st' -> runs O emit (a :: tr) x st x' st'.
  Proof. destruct a; cbn; auto. intros []. Qed.
  Lemma runs_yield {X} (emit : emit_t X) f t x st x' st' w : emit x f t st = Ok (x', st') w -> runs O emit [AYield f t] x st x' st'.
  Proof. intros E. exists x', st', w. split; [exact E|]. split; reflexivity. Qed.

  Definition rolls (v : sv) (f : str) : bool :=
    so_rollup O && match v with VO _ d => match sget (u "rollUp") d with Some r => match has f r with Ok b _ => b | _ => false end | None => false end | _ => false end.
  Lemma rolls_spec v f : rolls v f = true <-> rolled_up O v f.
  Proof.
    unfold rolls, rolled_up. destruct (so_rollup O); cbn [andb]; [|split; [discriminate|intros []; discriminate]]. split.
    - destruct v as [| |r d]; try discriminate. destruct (sget (u "rollUp") d) as [x|] eqn:E; [|discriminate]. destruct (has f x) as [b w|] eqn:H; [|discriminate]. intros ->.
      split; [reflexivity|]. exists x. split; [exists r, d; auto|]. apply has_ok in H as (_ & H). apply H. reflexivity.
    - intros (_ & x & (r & d & -> & E) & M). rewrite E. destruct (has f x) as [b w|e w] eqn:H; [apply has_ok in H as (_ & H); apply H; exact M|].
      destruct x as [[]| |]; cbn in H, M; try discriminate; destruct M.
  Qed.
  Lemma rolls_run v f b w : (if so_rollup O then h <- has (u "rollUp") v ;; if h : bool then r <- idx (u "rollUp") v ;; has f r else ret false else ret false) = Ok b w -> w = [] /\ b = rolls v f.
  Proof.
    unfold rolls. destruct (so_rollup O); [|intros [= <- <-]; auto]. intros H. bok H. destruct a.
    - bok F. apply has_ok in E as (-> & _). apply idx_ok in E0 as (-> & r & d & -> & E0). cbn [andb app]. rewrite E0, F0. split; [|reflexivity].
      apply has_ok in F0 as (-> & _). reflexivity.
    - injection F as <- <-. apply has_ok in E as (-> & E). split; [reflexivity|]. cbn [andb]. destruct v as [| |r d]; try reflexivity.
      destruct (sget (u "rollUp") d) as [x|] eqn:Q; [|reflexivity]. assert (false = true) by (apply E; exists x; exact Q). discriminate.
  Qed.

  Section Step.
    Variable rec : parser.
    Hypothesis R : rec_ok rec.
    Context {X : Type}.
    Variable emit : emit_t X.
    Hypothesis K : keeps emit.
    Variables (ppath : str) (ids : list str) (lk : nat) (ptitle : option str).

    (** after the title of the property has been put into the table *)
    Definition with_title (title : option str) (name : str) (st : sps) : sps :=
      match title with Some t => upd_table (t_add (so_lower O) lk t name) st | None => st end.
    Lemma with_title_table title name st : ok_table (sp_table st) -> (lk < length (sp_table st))%nat ->
      ok_table (sp_table (with_title title name st)) /\ length (sp_table (with_title title name st)) = (length (sp_table st) + titles_in (in_table lk title name))%nat /\
      (forall t, title = Some t -> t_find (so_lower O) (sp_table (with_title title name st)) lk t = Some (length (sp_table st))).
    Proof.
      intros T L. destruct title as [t|]; cbn [with_title].
      - cbn [upd_table sp_table]. split; [apply ok_table_add, T|]. split; [rewrite t_add_length; cbn; lia|]. intros t' [= <-]. apply t_find_added, L.
      - split; [exact T|]. split; [cbn; lia|discriminate].
    Qed.

    Lemma geo_run v b w : (if so_wkt O then p <- get (u "properties") (VO None []) v ;; a <- has (u "type") p ;; if a : bool then has (u "coordinates") p else ret false else ret false) = Ok b w ->
      w = [] /\ (b = true <-> geo O v).
    Proof.
      unfold geo. destruct (so_wkt O); [|intros [= <- <-]; split; [reflexivity|]; split; [discriminate|intros []; discriminate]].
      intros H. bok H. bok F. apply get_ok in E as (-> & r & d & -> & E). apply has_ok in E0 as (-> & E0). cbn [app].
      assert (Q : forall p, entry (u "properties") (VO r d) p -> a = p). { intros p (r' & d' & Q & Ep). injection Q as <- <-. destruct E as [E|[E _]]; congruence. }
      destruct a0.
      - apply has_ok in F0 as (-> & F0). split; [reflexivity|]. rewrite F0. split.
        + intros M. split; [reflexivity|]. exists a. split; [|split; [apply E0; reflexivity|exact M]]. destruct E as [E|[E ->]]; [exists r, d; auto|]. destruct M as (x & M). discriminate M.
        + intros (_ & p & Ep & _ & M). rewrite (Q p Ep). exact M.
      - injection F0 as <- <-. split; [reflexivity|]. split; [discriminate|]. intros (_ & p & Ep & M & _). rewrite <- (Q p Ep) in M. apply E0 in M. exact M.
    Qed.

    Lemma object_runs name v raw w0 x st x' st' w : raw_title v = Ok raw w0 -> (so_nodep O = true -> ~ is_deprecated v) -> typed (u "object") v ->
      ok_table (sp_table st) -> (lk < length (sp_table st))%nat ->
      parse_object O rec emit ppath ids lk ptitle name v raw (title_of v) x (with_title (title_of v) name st) = Ok (x', st') w ->
      exists tr, prop_tr O ppath ids ptitle lk (length (sp_table st)) name v tr /\ runs O emit tr x st x' st'.
    Proof.
      intros Hr D Ty T L H. destruct (with_title_table (title_of v) name st T L) as (T1 & L1 & F1).
      unfold parse_object in H. bok H. apply geo_run in E as (-> & G). destruct a.
      - eexists. split; [eapply PT_leaf with (pre := []); [exact D|apply leaf_geo; [exact Ty|apply G; reflexivity]|left; reflexivity]|].
        eapply runs_app; [apply runs_intable|]. cbn [app]. apply runs_cons; [exact I|]. eapply runs_yield. exact F.
      - assert (NG : ~ geo O v) by (rewrite <- G; discriminate). cbv zeta in F. bok F.
        eapply child_table_ok with (k := length (sp_table st)) in E as (-> & C & Lc); [| exact Hr | reflexivity | exact F1 | | | ].
        + refine (_ (R _ _ _ _ _ _ _ _ _ _ _ _ _ F0 T1 Lc)); [|intros ? ? ? ? ? ? ? Q; apply K in Q; exact Q]. intros (tr & Tr & Run).
          eexists. split; [eapply PT_object; [exact D|split; [exact Ty|exact NG]|exact C|]|].
          * rewrite <- L1. exact Tr.
          * eapply runs_app; [apply runs_intable|]. apply runs_cons; [exact I|]. apply runs_object. exact Run.
        + intros N. cbn [set_type upd_flat sp_table]. rewrite L1. destruct (title_of v); [cbn; lia|congruence].
        + cbn [set_type upd_flat sp_table]. rewrite L1. lia.
        + intros j t. apply ok_table_find. exact T1.
    Qed.

    (** the consumer of the fields of an array of objects, schema.py:380-441 *)
    Definition consume_sub (sn name : str) (v : sv) (title : option str) : emit_t (X * list str) := fun y field ct st =>
        let (x, rolled) := y in
        let full := ppath ++ name ++ zero_sl ++ field in
        st <- (if so_titles O then
                 match ct, ptitle, title with
                 | None, _, _ | _, None, _ => _ <- warn1 (SMissingTitle full) ;; ret st
                 | _, _, None => _ <- warn1 (SNoArrayTitle (ppath ++ name)) ;; ret st
                 | Some c, Some p, Some t =>
                   let ft := p ++ t ++ [colon] ++ c in
                   ret (on_sub sn (fun s => set_title full ft (add_col ft s)) st)
                 end
               else ret (on_sub sn (add_col full) st)) ;;
        up <- (if so_rollup O then h <- has (u "rollUp") v ;; if h : bool then r <- idx (u "rollUp") v ;; has field r else ret false else ret false) ;;
        if up : bool then
          xs <- emit x (name ++ zero_sl ++ field) (join_title title ct) (upd_rollup (set_add full) st) ;;
          let (x, st) := xs : X * sps in ret ((x, set_add field rolled), st)
        else ret ((x, rolled), st).
    Lemma consume_ok sn name v title x rolled f c st y st' w : consume_sub sn name v title (x, rolled) f c st = Ok (y, st') w ->
      runs O emit (sub_col O sn ppath name ptitle title f c ++ roll_act ppath name title (rolls v) f c) x st (fst y) st'.
    Proof.
      unfold consume_sub. intros H. cbv zeta in H. bok H. bok F.
      assert (Q : a = fold_left (fun st a => do_act O a st) (sub_col O sn ppath name ptitle title f c) st).
      { clear E0 F0. unfold sub_col. destruct (so_titles O); [|injection E as <- _; reflexivity].
        destruct c as [c|]; [destruct ptitle as [p|]; [destruct title as [t|]|]|]; injection E as <- _; reflexivity. }
      assert (Q2 : runs O emit (sub_col O sn ppath name ptitle title f c) x st x a).
      { rewrite Q. unfold sub_col. destruct (so_titles O); [destruct c as [c|]; [destruct ptitle as [p|]; [destruct title as [t|]|]|]|]; split; reflexivity. }
      eapply runs_app; [exact Q2|]. clear Q Q2 E. apply rolls_run in E0 as (-> & ->). unfold roll_act. destruct (rolls v f).
      - bok F0. destruct a0 as [x1 st1]. injection F as <- <- _. cbn [fst]. apply runs_cons; [exact I|]. eapply runs_yield. exact E.
      - injection F0 as <- <- _. split; reflexivity.
    Qed.
    Lemma consume_keeps sn name v title : keeps (consume_sub sn name v title).
    Proof.
      intros [x rolled] f t st [x1 r1] st1 w H. unfold consume_sub in H. cbv zeta in H. bok H. bok F.
      assert (Q : sp_table a = sp_table st).
      { clear E0 F0. destruct (so_titles O); [|injection E as <- _; reflexivity].
        destruct t as [c|]; [destruct ptitle as [p|]; [destruct title as [t|]|]|]; injection E as <- _; reflexivity. }
      rewrite <- Q. destruct a0.
      - bok F0. destruct a0 as [x2 st2]. injection F as <- <- <- _. apply K in E1. exact E1.
      - injection F0 as <- <- <- _. reflexivity.
    Qed.
    Lemma runs_objects sn name v title tr : forall x rolled st y st', runs O (consume_sub sn name v title) tr (x, rolled) st y st' ->
      runs O emit (flat_map (lift_objects O sn ppath name ptitle title (rolls v)) tr) x st (fst y) st'.
    Proof.
      induction tr as [|a tr IH]; intros x rolled st y st' H; [destruct H as [-> ->]; split; reflexivity|]. cbn [flat_map].
      destruct a; try (cbn [lift_objects app]; apply runs_cons; [exact I|]; apply (IH x rolled); exact H).
      cbn [runs] in H. destruct H as ([x1 r1] & st1 & w & E & H). eapply runs_app; [exact (consume_ok _ _ _ _ _ _ _ _ _ _ _ _ E)|]. exact (IH _ _ _ _ _ H).
    Qed.
    Lemma runs_ids sn l x st : runs O emit (map (fun f => AId sn f lk) l) x st x (fold_left (fun st f => on_sub sn (fun s => set_title (lookup_header (so_lower O) (sp_table st) lk f) f (add_idcol f s)) st) l st).
    Proof. revert st. induction l as [|f l IH]; intros st; [split; reflexivity|]. cbn [map fold_left]. apply runs_cons; [exact I|]. apply IH. Qed.

    Lemma fold_ids_table sn l : forall st, sp_table (fold_left (fun st f => on_sub sn (fun s => set_title (lookup_header (so_lower O) (sp_table st) lk f) f (add_idcol f s)) st) l st) = sp_table st.
    Proof. induction l as [|f l IH]; intros st; [reflexivity|]. cbn [fold_left]. rewrite IH. reflexivity. Qed.
    Lemma objects_runs name v raw w0 x st x' st' w i : raw_title v = Ok raw w0 -> (so_nodep O = true -> ~ is_deprecated v) -> objects v i ->
      ok_table (sp_table st) -> (lk < length (sp_table st))%nat ->
      parse_objects O rec emit ppath ids lk ptitle name v raw (title_of v) x (set_type (replace zero_sl sl ppath ++ name) (u "array") (with_title (title_of v) name st)) = Ok (x', st') w ->
      exists tr, prop_tr O ppath ids ptitle lk (length (sp_table st)) name v tr /\ runs O emit tr x st x' st'.
    Proof.
      intros Hr D Ob T L H. destruct (with_title_table (title_of v) name st T L) as (T1 & L1 & F1).
      unfold parse_objects in H. set (sn := sub_name O ppath ptitle name (title_of v)) in *.
      set (st1 := set_type _ _ _) in H. set (st2 := match so_titles O with true => _ | false => _ end) in H. set (st3 := upd_subs _ st2) in H. cbv zeta in H.
      assert (Tab3 : sp_table st3 = sp_table (with_title (title_of v) name st)). { unfold st3, st2. destruct (so_titles O); [destruct ptitle|]; reflexivity. }
      assert (Run3 : forall tr x' st', runs O emit tr x st3 x' st' -> runs O emit
         ((if so_titles O then match ptitle with Some _ => [ASubTitle (ppath, name) sn] | None => [] end else []) ++ ASheet sn :: tr) x st1 x' st').
      { intros tr y sty Hy. eapply runs_app with (x1 := x) (st1 := st2); [unfold st2; destruct (so_titles O); [destruct ptitle|]; split; reflexivity|]. apply runs_cons; [exact I|]. exact Hy. }
      bok H. eapply child_table_ok with (k := length (sp_table st)) in E as (-> & C & Lc); [| exact Hr | reflexivity | rewrite Tab3; exact F1 | | | ].
      - set (st4 := fold_left _ ids st3) in F. cbv zeta in F. bok F. apply idx_ok in E as (-> & E). rename F0 into F.
        assert (a0 = i) as -> by (destruct Ob as ((_ & _ & Ei) & _); exact (entry_fun _ _ _ _ E Ei)).
        bok F. destruct a0 as [[y rolled] sty]. bok F0. injection F as <- <- _.
        assert (Tab4 : sp_table st4 = sp_table st3) by apply fold_ids_table.
        refine (_ (R _ (consume_sub sn name v (title_of v)) (consume_keeps _ _ _ _) _ _ _ _ _ _ _ _ _ _ E0 _ _)); [|rewrite Tab4, Tab3; exact T1|rewrite Tab4; exact Lc]. intros (tr & Tr & Run).
        eexists. split.
        + eapply PT_objects with (up := rolls v) (tr := tr); [exact D|exact Ob|exact C|apply rolls_spec|reflexivity|]. rewrite <- L1, <- Tab3, <- Tab4. exact Tr.
        + eapply runs_app; [apply runs_intable|]. apply runs_cons; [exact I|]. apply Run3. eapply runs_app; [apply runs_ids|]. fold st4. exact (runs_objects _ _ _ _ _ _ _ _ _ _ Run).
      - rewrite Tab3, L1. intros N. destruct (title_of v); [cbn; lia|congruence].
      - rewrite Tab3, L1. lia.
      - rewrite Tab3. intros j t. apply ok_table_find. exact T1.
    Qed.

    Lemma leaf_runs name v ty pre x st x' st' w : (so_nodep O = true -> ~ is_deprecated v) -> leaf O v ty ->
      (pre = [] \/ pre = [AType (replace zero_sl sl ppath ++ name) (u "array")]) ->
      emit x name (title_of v) (set_type (replace zero_sl sl ppath ++ name) ty (fold_left (fun st a => do_act O a st) pre (with_title (title_of v) name st))) = Ok (x', st') w ->
      exists tr, prop_tr O ppath ids ptitle lk (length (sp_table st)) name v tr /\ runs O emit tr x st x' st'.
    Proof.
      intros D Lf Hp H. eexists. split; [eapply PT_leaf with (pre := pre); [exact D|exact Lf|exact Hp]|].
      eapply runs_app; [apply runs_intable|]. eapply runs_app with (x1 := x); [|apply runs_cons; [exact I|]; eapply runs_yield; exact H].
      destruct Hp as [-> | ->]; split; reflexivity.
    Qed.
    Lemma isnil_true {A} (l : list A) : isnil l = true <-> l = [].
    Proof. destruct l; cbn; split; congruence. Qed.
    Lemma str_or_nil ts v : ts = types v -> inset (u "string") ts || isnil ts = true <-> typed (u "string") v \/ types v = [].
    Proof. intros ->. rewrite Bool.orb_true_iff, inset_typed, isnil_true. reflexivity. Qed.
    Lemma str_or_nil_false ts v : ts = types v -> inset (u "string") ts || isnil ts = false -> ~ typed (u "string") v /\ types v <> [].
    Proof. intros -> H. apply Bool.orb_false_iff in H as [H1 H2]. split; [apply inset_not, H1|]. intros Q. rewrite Q in H2. discriminate. Qed.

    Lemma array_runs name v raw w0 x st x' st' w : raw_title v = Ok raw w0 -> (so_nodep O = true -> ~ is_deprecated v) -> ~ typed (u "object") v -> typed (u "array") v ->
      ok_table (sp_table st) -> (lk < length (sp_table st))%nat ->
      parse_array O rec emit ppath ids lk ptitle name v raw (title_of v) x (with_title (title_of v) name st) = Ok (x', st') w ->
      exists tr, prop_tr O ppath ids ptitle lk (length (sp_table st)) name v tr /\ runs O emit tr x st x' st'.
    Proof.
      intros Hr D No Ta T L H. unfold parse_array in H. cbv zeta in H. bok H. apply idx_ok in E as (-> & Ei). bok F. apply type_set_ok in E as (-> & Ets & _). rename F0 into F.
      assert (A : an_array v a) by (split; [exact No|split; [exact Ta|exact Ei]]).
      set (pre := [AType (replace zero_sl sl ppath ++ name) (u "array")]).
      destruct (inset (u "string") a0 || isnil a0) eqn:E1.
      { apply (str_or_nil a0 a Ets) in E1. eapply (leaf_runs name v (u "string_array") pre); [exact D|eapply leaf_strings; eauto|right; reflexivity|exact F]. }
      apply (str_or_nil_false a0 a Ets) in E1 as [N1 N2]. subst a0.
      destruct (inset (u "number") (types a)) eqn:E2.
      { apply inset_typed in E2. eapply (leaf_runs name v (u "number_array") pre); [exact D|eapply leaf_numbers; eauto|right; reflexivity|exact F]. }
      apply inset_not in E2. destruct (inset (u "array") (types a)) eqn:E3.
      { apply inset_typed in E3. bok F. apply idx_ok in E as (-> & Ej). bok F0. apply type_set_ok in E as (-> & -> & _).
        destruct (inset (u "string") (types a0) || inset (u "number") (types a0)) eqn:E4; [|discriminate]. rewrite Bool.orb_true_iff, !inset_typed in E4.
        eapply (leaf_runs name v (u "array_array") pre); [exact D|eapply leaf_arrays; eauto|right; reflexivity|exact F]. }
      apply inset_not in E3. destruct (inset (u "object") (types a)) eqn:E4; [|discriminate]. apply inset_typed in E4.
      eapply objects_runs; [exact Hr|exact D| |exact T|exact L|exact F]. split; [exact A|]. auto.
    Qed.

    Lemma prop_runs name v x st x' st' w : ok_table (sp_table st) -> (lk < length (sp_table st))%nat ->
      parse_prop O rec emit ppath ids lk ptitle name v x st = Ok (x', st') w ->
      exists tr, prop_tr O ppath ids ptitle lk (length (sp_table st)) name v tr /\ runs O emit tr x st x' st'.
    Proof.
      intros T L H. unfold parse_prop in H. bok H. apply deprecated_ok in E as (-> & D). destruct a.
      { injection F as <- <- _. exists []. split; [apply PT_skip; apply D; reflexivity|split; reflexivity]. }
      assert (D' : so_nodep O = true -> ~ is_deprecated v) by (intros A B; destruct D as [_ D]; discriminate D; auto). clear D. rename D' into D.
      bok F. apply type_set_ok in E as (-> & -> & rv & dv & Hv). bok F0. rename a into raw. bok F. pose proof E as Hraw.
      destruct (title_text_ok v raw a _ _ E E0) as (-> & ->). clear E E0. cbv zeta in F0. fold (with_title (title_of v) name st) in F0.
      destruct (inset (u "object") (types v)) eqn:E1. { apply inset_typed in E1. eapply object_runs; eauto. }
      apply inset_not in E1. destruct (inset (u "array") (types v)) eqn:E2. { apply inset_typed in E2. eapply array_runs; eauto. }
      apply inset_not in E2. destruct (inset (u "string") (types v) || isnil (types v)) eqn:E3.
      { apply (str_or_nil _ v eq_refl) in E3. bok F0. apply get_ok in E as (-> & r & d & Ev & Ef). destruct (is_str (u "date") a) eqn:E4.
        - apply is_str_true in E4. subst a. eapply (leaf_runs name v (u "date") []); [exact D| |left; reflexivity|exact F]. apply leaf_date; auto. destruct Ef as [Ef|[_ Q]]; [|discriminate]. exists r, d. auto.
        - eapply (leaf_runs name v (u "string") []); [exact D| |left; reflexivity|exact F]. apply leaf_string; auto. intros (r' & d' & Q & Eq). rewrite Ev in Q. injection Q as <- <-.
          assert (a = VS (SStr (u "date"))) as -> by (destruct Ef as [Ef|[Ef _]]; congruence). cbn in E4. discriminate. }
      apply (str_or_nil_false _ v eq_refl) in E3 as [N1 N2]. destruct (inset (u "number") (types v)) eqn:E4.
      { apply inset_typed in E4. eapply (leaf_runs name v (u "number") []); [exact D|apply leaf_number; auto|left; reflexivity|exact F0]. }
      apply inset_not in E4. destruct (inset (u "integer") (types v)) eqn:E5.
      { apply inset_typed in E5. eapply (leaf_runs name v (u "integer") []); [exact D|apply leaf_integer; auto|left; reflexivity|exact F0]. }
      apply inset_not in E5. destruct (inset (u "boolean") (types v)) eqn:E6.
      { apply inset_typed in E6. eapply (leaf_runs name v (u "boolean") []); [exact D|apply leaf_boolean; auto|left; reflexivity|exact F0]. }
      apply inset_not in E6. injection F0 as <- <- _. eexists. split; [|apply runs_intable]. apply PT_none; [exact D| | |].
      - intros ty Lf. destruct Lf as [A _|? (_ & A & _) _|? (_ & A & _)|? ? (_ & A & _)|? ? [A|A]|? ? [A|A]|? ? ? A|? ? ? ? A|? ? ? ? ? A]; contradiction.
      - intros [A _]. contradiction.
      - intros i ((_ & A & _) & _). contradiction.
    Qed.

    Lemma props_runs l : forall x st x' st' w, ok_table (sp_table st) -> (lk < length (sp_table st))%nat ->
      parse_props O rec emit ppath ids lk ptitle l x st = Ok (x', st') w ->
      exists tr, props_tr O ppath ids ptitle lk (length (sp_table st)) l tr /\ runs O emit tr x st x' st'.
    Proof.
      induction l as [|[n v] l IH]; intros x st x' st' w T L H; cbn [parse_props] in H.
      - injection H as <- <- _. exists []. split; [constructor|split; reflexivity].
      - bok H. destruct a as [x1 st1]. apply prop_runs in E as (t1 & Tr1 & R1); [|exact T|exact L].
        destruct (runs_table emit t1 K _ _ _ _ R1 T) as (T1 & L1). apply IH in F as (t2 & Tr2 & R2); [|exact T1|lia].
        exists (t1 ++ t2). split; [econstructor; [exact Tr1|]; rewrite <- L1; exact Tr2|]. eapply runs_app; eauto.
    Qed.
    Lemma alts_runs l : forall x st x' st' w, ok_table (sp_table st) -> (lk < length (sp_table st))%nat ->
      parse_alts rec emit ppath ids lk ptitle l x st = Ok (x', st') w ->
      exists tr, alts_tr O ppath ids ptitle lk (length (sp_table st)) l tr /\ runs O emit tr x st x' st'.
    Proof.
      induction l as [|v l IH]; intros x st x' st' w T L H; cbn [parse_alts] in H.
      - injection H as <- <- _. exists []. split; [constructor|split; reflexivity].
      - bok H. bok F.
        assert (B : a = true <-> entry (u "type") v (VS (SStr (u "object")))).
        { bok E. apply has_ok in E1 as (_ & E1). destruct a1.
          - bok F. apply idx_ok in E as (_ & E). injection F1 as <- _. rewrite is_str_true. split; [intros ->; exact E|intros Q; exact (entry_fun _ _ _ _ E Q)].
          - injection F as <- _. split; [discriminate|]. intros (r & d & -> & Q). apply E1. exists (VS (SStr (u "object"))). exact Q. }
        clear E. destruct a0 as [x1 st1]. destruct a.
        + apply (R _ _ K) in E0 as (t1 & Tr1 & R1); [|exact T|exact L].
          destruct (runs_table emit t1 K _ _ _ _ R1 T) as (T1 & L1). apply IH in F0 as (t2 & Tr2 & R2); [|exact T1|lia].
          exists (t1 ++ t2). split; [apply LT_take; [apply B; reflexivity|exact Tr1|]; rewrite <- L1; exact Tr2|]. eapply runs_app; eauto.
        + injection E0 as <- <- _. apply IH in F0 as (t2 & Tr2 & R2); [|exact T|exact L]. exists t2. split; [|exact R2]. apply LT_skip; [|exact Tr2]. intros Q. apply B in Q. discriminate.
    Qed.
  End Step.

  Lemma has_alts_ok v b w : has_alts v = Ok b w -> (b = true -> exists r d, v = VO r d) /\ (b = false -> forall o, ~ alternatives v o).
  Proof.
    unfold has_alts. intros H. bok H. apply has_ok in E as (-> & E). destruct a.
    2:{ injection F as <- _. split; [discriminate|]. intros _ o (i & (r & d & -> & Q) & _). assert (false = true) by (apply E; exists (VS (SStr (u "array"))); exact Q). discriminate. }
    bok F. apply idx_ok in E0 as (-> & E0). assert (V : exists r d, v = VO r d) by (destruct E0 as (r & d & -> & _); eauto).
    split; [intros _; exact V|]. intros -> o (i & A & B & C). pose proof (entry_fun _ _ _ _ E0 A) as ->. rewrite (proj2 (is_str_true _ _) eq_refl) in F0.
    bok F0. apply has_ok in E1 as (-> & E1). destruct a.
    - bok F. apply idx_ok in E2 as (-> & E2). pose proof (entry_fun _ _ _ _ E2 B) as ->. apply has_ok in F0 as (_ & F0). assert (false = true); [|discriminate]. apply F0. destruct C as (r & d & -> & C). exists o. exact C.
    - destruct B as (r & d & -> & B). assert (false = true); [|discriminate]. apply E1. exists i. exact B.
  Qed.
  Lemma has_alts_true v w : has_alts v = Ok true w -> entry (u "type") v (VS (SStr (u "array"))).
  Proof.
    unfold has_alts. intros H. bok H. destruct a; [|discriminate]. bok F. apply idx_ok in E0 as (_ & E0). destruct (is_str (u "array") a) eqn:Q; [|discriminate]. apply is_str_true in Q. subst a. exact E0.
  Qed.
  Lemma id_fields_ok ppath ids ptitle r d l w v : entry (u "properties") v (VO r d) -> id_fields O ppath ids ptitle (VO r d) = Ok l w ->
    l = ids_at O v {| at_path := ppath; at_titles := ptitle; at_ids := ids |}.
  Proof.
    intros (rv & dv & -> & Ep) H. unfold ids_at. rewrite Ep. unfold id_fields in H. bok H. cbn [has] in E. injection E as <- _. unfold shas, ahas in F. fold (sget (u "id") d) in F.
    destruct (sget (u "id") d) as [i|] eqn:Ei; [|injection F as <- _; reflexivity]. cbn [at_path at_titles at_ids]. destruct (so_titles O); [|injection F as <- _; reflexivity].
    bok F. cbn [idx] in E. rewrite Ei in E. injection E as <- _. bok F0. apply get_ok in E as (-> & r' & d' & -> & E). cbv zeta in F.
    destruct E as [E|[E ->]]; rewrite E.
    - destruct a as [s|l0|r0 d0]; cbn [vfalsy] in F.
      + destruct s as [|b|z| | |[|c s]|]; cbn in F; repeat match goal with H : (if ?c then _ else _) = _ |- _ => destruct c end; try discriminate F; injection F as <- _; reflexivity.
      + destruct l0; [injection F as <- _; reflexivity|discriminate].
      + destruct d0; [injection F as <- _; reflexivity|discriminate].
    - injection F as <- _. reflexivity.
  Qed.

  Lemma alts_texts rec X (emit : emit_t X) pp ids lk pt l : Forall (fun v => exists s, v = VS (SStr s)) l -> forall x st x' st' w,
    parse_alts rec emit pp ids lk pt l x st = Ok (x', st') w -> x' = x /\ st' = st.
  Proof.
    induction 1 as [|v l (s & ->) _ IH]; intros x st x' st' w; cbn [parse_alts]; [intros [= <- <- _]; auto|]. intros H. bok H. bok F.
    assert (a = false) as ->.
    { bok E. cbn [has] in E1. injection E1 as <- _. destruct (contains s (u "type")); [|injection F as <- _; reflexivity]. bok F. discriminate E. }
    destruct a0 as [x1 st1]. injection E0 as <- <- _. exact (IH _ _ _ _ _ F0).
  Qed.
  Lemma dict_runs n : rec_ok (parse_dict O n).
  Proof.
    induction n as [|n IH]; intros X emit K x pp v ids lk pt st x' st' w H T L; [discriminate|]. cbn [parse_dict] in H. cbv zeta in H. fold (slashed pp) in H.
    bok H. destruct a.
    - bok F. apply idx_ok in E0 as (_ & E0). bok F0. apply idx_ok in E1 as (_ & E1). bok F.
      assert (Alt : alternatives v a0) by (exists a; split; [exact (has_alts_true _ _ E)|auto]).
      destruct a0 as [s|l|r d].
      + destruct s; try discriminate. injection E2 as <- _.
        apply alts_texts in F0 as [-> ->]; [|apply Forall_forall; intros y Hy; apply in_map_iff in Hy as (c & <- & _); eexists; reflexivity].
        exists []. split; [|split; reflexivity]. eapply DT_alts_none; [exact Alt|discriminate].
      + injection E2 as <- _. apply (alts_runs (parse_dict O n) IH emit K) in F0 as (tr & Tr & Run); [|exact T|exact L]. exists tr. split; [|exact Run]. eapply DT_alts; eauto.
      + injection E2 as <- _.
        apply alts_texts in F0 as [-> ->]; [|apply Forall_forall; intros y Hy; apply in_map_iff in Hy as (c & <- & _); eexists; reflexivity].
        exists []. split; [|split; reflexivity]. eapply DT_alts_none; [exact Alt|discriminate].
    - destruct (has_alts_ok _ _ _ E) as (_ & NA). specialize (NA eq_refl). bok F. apply has_ok in E0 as (-> & E0). destruct a.
      + bok F0. apply idx_ok in E1 as (-> & E1). bok F. destruct a as [s|l|r d]; try discriminate. pose proof (id_fields_ok _ _ _ _ _ _ _ _ E1 E2) as ->.
        apply (props_runs (parse_dict O n) IH emit K) in F0 as (tr & Tr & Run); [|exact T|exact L]. exists tr. split; [|exact Run]. eapply DT_props; eauto.
      + injection F0 as <- <- _. exists []. split; [|split; reflexivity]. apply DT_none; [exact NA|]. intros p (r & d & -> & Q). assert (false = true) by (apply E0; exists p; exact Q). discriminate.
  Qed.
End Run.
