(** With a schema, unflatten fails only where a heading is at odds with it. *)
From Verif.Base Require Import PyStr PyNum PyVal PyDict Outcome.
From Verif.Model Require Import Warn Lib Convert Input.
From Verif.Spec Require Import Conversion Plain Odds.
From Verif.Proofs Require Import TreeInd RowWf ConvertFacts Total.

(** the result is fine ([Q]), or a schema error at a place [P] *)
Definition outcome {A} (P : str -> Prop) (Q : A -> Prop) (m : R A) : Prop :=
  (exists a w, m = Ok a w /\ Q a) \/ (exists till w, m = Raise (EFlattenToolValueError till) w /\ P till).
Lemma outcome_ret {A} P (Q : A -> Prop) a : Q a -> outcome P Q (ret a).
Proof. intros H. left. exists a, []. auto. Qed.
Lemma outcome_bind {A B} P (Q : A -> Prop) (Q' : B -> Prop) m f :
  outcome P Q m -> (forall a, Q a -> outcome P Q' (f a)) -> outcome P Q' (bind m f).
Proof.
  intros [(a & w & -> & Ha)|(t & w & -> & Ht)] H.
  - destruct (H a Ha) as [(b & w' & E & Hb)|(t & w' & E & Ht)]; [left|right]; simpl; rewrite E; eauto.
  - right. simpl. eauto.
Qed.
Lemma outcome_warn {A} P (Q : A -> Prop) x m : outcome P Q m -> outcome P Q (bind (warn1 x) (fun _ => m)).
Proof. intros H. apply (outcome_bind P (fun _ => True)); [left; exists tt, [x]; split; [reflexivity|exact I]|]. intros [] _. exact H. Qed.
Lemma outcome_imp {A} (P P' : str -> Prop) (Q Q' : A -> Prop) m : outcome P Q m -> (forall t, P t -> P' t) -> (forall a, Q a -> Q' a) -> outcome P' Q' m.
Proof. intros [(a & w & H & Ha)|(t & w & H & Ht)] HP HQ; [left|right]; eauto. Qed.
Lemma outcome_ok {A} P (Q : A -> Prop) a w : Q a -> outcome P Q (Ok a w).
Proof. intros H. left. eauto. Qed.

Section Row.
  Variable E : conv_env.
  Variable types : str -> str.
  Variable idn : str.
  Hypothesis known : known_types types.
  Hypothesis single : ids_single types idn.

  Inductive rsimple : rnode -> Prop :=
  | rs_cell c : rsimple (RCell c)
  | rs_dict d : (forall k n, In (k, n) d -> rsimple n) -> (forall n, In (idn, n) d -> exists c, n = RCell c /\ hashable (c_val c) = true) -> rsimple (RDict d)
  | rs_lad l : (forall i d k n, In (i, d) l -> In (k, n) d -> rsimple n) ->
      (forall i d n, In (i, d) l -> In (idn, n) d -> exists c, n = RCell c /\ hashable (c_val c) = true) -> rsimple (RLad l).
  Definition rsd (d : rdict) : Prop := (forall k n, In (k, n) d -> rsimple n) /\ (forall n, In (idn, n) d -> exists c, n = RCell c /\ hashable (c_val c) = true).
  Lemma rs_dict_iff d : rsimple (RDict d) <-> rsd d.
  Proof. split; [inversion 1; split; assumption|intros []; constructor; assumption]. Qed.
  Lemma rs_lad_iff l : rsimple (RLad l) <-> forall i d, In (i, d) l -> rsd d.
  Proof.
    split.
    - inversion 1; subst. intros i d Hi. split; [intros k n Hn; eauto|intros n Hn; eauto].
    - intros H. constructor; intros i d; [intros k n Hi Hn; destruct (H i d Hi); eauto|intros n Hi Hn; destruct (H i d Hi); eauto].
  Qed.
  Lemma rsd_nil : rsd [].
  Proof. split; intros; contradiction. Qed.
  Lemma rsd_sset k n d : rsd d -> rsimple n -> (k = idn -> exists c, n = RCell c /\ hashable (c_val c) = true) -> rsd (sset k n d).
  Proof.
    intros [H1 H2] Hn Hk. split.
    - intros k' n' Hin. apply sset_In in Hin as [Q|Hin]; [injection Q as -> ->; exact Hn|eauto].
    - intros n' Hin. apply sset_In in Hin as [Q|Hin]; [injection Q as <- ->; auto|eauto].
  Qed.

  (** conversion does not fail, and ids stay hashable *)
  Lemma convert_tame ty s : (exists p, ty = types p) -> ty <> u "object" -> blank s = false -> tame E types s ->
    exists x w, convert_type E ty (CV s) = Ok x w /\ (In ty single_types -> hashable x = true).
  Proof.
    intros (p & ->) Hno Hb (Ho & Hn & Ht & Hg). destruct (known p) as [Hv|[Hobj|Hgeo]]; [|contradiction|].
    - destruct (str_eqb_spec (types p) (u "number")) as [Hnum|Hnum].
      { rewrite Hnum. assert (Hc : convert_type E (u "number") (CV s) = match to_decimal s with Some d => ret (CV (SDec d)) | None => bind (warn1 (WNonNumeric (CV s))) (fun _ => ret (CV (SStr (py_str E s)))) end).
        { unfold convert_type. cbn [cv_blank]. rewrite Hb. reflexivity. }
        rewrite Hc. destruct (to_decimal s) as [d|] eqn:Ed; [|eexists; eexists; split; [reflexivity|reflexivity]].
        eexists; eexists; split; [reflexivity|]. intros _. destruct d as [| |n0 [] p0]; try reflexivity. exfalso.
        destruct s as [|b|z|d0|f|t|n]; simpl in Ed; try discriminate Ed.
        - injection Ed as ->. exact (Hn _ _ eq_refl).
        - destruct f as [n m e| |]; simpl in Ed; try discriminate Ed. destruct (0 <=? e)%Z; discriminate Ed.
        - exact (Ht _ _ _ eq_refl Ed). }
      destruct (convert_spec E (types p) s Hv Hb Ho) as [(r & H & Hd)|(r & x & H & Hk)].
      + exists r, []. split; [exact H|]. intros Hin.
        destruct Hd as [| | | | | |s d Hr| | | |s ty r Hty Hs|s r Hs]; try reflexivity; try congruence.
        * exfalso. revert Hin Hty. clear. intros Hin Hty. simpl in Hin, Hty. intuition (subst; discriminate).
        * exfalso. clear -Hin. simpl in Hin. intuition discriminate.
      + exists r, [x]. split; [exact H|]. intros Hin. destruct Hk as [| | |s r Hq Hs]; try reflexivity. exfalso. clear -Hin. simpl in Hin. intuition discriminate.
    - destruct (Hg (ex_intro _ p Hgeo)) as [Hw Hl]. rewrite Hgeo.
      destruct (convert_geojson E s Hb Hw Hl) as [(g & _ & _ & H)|[(_ & _ & H)|(_ & H)]]; eexists; eexists; (split; [exact H|]);
        intros Hin; exfalso; clear -Hin; simpl in Hin; intuition discriminate.
  Qed.

  (** ** the walk along a heading *)
  Definition odds_from (seen rest : list str) (till : str) : Prop :=
    exists before item next after, rest = before ++ item :: next :: after /\
      isint item = false /\ next <> [] /\ till = path_till (seen ++ before ++ [item]) /\
      types till <> [] /\ types till <> u "array" /\ (types till = u "object" -> isint next = true).
  Lemma odds_next seen a rest till : odds_from (seen ++ [a]) rest till -> odds_from seen (a :: rest) till.
  Proof.
    intros (b & i & n & l & -> & H1 & H2 & H3 & H4). exists (a :: b), i, n, l. repeat split; try tauto. rewrite H3, <- !app_assoc. reflexivity.
  Qed.
  Lemma odds_all items till : odds_from [] items till <-> at_odds types items till.
  Proof. reflexivity. Qed.
  Lemma till_last seen item : isint item = false -> path_till (seen ++ [item]) = join [slash] (filter (fun i => negb (isint i)) seen ++ [item]).
  Proof. intros H. unfold path_till. rewrite filter_app. cbn [filter]. rewrite H. reflexivity. Qed.

  Lemma no_empty_tl a rest : no_empty_parts (a :: rest) -> no_empty_parts rest.
  Proof. intros H b x y l ->. exact (H (a :: b) x y l eq_refl). Qed.
  Lemma id_leaf_tl a rest : id_is_leaf idn (a :: rest) -> id_is_leaf idn rest.
  Proof. simpl. destruct rest; [intros; exact I|tauto]. Qed.

  Lemma walk_outcome h loc0 rest : forall seen s cur, id_is_leaf idn rest -> no_empty_parts rest -> blank s = false -> tame E types s -> rsd cur ->
    outcome (odds_from seen rest) rsd (walk E types false h loc0 seen rest (CV s) cur).
  Proof.
    induction rest as [|item rest IH]; intros seen s cur Hid Hne Hb Hs Hcur; cbn [walk]; [apply outcome_ret; exact Hcur|].
    assert (IH' : forall cur, rsd cur -> outcome (odds_from seen (item :: rest)) rsd (walk E types false h loc0 (seen ++ [item]) rest (CV s) cur)).
    { intros c Hc. eapply outcome_imp; [apply IH; [eapply id_leaf_tl; exact Hid|eapply no_empty_tl; exact Hne|assumption..]|apply odds_next|auto]. }
    destruct (isint item) eqn:Ei.
    { destruct seen; [|rewrite bind_ret_l; apply IH'; exact Hcur]. apply outcome_warn. apply IH'. exact Hcur. }
    cbn [andb negb orb].
    set (till := path_till (seen ++ [item])). set (next := match rest with [] => [] | n :: _ => n end).
    assert (Hnx : next = [] -> rest = []).
    { unfold next. destruct rest as [|n r]; [reflexivity|]. intros ->. exfalso. exact (Hne [] item [] r eq_refl eq_refl). }
    assert (Hidn : item = idn -> next = [] /\ In (types till) single_types).
    { intros ->. split.
      - unfold next. destruct rest as [|b r]; [reflexivity|]. destruct Hid as [Hx _]. exact (Hx eq_refl).
      - unfold till. rewrite (till_last _ _ Ei). apply single. }
    assert (Harr : forall idx, (item = idn -> False) ->
      outcome (odds_from seen (item :: rest)) rsd
        (match (match sget item cur with None => Some [] | Some (RLad l) => Some l | Some _ => None end) with
         | None => bind (warn1 (WColumnArray h till)) (fun _ => ret cur)
         | Some l => bind (walk E types false h loc0 (seen ++ [item]) rest (CV s) (match zget idx l with Some d => d | None => [] end))
                       (fun sub' => ret (sset item (RLad (zset idx sub' l)) cur))
         end)).
    { intros idx Hni.
      destruct (match sget item cur with None => Some [] | Some (RLad l) => Some l | Some _ => None end) as [l|] eqn:El.
      2:{ apply outcome_warn, outcome_ret. exact Hcur. }
      assert (Hl : forall i d, In (i, d) l -> rsd d).
      { destruct (sget item cur) as [[c|d|l']|] eqn:Eg; try discriminate El; injection El as <-; [|intros i d []].
        apply sget_In in Eg. destruct Hcur as [Hc _]. specialize (Hc _ _ Eg). apply rs_lad_iff. exact Hc. }
      eapply outcome_bind; [apply IH'|].
      - destruct (zget idx l) eqn:Ez; [apply zget_In in Ez as (j & Hj); eapply Hl; exact Hj|apply rsd_nil].
      - intros sub' Hsub'. apply outcome_ret. apply rsd_sset; [exact Hcur| |intros Q; destruct (Hni Q)].
        apply rs_lad_iff. intros i d Hin. apply aset_In in Hin as [Q|Hin]; [simpl in Q; subst; exact Hsub'|eapply Hl; exact Hin]. }
    destruct (parse_int next) as [idx|] eqn:En.
    { assert (Hne' : next <> []) by (intros Q; rewrite Q in En; discriminate).
      destruct (negb (is_empty (types till)) && negb (str_eqb (types till) (u "array"))) eqn:Et.
      - right. exists till, []. split; [reflexivity|]. apply andb_prop in Et as [E1 E2].
        assert (Hr : exists r, rest = next :: r) by (unfold next in *; destruct rest; [congruence|eauto]). destruct Hr as (r & Hr).
        exists [], item, next, r. rewrite Hr. split; [reflexivity|]. split; [exact Ei|]. split; [exact Hne'|]. split; [reflexivity|].
        split; [intros Q; rewrite Q in E1; discriminate E1|]. split; [intros Q; rewrite Q in E2; discriminate E2|].
        intros _. unfold isint. rewrite En. reflexivity.
      - apply Harr. intros Q. destruct (Hidn Q). contradiction. }
    destruct (str_eqb_spec (types till) (u "array")) as [Ta|Ta].
    { apply Harr. intros Q. destruct (Hidn Q) as [_ Hx]. rewrite Ta in Hx. clear -Hx. simpl in Hx. intuition discriminate. }
    destruct (str_eqb (types till) (u "object") || is_empty (types till) && negb (is_empty next)) eqn:Eo.
    { assert (Hni : item <> idn).
      { intros Q. destruct (Hidn Q) as [Hx Hy]. rewrite Hx in Eo. cbn [is_empty negb] in Eo. rewrite andb_false_r, orb_false_r in Eo.
        apply str_eqb_eq in Eo. rewrite Eo in Hy. clear -Hy. simpl in Hy. intuition discriminate. }
      destruct (match sget item cur with None => Some [] | Some (RDict d) => Some d | Some _ => None end) as [sub|] eqn:El.
      2:{ apply outcome_warn, outcome_ret. exact Hcur. }
      assert (Hsub : rsd sub).
      { destruct (sget item cur) as [[c|d|l']|] eqn:Eg; try discriminate El; injection El as <-; [|apply rsd_nil].
        apply sget_In in Eg. destruct Hcur as [Hc _]. apply rs_dict_iff. eapply Hc; exact Eg. }
      eapply outcome_bind; [apply IH'; exact Hsub|]. intros sub' Hs'. apply outcome_ret.
      apply rsd_sset; [exact Hcur|apply rs_dict_iff; exact Hs'|contradiction]. }
    apply orb_false_elim in Eo as [Eo1 Eo2].
    destruct (negb (is_empty (types till)) && negb (is_empty next)) eqn:Er.
    { right. exists till, []. split; [reflexivity|]. apply andb_prop in Er as [E1 E2].
      assert (Hne' : next <> []) by (intros Q; rewrite Q in E2; discriminate).
      assert (Hr : exists r, rest = next :: r) by (unfold next in *; destruct rest; [congruence|eauto]). destruct Hr as (r & Hr).
      exists [], item, next, r. rewrite Hr. split; [reflexivity|]. split; [exact Ei|]. split; [exact Hne'|]. split; [reflexivity|].
      split; [intros Q; rewrite Q in E1; discriminate E1|]. split; [exact Ta|]. intros Q. rewrite Q in Eo1. discriminate Eo1. }
    assert (Hn0 : next = []).
    { destruct (is_empty (types till)); cbn [negb andb] in *; [|destruct next; [reflexivity|discriminate Er]]. destruct next; [reflexivity|discriminate Eo2]. }
    specialize (Hnx Hn0). subst rest.
    assert (Hobj : types till <> u "object") by (intros Q; rewrite Q in Eo1; discriminate Eo1).
    assert (Hconv : outcome (odds_from seen [item]) rsd
       (bind (convert_type E (types till) (CV s)) (fun conv =>
          bind (if cv_blank conv then ret cur else ret (sset item (RCell (mk_cell conv loc0)) cur)) (fun cur' => walk E types false h loc0 (seen ++ [item]) [] conv cur')))).
    { destruct (convert_tame (types till) s (ex_intro _ till eq_refl) Hobj Hb Hs) as (x & w & Hx & Hh). rewrite Hx.
      eapply outcome_bind; [apply (outcome_ok _ (fun y => y = x)); reflexivity|]. intros y ->.
      eapply outcome_bind with (Q := rsd).
      - destruct (cv_blank x); apply outcome_ret; [exact Hcur|]. apply rsd_sset; [exact Hcur|constructor|].
        intros Q. destruct (Hidn Q) as [_ Hin]. exists (mk_cell x loc0). split; [reflexivity|]. exact (Hh Hin).
      - intros c Hc. cbn [walk]. apply outcome_ret. exact Hc. }
    destruct (sget item cur) as [[c|d|l]|]; try exact Hconv; apply outcome_warn; cbn [walk]; apply outcome_ret; exact Hcur.
  Qed.

  Definition good_cell (h : scalar) (c : cell) : Prop :=
    cv_blank (c_val c) = true \/
    exists s, c_val c = CV s /\ blank s = false /\ tame E types s /\ id_is_leaf idn (path_items E h) /\ no_empty_parts (path_items E h).
  Definition good_line (line : list (scalar * cell)) : Prop := forall h c, In (h, c) line -> good_cell h c.
  Definition line_odds (line : list (scalar * cell)) (till : str) : Prop :=
    exists h c, In (h, c) line /\ cv_blank (c_val c) = false /\ at_odds types (path_items E h) till.
  Lemma build_row_outcome line : forall cur, good_line line -> rsd cur -> outcome (line_odds line) rsd (build_row E types false line cur).
  Proof.
    induction line as [|[h c] line IH]; intros cur Hg Hcur; cbn [build_row]; [apply outcome_ret; exact Hcur|].
    assert (IH' : forall cur, rsd cur -> outcome (line_odds ((h, c) :: line)) rsd (build_row E types false line cur)).
    { intros c0 Hc0. eapply outcome_imp; [apply IH; [|exact Hc0]; intros h' c' Hin; apply Hg; right; exact Hin| |auto].
      intros t (h' & c' & Hin & Hx). exists h', c'. split; [right; exact Hin|exact Hx]. }
    destruct (cv_blank (c_val c)) eqn:Eb; [apply IH'; exact Hcur|].
    destruct (Hg h c (or_introl eq_refl)) as [Q|(s & Ev & Hb & Ht & Hl & Hn)]; [congruence|].
    eapply outcome_bind; [|exact IH']. rewrite Ev. eapply outcome_imp; [apply walk_outcome; assumption| |auto].
    intros t Hto. exists h, c. split; [left; reflexivity|]. split; [exact Eb|exact Hto].
  Qed.

  (** ** finishing *)
  Definition fin_total (n : rnode) : Prop := rsimple n ->
    exists n' w, fin false idn n = Ok n' w /\ (forall c, n = RCell c -> n' = TCell c).
  Lemma fin_dict_total d : Forall (fun kv => fin_total (snd kv)) d -> rsd d ->
    exists d' w, fin_dict (fin false idn) d = Ok d' w /\ id_cell idn d'.
  Proof.
    intros HF. induction HF as [|[k n] d Hn _ IH]; intros [H1 H2]; cbn [fin_dict].
    - exists [], []. split; [reflexivity|intros n []].
    - assert (Hd : rsd d) by (split; [intros; eapply H1; right; eassumption|intros; eapply H2; right; eassumption]).
      destruct (IH Hd) as (d' & w & E1 & Hid).
      assert (Hr : rsimple n) by (eapply H1; left; reflexivity).
      destruct (Hn Hr) as (n' & w' & E2 & Hc). simpl in E2.
      assert (G : exists d2 w2, bind (fin false idn n) (fun n' => bind (fin_dict (fin false idn) d) (fun r => ret ((k, n') :: r))) = Ok d2 w2 /\ id_cell idn d2).
      { rewrite E2. simpl. rewrite E1. simpl. eexists. eexists. split; [reflexivity|].
        intros m [Q|Hin]; [|apply Hid; exact Hin]. injection Q as -> ->. destruct (H2 n (or_introl eq_refl)) as (c & -> & Hh).
        exists c. split; [apply Hc; reflexivity|exact Hh]. }
      destruct n as [c|[|e0 e]|l]; try exact G. exists d', w. auto.
  Qed.
  Lemma fin_items_total l : Forall (fun kd : Z * rdict => Forall (fun kv => fin_total (snd kv)) (snd kd)) l ->
    (forall i d, In (i, d) l -> rsd d) ->
    exists l' w, fin_items (fin false idn) l = Ok l' w /\ forall i d, In (i, d) l' -> id_cell idn d.
  Proof.
    intros HF. induction HF as [|[i d] l Hd _ IH]; intros Hall; cbn [fin_items].
    - exists [], []. split; [reflexivity|intros ? ? []].
    - destruct IH as (l' & w & E1 & Hl); [intros; eapply Hall; right; eassumption|].
      destruct d as [|e0 e]; [exists l', w; auto|].
      destruct (fin_dict_total (e0 :: e) Hd (Hall _ _ (or_introl eq_refl))) as (d' & w' & E2 & Hid). rewrite E2. simpl. rewrite E1. simpl.
      eexists. eexists. split; [reflexivity|]. intros j d [Q|Hin]; [injection Q as _ <-; exact Hid|eapply Hl; exact Hin].
  Qed.
  Lemma fin_tot n : fin_total n.
  Proof.
    induction n as [c|d IH|l IH] using rnode_ind'; intros Hr; cbn [fin].
    - exists (TCell c), []. split; [reflexivity|]. intros c' [= ->]. reflexivity.
    - apply rs_dict_iff in Hr. destruct (fin_dict_total d IH Hr) as (d' & w & -> & _). simpl. eexists. eexists. split; [reflexivity|]. discriminate.
    - pose proof (proj1 (rs_lad_iff l) Hr) as Hl. destruct (fin_items_total l IH Hl) as (l' & w & -> & Hid). simpl.
      destruct (temp_of_list_ok idn (map snd (sort_z l')) ([], [])) as (t & w' & Et).
      { intros d Hin. apply in_map_iff in Hin as ([i d0] & <- & Hin). eapply Hid. eapply Permutation.Permutation_in; [apply sort_z_perm|exact Hin]. }
      rewrite Et. simpl. eexists. eexists. split; [reflexivity|]. discriminate.
  Qed.
  Lemma unflatten_row_outcome line : good_line line -> outcome (line_odds line) (id_cell idn) (unflatten_row E types false idn line).
  Proof.
    intros Hg. unfold unflatten_row. eapply outcome_bind; [apply build_row_outcome; [exact Hg|apply rsd_nil]|].
    intros r Hr. destruct (fin_dict_total r) as (d & w' & -> & Hd); [apply Forall_forall; intros; apply fin_tot|exact Hr|]. apply outcome_ok. exact Hd.
  Qed.
End Row.

(** ** a heading at odds is never accepted in silence *)
Definition complaint (h : scalar) (w : list warning) : Prop := exists t, In (WColumnArray h t) w \/ In (WColumnObject h t) w.
Lemma complaint_app_l h w w' : complaint h w -> complaint h (w ++ w').
Proof. intros (t & [H|H]); exists t; [left|right]; apply in_or_app; left; exact H. Qed.
Lemma complaint_app_r h w w' : complaint h w' -> complaint h (w ++ w').
Proof. intros (t & [H|H]); exists t; [left|right]; apply in_or_app; right; exact H. Qed.
Lemma complaint_cons h x w : complaint h w -> complaint h (x :: w).
Proof. exact (complaint_app_r h [x] w). Qed.

Lemma bind_inv {A B} (m : R A) (f : A -> R B) b w : bind m f = Ok b w -> exists a w1 w2, m = Ok a w1 /\ f a = Ok b w2 /\ w = w1 ++ w2.
Proof.
  destruct m as [a w1|]; [|discriminate]. simpl. destruct (f a) as [b' w2|] eqn:Ef; [|discriminate].
  intros [= <- <-]. exists a, w1, w2. rewrite Ef. auto.
Qed.

Section Heard.
  Variable E : conv_env.
  Variable types : str -> str.
  Lemma walk_heard h loc0 rest : forall seen v cur cur' w till, odds_from types seen rest till ->
    walk E types false h loc0 seen rest v cur = Ok cur' w -> complaint h w.
  Proof.
    induction rest as [|item rest IH]; intros seen v cur cur' w till Ho Hw; [destruct Ho as ([|? ?] & ? & ? & ? & Q & _); discriminate Q|].
    cbn [walk] in Hw.
    (* the place is here or further on *)
    assert (Hc : odds_from types (seen ++ [item]) rest till \/
      (exists next r, rest = next :: r /\ isint item = false /\ next <> [] /\ till = path_till (seen ++ [item]) /\
        types till <> [] /\ types till <> u "array" /\ (types till = u "object" -> isint next = true))).
    { destruct Ho as ([|b before] & i & n & l & Q & H1 & H2 & H3 & H4 & H5 & H6); injection Q as -> ->.
      - right. exists n, l. repeat split; assumption.
      - left. exists before, i, n, l. repeat split; try assumption. rewrite H3, <- !app_assoc. reflexivity. }
    clear Ho.
    destruct (isint item) eqn:Ei.
    { destruct Hc as [Hc|(n & r & _ & Q & _)]; [|discriminate Q].
      apply bind_inv in Hw as (a & w1 & w2 & _ & Hw & ->). apply complaint_app_r. eapply IH; eassumption. }
    cbn [andb negb orb] in Hw.
    set (tl := path_till (seen ++ [item])) in *. set (next := match rest with [] => [] | n :: _ => n end) in *.
    assert (Harr : forall idx, (match (match sget item cur with None => Some [] | Some (RLad l) => Some l | Some _ => None end) with
         | None => bind (warn1 (WColumnArray h tl)) (fun _ => ret cur)
         | Some l => bind (walk E types false h loc0 (seen ++ [item]) rest v (match zget idx l with Some d => d | None => [] end))
                       (fun sub' => ret (sset item (RLad (zset idx sub' l)) cur))
         end) = Ok cur' w -> odds_from types (seen ++ [item]) rest till -> complaint h w).
    { intros idx Hx Hc'. destruct (match sget item cur with None => Some [] | Some (RLad l) => Some l | Some _ => None end) as [l|].
      - apply bind_inv in Hx as (a & w1 & w2 & Hx & _ & ->). apply complaint_app_l. eapply IH; eassumption.
      - injection Hx as _ <-. exists tl. left. left. reflexivity. }
    destruct (parse_int next) as [idx|] eqn:En.
    { destruct (negb (is_empty (types tl)) && negb (str_eqb (types tl) (u "array"))) eqn:Et; [discriminate Hw|].
      apply (Harr idx Hw). destruct Hc as [Hc|(n & r & _ & _ & _ & -> & H1 & H2 & _)]; [exact Hc|]. exfalso.
      destruct (types tl) as [|x y] eqn:Etl; [congruence|]. cbn [is_empty negb andb] in Et.
      destruct (str_eqb_spec (x :: y) (u "array")); [congruence|discriminate Et]. }
    destruct (str_eqb_spec (types tl) (u "array")) as [Ta|Ta].
    { apply (Harr (-1)%Z Hw). destruct Hc as [Hc|(n & r & _ & _ & _ & -> & _ & H2 & _)]; [exact Hc|contradiction]. }
    destruct (str_eqb (types tl) (u "object") || is_empty (types tl) && negb (is_empty next)) eqn:Eo.
    { assert (Hc' : odds_from types (seen ++ [item]) rest till).
      { destruct Hc as [Hc|(n & r & Hr & _ & Hn & -> & H1 & H2 & H3)]; [exact Hc|]. exfalso.
        destruct (str_eqb_spec (types tl) (u "object")) as [To|To].
        - specialize (H3 To). unfold next in En. rewrite Hr in En. unfold isint in H3. rewrite En in H3. discriminate H3.
        - destruct (types tl); [congruence|discriminate Eo]. }
      destruct (match sget item cur with None => Some [] | Some (RDict d) => Some d | Some _ => None end) as [sub|].
      - apply bind_inv in Hw as (a & w1 & w2 & Hx & _ & ->). apply complaint_app_l. eapply IH; eassumption.
      - injection Hw as _ <-. exists tl. right. left. reflexivity. }
    destruct (negb (is_empty (types tl)) && negb (is_empty next)) eqn:Er; [discriminate Hw|].
    assert (Hc' : odds_from types (seen ++ [item]) rest till).
    { destruct Hc as [Hc|(n & r & Hr & _ & Hn & -> & H1 & H2 & H3)]; [exact Hc|]. exfalso. unfold next in Er. rewrite Hr in Er.
      destruct (types tl); [congruence|]. destruct n; [congruence|discriminate Er]. }
    assert (Hconv : bind (convert_type E (types tl) v) (fun conv =>
          bind (if cv_blank conv then ret cur else ret (sset item (RCell (mk_cell conv loc0)) cur)) (fun cur' => walk E types false h loc0 (seen ++ [item]) rest conv cur')) = Ok cur' w -> complaint h w).
    { intros Hx. apply bind_inv in Hx as (a & w1 & w2 & _ & Hx & ->). apply bind_inv in Hx as (a' & w3 & w4 & _ & Hx & ->).
      apply complaint_app_r, complaint_app_r. eapply IH; eassumption. }
    destruct (sget item cur) as [[c|d|l]|]; try exact (Hconv Hw);
      (apply bind_inv in Hw as (a & w1 & w2 & _ & Hw & ->); apply complaint_app_r; eapply IH; eassumption).
  Qed.
  Lemma build_row_heard h c till line : In (h, c) line -> cv_blank (c_val c) = false -> at_odds types (path_items E h) till ->
    forall cur cur' w, build_row E types false line cur = Ok cur' w -> complaint h w.
  Proof.
    intros Hin Hb Ho. induction line as [|[h' c'] line IH]; intros cur cur' w Hr; [destruct Hin|]. cbn [build_row] in Hr.
    destruct Hin as [Q|Hin].
    - injection Q as -> ->. rewrite Hb in Hr. apply bind_inv in Hr as (a & w1 & w2 & Hr & _ & ->). apply complaint_app_l. eapply walk_heard; [apply odds_all; exact Ho|exact Hr].
    - destruct (cv_blank (c_val c')); [eapply IH; eassumption|]. apply bind_inv in Hr as (a & w1 & w2 & _ & Hr & ->). apply complaint_app_r. eapply IH; eassumption.
  Qed.
End Heard.

Section Run.
  Variable O : opts.
  Hypothesis known : known_types (o_types O).
  Hypothesis single : ids_single (o_types O) (o_id_name O).
  Hypothesis noxml : o_xml O = false.

  Definition cell_odds (lines : list (list (scalar * scalar))) (till : str) : Prop :=
    exists line h v, In line lines /\ In (h, v) line /\ blank v = false /\ at_odds (o_types O) (path_items (o_conv O) h) till.

  Lemma do_line_outcome sheet hs j line st : (forall l, hs = Some l -> length line <= length l) ->
    (forall h v, In (h, v) line -> blank v = false ->
      tame (o_conv O) (o_types O) v /\ id_is_leaf (o_id_name O) (path_items (o_conv O) h) /\ no_empty_parts (path_items (o_conv O) h)) ->
    outcome (cell_odds [line]) (fun _ => True) (do_line O sheet hs j line st).
  Proof.
    intros Hl Hg. unfold do_line. destruct (forallb _ _); [apply outcome_ret; exact I|].
    destruct (line_cells_ok O sheet hs j line 0%N) as (cells & w & Ec & Hc); [intros l El; specialize (Hl l El); simpl; lia|]. rewrite Ec.
    eapply outcome_bind; [apply (outcome_ok _ (fun y => y = cells)); reflexivity|]. intros y ->.
    rewrite noxml. eapply outcome_bind with (Q := id_cell (o_id_name O)).
    - eapply outcome_imp; [apply unflatten_row_outcome; [exact known|exact single|]| |auto].
      + intros h c Hin. destruct (Hc h c Hin) as (v & Hv & Ev). unfold good_cell. rewrite Ev. cbn [cv_blank].
        destruct (blank v) eqn:Eb; [left; reflexivity|right]. destruct (Hg h v Hv Eb) as (G1 & G2 & G3). exists v. auto.
      + intros t (h & c & Hin & Hb & Ho). destruct (Hc h c Hin) as (v & Hv & Ev). rewrite Ev in Hb.
        exists line, h, v. split; [left; reflexivity|]. split; [exact Hv|]. split; [exact Hb|exact Ho].
    - intros d Hd. destruct (place_ok O noxml sheet (line_root O line) d st Hd) as (a & w' & Ep). rewrite Ep. apply outcome_ok. exact I.
  Qed.
  Lemma do_lines_outcome sheet hs lines : forall j st,
    (forall line, In line lines -> (forall l, hs = Some l -> length line <= length l) /\
      forall h v, In (h, v) line -> blank v = false ->
        tame (o_conv O) (o_types O) v /\ id_is_leaf (o_id_name O) (path_items (o_conv O) h) /\ no_empty_parts (path_items (o_conv O) h)) ->
    outcome (cell_odds lines) (fun _ => True) (do_lines O sheet hs j lines st).
  Proof.
    induction lines as [|line lines IH]; intros j st H; cbn [do_lines]; [apply outcome_ret; exact I|].
    destruct (H line (or_introl eq_refl)) as [H1 H2]. eapply outcome_bind with (Q := fun _ => True).
    - eapply outcome_imp; [apply do_line_outcome; assumption| |auto].
      intros t (l & h & v & [<-|[]] & Hx). exists line, h, v. split; [left; reflexivity|exact Hx].
    - intros a _. eapply outcome_imp; [apply IH; intros; apply H; right; assumption| |auto].
      intros t (l & h & v & Hin & Hx). exists l, h, v. split; [right; exact Hin|exact Hx].
  Qed.
  Theorem unflatten_outcome sheets : (forall s, In s sheets -> acceptable O s) ->
    (exists r w, unflatten O sheets = Ok r w) \/
    (exists till w h v, unflatten O sheets = Raise (EFlattenToolValueError till) w /\ has_cell sheets h v /\ at_odds (o_types O) (path_items (o_conv O) h) till).
  Proof.
    intros H. cut (outcome (fun till => exists h v, has_cell sheets h v /\ at_odds (o_types O) (path_items (o_conv O) h) till) (fun _ => True) (unflatten O sheets)).
    { intros [(a & w & Q & _)|(t & w & Q & h & v & H1 & H2)]; [left; eauto|right; exists t, w, h, v; auto]. }
    unfold unflatten. eapply outcome_bind with (Q := fun _ => True); [|intros; apply outcome_ret; exact I].
    unfold do_unflatten. eapply outcome_bind with (Q := fun _ => True); [|intros; apply outcome_ret; exact I].
    generalize (@nil (scalar * ttemp)). revert H. induction sheets as [|s sheets' IH]; intros H st; cbn [do_sheets]; [apply outcome_ret; exact I|].
    eapply outcome_bind with (Q := fun _ => True).
    - pose proof (H s (or_introl eq_refl)) as Hs. unfold acceptable in Hs. unfold do_sheet.
      assert (Hl : si_headings s <> Some [] -> outcome (fun till => exists h v, has_cell (s :: sheets') h v /\ at_odds (o_types O) (path_items (o_conv O) h) till) (fun _ => True)
        (do_lines O (si_name s) (si_headings s) 0%N (si_lines s) st)).
      { intros Hh. eapply outcome_imp; [apply do_lines_outcome; exact Hs| |auto].
        intros t (l & h & v & Hin & Hv & Hb & Ho). exists h, v. split; [|exact Ho]. exists s, l. repeat split; auto. left. reflexivity. }
      destruct (si_headings s) as [[|h hs]|] eqn:Eh; [apply outcome_ret; exact I| |apply Hl; discriminate].
      eapply outcome_bind with (Q := fun _ => True); [apply outcome_ok; exact I|]. intros [] _. apply Hl. discriminate.
    - intros a _. eapply outcome_imp; [apply IH; intros; apply H; right; assumption| |auto].
      intros t (h & v & (s' & l & Hin & Hx) & Ho). exists h, v. split; [|exact Ho]. exists s', l. split; [right; exact Hin|exact Hx].
  Qed.
End Run.

Section Told.
  Variable O : opts.
  Hypothesis noxml : o_xml O = false.
  Lemma line_cells_in sheet hs j line : forall k cells w, line_cells O sheet hs j k line = Ok cells w ->
    forall h v, In (h, v) line -> exists c, In (h, c) cells /\ c_val c = CV v.
  Proof.
    induction line as [|[h v] line IH]; intros k cells w Hl h' v' Hin; [destruct Hin|]. cbn [line_cells] in Hl.
    apply bind_inv in Hl as (x & w1 & w2 & _ & Hl & _). apply bind_inv in Hl as (r & w3 & w4 & Hr & Hl & _). injection Hl as <- _.
    destruct Hin as [Q|Hin].
    - injection Q as -> ->. eexists. split; [left; reflexivity|reflexivity].
    - destruct (IH _ _ _ Hr h' v' Hin) as (c & H1 & H2). exists c. split; [right; exact H1|exact H2].
  Qed.
  Lemma do_line_heard sheet hs j line st st' w h v till : In (h, v) line -> blank v = false -> at_odds (o_types O) (path_items (o_conv O) h) till ->
    do_line O sheet hs j line st = Ok st' w -> complaint h w.
  Proof.
    intros Hin Hb Ho Hl. unfold do_line in Hl. destruct (forallb (fun kv : scalar * scalar => blank (snd kv)) line) eqn:Ef.
    { exfalso. rewrite forallb_forall in Ef. specialize (Ef _ Hin). simpl in Ef. congruence. }
    apply bind_inv in Hl as (cells & w1 & w2 & Hc & Hl & ->). apply bind_inv in Hl as (d & w3 & w4 & Hd & _ & ->).
    apply complaint_app_r, complaint_app_l. unfold unflatten_row in Hd. apply bind_inv in Hd as (r & w5 & w6 & Hr & _ & ->). apply complaint_app_l.
    destruct (line_cells_in _ _ _ _ _ _ _ Hc h v Hin) as (c & H1 & H2). rewrite noxml in Hr.
    eapply build_row_heard; [exact H1| |exact Ho|exact Hr]. rewrite H2. exact Hb.
  Qed.
  Theorem unflatten_heard sheets r w h v till : unflatten O sheets = Ok r w -> has_cell sheets h v ->
    at_odds (o_types O) (path_items (o_conv O) h) till -> complaint h w.
  Proof.
    intros Hu (s & line & Hs & Hh & Hline & Hin & Hb) Ho. unfold unflatten in Hu.
    apply bind_inv in Hu as (a & w1 & w2 & Hu & _ & ->). apply complaint_app_l. unfold do_unflatten in Hu.
    apply bind_inv in Hu as (b & w3 & w4 & Hu & _ & ->). apply complaint_app_l. revert Hu. generalize (@nil (scalar * ttemp)). revert w3.
    induction sheets as [|s' sheets' IH]; intros w3 st Hu; [destruct Hs|]. cbn [do_sheets] in Hu.
    apply bind_inv in Hu as (st' & w5 & w6 & H1 & H2 & ->). destruct Hs as [->|Hs].
    - apply complaint_app_l. unfold do_sheet in H1.
      assert (Hl : forall hs lines j st st' w, In line lines -> do_lines O (si_name s) hs j lines st = Ok st' w -> complaint h w).
      { clear -Hin Hb Ho noxml. intros hs lines. induction lines as [|l lines IH]; intros j st st' w Hx Hd; [destruct Hx|]. cbn [do_lines] in Hd.
        apply bind_inv in Hd as (a & w1 & w2 & H1 & H2 & ->). destruct Hx as [->|Hx].
        - apply complaint_app_l. eapply do_line_heard; eassumption.
        - apply complaint_app_r. eapply IH; eassumption. }
      destruct (si_headings s) as [[|x y]|]; [congruence| |eapply Hl; eassumption].
      apply bind_inv in H1 as (a0 & w7 & w8 & _ & H1 & ->). apply complaint_app_r. eapply Hl; eassumption.
    - apply complaint_app_r. eapply IH; eassumption.
  Qed.
End Told.
