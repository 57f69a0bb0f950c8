(** The whole run at the level of cells: nothing is lost silently, nothing is
    invented. *)
From Coq Require Import Permutation.
From Verif.Base Require Import PyStr PyNum PyVal PyDict Outcome.
From Verif.Model Require Import Warn Lib Convert Input.
From Verif.Spec Require Import Ids Cells Rows.
From Verif.Proofs Require Import TreeInd EmbedFacts RowWf Distinct IdInv MergeCells Grouping IdRun.

Definition dbg_for (O : opts) sheet root k :=
  {| dbg_sheet := sheet; dbg_root_id := o_root_id O; dbg_root := root; dbg_id_name := o_id_name O; dbg_id := CV k |}.

Lemma kset_st_items_new root t st : kget root st = None -> st_items (kset root t st) = st_items st ++ temp_items t.
Proof.
  intros H. rewrite kset_new by exact H. rewrite st_items_app. unfold st_items at 2. simpl. rewrite app_nil_r. reflexivity.
Qed.
Lemma kset_st_items_old root t t0 st : kget root st = Some t0 ->
  exists A B, st_items st = A ++ temp_items t0 ++ B /\ st_items (kset root t st) = A ++ temp_items t ++ B.
Proof.
  intros H. destruct (kset_old root t st t0 H) as (a & k' & b & -> & Hs & _ & _). rewrite Hs.
  exists (st_items a), (st_items b). rewrite !st_items_app. simpl. split; reflexivity.
Qed.

(** What [place] does to the list of objects: one object is replaced by its
    merge with the row, or the row becomes a new object. *)
Lemma place_shape O sheet root d st st' w : place O sheet root d st = Ok st' w ->
  (exists A old new B k, st_items st = A ++ old :: B /\ st_items st' = A ++ new :: B /\
     merge (dbg_for O sheet root k) old d = Ok new w /\ id_of (o_xml O) (o_id_name O) d = Some k /\
     exists r t k', In (r, t) st /\ In (k', old) (fst t) /\ py_eqb k k' = true) \/
  (exists A B, st_items st = A ++ B /\ st_items st' = A ++ d :: B /\ w = []).
Proof.
  unfold place. intros H. apply bind_ok in H as (k & w1 & w2 & H1 & H2 & ->).
  assert (Hw1 : w1 = []).
  { clear H2. unfold main_id in H1. destruct (sget (o_id_name O) d) as [[c|e|data nk]|].
    - destruct (c_val c) as [s| | |]; try discriminate. destruct (hashable (CV s)); [|discriminate]. injection H1 as _ <-. reflexivity.
    - destruct (o_xml O); [|discriminate]. destruct (sget text_key e) as [[c|?|? ?]|]; try discriminate.
      destruct (c_val c) as [s| | |]; try discriminate. destruct (hashable (CV s)); [|discriminate]. injection H1 as _ <-. reflexivity.
    - destruct (o_xml O); discriminate.
    - injection H1 as _ <-. reflexivity. }
  subst w1. simpl app.
  set (t := match kget root st with Some t => t | None => ([], []) end) in *.
  assert (Hlift : forall C old C' new, temp_items t = C ++ old ++ C' -> 
            forall t', temp_items t' = C ++ new ++ C' ->
            exists A B, st_items st = A ++ old ++ B /\ st_items (kset root t' st) = A ++ new ++ B).
  { intros C old C' new Ht t' Ht'. destruct (kget root st) as [t0|] eqn:E.
    - subst t. destruct (kset_st_items_old root t' t0 st E) as (A & B & -> & ->).
      rewrite Ht, Ht'. exists (A ++ C), (C' ++ B). rewrite <- !app_assoc. auto.
    - assert (old = [] /\ C = [] /\ C' = []) as (-> & -> & ->).
      { subst t. unfold temp_items in Ht. simpl in Ht. destruct C; [|discriminate]. destruct old; [|discriminate]. destruct C'; [auto|discriminate]. }
      rewrite (kset_st_items_new root t' st E). exists (st_items st), []. rewrite Ht'. simpl. rewrite !app_nil_r. auto. }
  destruct (match k with Some k0 => _ | None => _ end) as [[k0 old]|] eqn:E.
  - destruct k as [k1|]; [|discriminate]. destruct (kget k1 (fst t)) as [old'|] eqn:G; [|discriminate].
    injection E as -> ->. apply bind_ok in H2 as (new & w3 & w4 & H3 & H4 & ->). injection H4 as <- <-. rewrite app_nil_r.
    left. assert (Hin : exists r, In (r, t) st).
    { subst t. destruct (kget root st) as [t0|] eqn:Er; [|discriminate]. destruct (kget_In _ _ _ Er) as (r & Hr & _). eauto. }
    destruct Hin as [r Hr]. destruct (kset_old k0 new (fst t) old G) as (a & k' & b & Ha & Hs & Hkk & _).
    destruct (Hlift (map snd a) [old] (map snd b ++ snd t) [new]) with (t' := (kset k0 new (fst t), snd t)) as (A & B & E1 & E2).
    + unfold temp_items. rewrite Ha, map_app. simpl. rewrite <- app_assoc. reflexivity.
    + unfold temp_items. simpl. rewrite Hs, map_app. simpl. rewrite <- app_assoc. reflexivity.
    + exists A, old, new, B, k0. split; [exact E1|]. split; [exact E2|]. split; [exact H3|]. split; [symmetry; eapply main_id_row; exact H1|].
      exists r, t, k'. split; [exact Hr|]. split; [rewrite Ha; apply in_or_app; right; left; reflexivity|exact Hkk].
  - apply bind_ok in H2 as (t' & w3 & w4 & H3 & H4 & ->). injection H4 as <- <-. rewrite app_nil_r. right.
    destruct (main_id_item_key _ _ _ _ H1) as (w'' & Hk).
    destruct t as [data nk] eqn:Et. unfold temp_append in H3. rewrite Hk in H3.
    assert (Hw : w'' = []).
    { assert (w3 = w'' ++ []).
      { simpl in H3. destruct k as [k1|]; [|injection H3 as _ <-; reflexivity].
        destruct (kget k1 data); injection H3 as _ <-; reflexivity. }
      unfold item_key in Hk. destruct (sget (o_id_name O) d) as [[c|e|? ?]|].
      - destruct (c_val c) as [s| | |]; try discriminate. destruct (hashable (CV s)); [|discriminate]. injection Hk as _ <-. reflexivity.
      - destruct (o_xml O); [|discriminate]. destruct (sget text_key e) as [[c|?|? ?]|]; try discriminate.
        destruct (c_val c) as [s| | |]; try discriminate. destruct (hashable (CV s)); [|discriminate]. injection Hk as _ <-. reflexivity.
      - destruct (o_xml O); discriminate.
      - injection Hk as _ <-. reflexivity. }
    subst w''. simpl in H3. destruct k as [k1|].
    + simpl in E. destruct (kget k1 data) as [x|] eqn:G; [discriminate|]. injection H3 as <- <-.
      destruct (Hlift (map snd data) [] nk [d]) with (t' := (kset k1 d data, nk)) as (A & B & E1 & E2); [reflexivity| |exists A, B; auto].
      unfold temp_items. simpl. rewrite kset_new by exact G. rewrite map_app. simpl. rewrite <- app_assoc. reflexivity.
    + injection H3 as <- <-.
      destruct (Hlift (map snd data ++ nk) [] [] [d]) with (t' := (data, nk ++ [d])) as (A & B & E1 & E2).
      * unfold temp_items. simpl. rewrite app_nil_r. reflexivity.
      * unfold temp_items. simpl. rewrite app_assoc. reflexivity.
      * exists A, B. auto.
Qed.


Section Run.
  Variable O : opts.
  Notation xml := (o_xml O).
  Notation idn := (o_id_name O).
  Notation tdcells := (Cells.tdcells xml idn).
  Notation icells := (Cells.icells xml idn).
  Notation ilab := (Cells.ilab xml idn).
  Definition st_cells (st : main_state) := flat_map icells (st_items st).

  Record run_inv (st : main_state) (frs : list tdict) (w : list warning) : Prop := {
    ri_wf : forall d, In d (st_items st) -> tdwf d;
    ri_ok : stok O st;
    ri_cov : covered (flat_map icells frs) (st_cells st) w;
    ri_from : from (st_cells st) [] (flat_map icells frs) }.

  Lemma nosub_icells d : nosub (tdcells d) -> nosub (icells d).
  Proof. intros H p c Hc. apply in_below in Hc as (q & _ & Hq). eauto. Qed.

  Lemma place_inv sheet root d st st' w frs w0 :
    tdwf d -> iokd xml idn d -> nosub (tdcells d) -> nosub (flat_map icells frs) ->
    run_inv st frs w0 -> place O sheet root d st = Ok st' w -> run_inv st' (frs ++ [d]) (w0 ++ w).
  Proof.
    intros Hd Hdi Hns Hnf [Hwf Hok Hcov Hfrom] H.
    assert (Hok' : stok O st') by (eapply place_stok; [exact Hok|apply Hd|exact Hdi|exact H]).
    assert (Hns' : nosub (icells d)) by (apply nosub_icells; exact Hns).
    assert (Hdcells : flat_map icells (frs ++ [d]) = flat_map icells frs ++ icells d) by (rewrite flat_map_app; simpl; rewrite app_nil_r; reflexivity).
    assert (G : (forall x, In x (st_items st') -> tdwf x) /\ good (st_cells st) (st_cells st') (icells d) w).
    { destruct (place_shape _ _ _ _ _ _ _ H) as [(A & old & new & B & k & E1 & E2 & Hm & Hk & r & t & k' & Hin & Hko & Hkk)|(A & B & E1 & E2 & Hw)].
      - assert (Hold : tdwf old) by (apply Hwf; rewrite E1; apply in_or_app; right; left; reflexivity).
        destruct Hok as [_ Hok]. pose proof (Hok r t Hin) as Ht. destruct (it_key _ _ _ Ht k' old Hko) as (io & Hio & Hs).
        assert (Holdi : iokd xml idn old) by (apply (it_sub _ _ _ Ht); unfold temp_items; apply in_or_app; left; apply in_map_iff; exists (k', old); auto).
        destruct (merge_good xml idn _ _ _ _ _ Hold Holdi Hd Hdi Hns Hm) as [Hnew G].
        assert (Hl1 : ilab old = ilab new) by (unfold Cells.ilab; rewrite Hio, (merge_list_id _ _ _ _ _ _ _ _ Hm Hio); reflexivity).
        assert (Hl2 : ilab d = ilab old).
        { unfold Cells.ilab. rewrite Hio, Hk. simpl. do 2 f_equal. apply kid_of_sameK in Hs. apply kid_of_eqb in Hkk. congruence. }
        split.
        + intros x Hx. rewrite E2 in Hx. apply in_app_or in Hx as [Hx|[<-|Hx]]; [|exact Hnew|]; apply Hwf; rewrite E1; apply in_or_app; [left|right; right]; exact Hx.
        + unfold st_cells. rewrite E1, E2. unfold Cells.icells at 3. rewrite Hl2. apply good_items_replace; [exact Hl1| |exact G].
          intros p c Hc. eapply tdcells_nonempty. exact Hc.
      - subst w. split.
        + intros x Hx. rewrite E2 in Hx. apply in_app_or in Hx as [Hx|[<-|Hx]]; [|exact Hd|]; apply Hwf; rewrite E1; apply in_or_app; [left|right]; exact Hx.
        + unfold st_cells. rewrite E1, E2. eapply good_equiv; [| | |apply (good_app (flat_map icells (A ++ B)) (icells d))]; intros x; [reflexivity| |reflexivity].
          rewrite !flat_map_app. simpl. rewrite !in_app_iff. tauto. }
    destruct G as [Hwf' [K C F]]. constructor; [exact Hwf'|exact Hok'| |].
    - rewrite Hdcells. apply covered_app; [eapply covered_keeps; eassumption|].
      eapply covered_weak; [exact C|]. intros x Hx. apply in_or_app. right. exact Hx.
    - rewrite Hdcells. apply from_trans with (b := st_cells st); [exact Hnf|exact Hns'|exact Hfrom|exact F].
  Qed.

  Definition frag_ok (d : tdict) : Prop := tdwf d /\ iokd xml idn d /\ nosub (tdcells d).
  Lemma line_cells_nosub sheet hs j line : forall k cells w, line_cells O sheet hs j k line = Ok cells w ->
    forall h c, In (h, c) cells -> c_sub c = [].
  Proof.
    induction line as [|[h v] line IH]; intros k cells w; cbn [line_cells].
    - intros [= <- _] ? ? [].
    - intros H. apply bind_ok in H as (x & w1 & w2 & _ & H & _). apply bind_ok in H as (r & w3 & w4 & H1 & H2 & _).
      injection H2 as <- _. intros h' c [E|Hin]; [injection E as _ <-; reflexivity|eapply IH; eassumption].
  Qed.
  Lemma row_frag_ok cells d w : (forall h c, In (h, c) cells -> c_sub c = []) ->
    unflatten_row (o_conv O) (o_types O) (o_xml O) (o_id_name O) cells = Ok d w -> frag_ok d.
  Proof.
    intros Hc H. pose proof (unflatten_row_talld (o_conv O) (o_types O) (o_xml O) (o_id_name O) (fun c => c_sub c = []) cells d w) as T.
    assert (Ht : talld (fun c => c_sub c = []) d) by (apply T; [reflexivity|exact H]).
    split; [eapply talld_tdwf; exact Ht|]. split; [eapply row_iok; exact H|]. exact (talld_cells _ _ _ _ Ht).
  Qed.
  Lemma rows_frag_ok sheets x : In x (rows_of O sheets) -> frag_ok (r_obj x).
  Proof.
    unfold rows_of. intros H. apply in_flat_map in H as (s & _ & H).
    assert (Hl : forall sheet hs lines j, In x (lines_rows O sheet hs j lines) -> frag_ok (r_obj x)).
    { intros sheet hs lines. induction lines as [|l lines IH]; intros j; cbn [lines_rows]; [intros []|].
      intros Hin. apply in_app_or in Hin as [Hin|Hin]; [|eauto]. unfold line_row in Hin. destruct (forallb _ _); [destruct Hin|].
      destruct (line_cells O sheet hs j 0 l) as [cells w1|e w1] eqn:E1; [|destruct Hin]. simpl in Hin.
      destruct (unflatten_row _ _ _ _ cells) as [d w2|e w2] eqn:E; [|destruct Hin]. destruct Hin as [<-|[]]. simpl.
      eapply row_frag_ok; [eapply line_cells_nosub; exact E1|exact E]. }
    unfold sheet_rows in H. destruct (si_headings s) as [[|h hs]|]; [destruct H| |]; eapply Hl; exact H.
  Qed.

  Definition frs_ok (frs : list tdict) := forall d, In d frs -> frag_ok d.
  Lemma frs_ok_nosub frs : frs_ok frs -> nosub (flat_map icells frs).
  Proof. intros H p c Hc. apply in_items in Hc as (d & q & Hd & _ & Hc). destruct (H d Hd) as (_ & _ & G). eapply G. exact Hc. Qed.

  Lemma place_all_inv rs : forall st st' w frs w0,
    frs_ok frs -> (forall x, In x rs -> frag_ok (r_obj x)) -> run_inv st frs w0 -> place_all O rs st = Ok st' w ->
    run_inv st' (frs ++ map r_obj rs) (w0 ++ w).
  Proof.
    induction rs as [|x rs IH]; intros st st' w frs w0 Hf Hr Hi; simpl.
    - intros [= <- <-]. rewrite !app_nil_r. exact Hi.
    - intros H. apply bind_ok in H as (s & w1 & w2 & H1 & H2 & ->).
      destruct (Hr x (or_introl eq_refl)) as (X1 & X2 & X3).
      pose proof (place_inv _ _ _ _ _ _ _ _ X1 X2 X3 (frs_ok_nosub _ Hf) Hi H1) as Hi1.
      assert (Hf1 : frs_ok (frs ++ [r_obj x])).
      { intros d Hd. apply in_app_or in Hd as [Hd|[<-|[]]]; [apply Hf; exact Hd|apply Hr; left; reflexivity]. }
      specialize (IH _ _ _ _ _ Hf1 (fun y Hy => Hr y (or_intror Hy)) Hi1 H2).
      rewrite <- !app_assoc in IH. exact IH.
  Qed.
  Lemma run_inv_run sheets st w : do_sheets O sheets [] = Ok st w ->
    frs_ok (fragments O sheets) /\ run_inv st (fragments O sheets) w.
  Proof.
    intros H. apply do_sheets_place in H as (w' & H & Hw).
    assert (Hf : forall x, In x (rows_of O sheets) -> frag_ok (r_obj x)) by (intros x; apply rows_frag_ok).
    split.
    - intros d Hd. unfold fragments in Hd. apply in_map_iff in Hd as (x & <- & Hx). apply Hf. exact Hx.
    - apply (place_all_inv (rows_of O sheets) [] st w' [] []) in H.
      + destruct H as [A B C D]. constructor; auto. eapply covered_weak; [exact C|exact Hw].
      + intros d [].
      + exact Hf.
      + constructor; [intros d []|split; [constructor|intros r t []]|intros p c []|intros p c []].
  Qed.

  (** the final cell tree has the same cells *)
  Lemma jid_dict_to_j d : jid xml idn (dict_to_j d) = id_of xml idn d.
  Proof.
    unfold jid, id_of, dict_to_j. rewrite sget_map. destruct (sget idn d) as [[c|e|data nk]|]; cbn [option_map to_j]; try reflexivity.
    destruct xml; [|reflexivity]. rewrite sget_map. destruct (sget text_key e) as [[c|?|? ?]|]; reflexivity.
  Qed.
  Lemma jcells_to_j n : jcells xml idn (to_j n) = Cells.tcells xml idn n.
  Proof.
    assert (Hd : forall d, Pd (fun n => jcells xml idn (to_j n) = Cells.tcells xml idn n) d ->
              flat_map (fun kn => below (Key (fst kn)) (jcells xml idn (snd kn))) (dict_to_j d) = tdcells d).
    { intros d H. unfold dict_to_j, Cells.tdcells. induction H as [|[k n'] d Hn _ IH]; [reflexivity|]. simpl in *. rewrite Hn, IH. reflexivity. }
    induction n as [c|d IH|data nk IHd IHn] using tnode_ind'.
    - reflexivity.
    - cbn [to_j jcells Cells.tcells]. apply Hd. exact IH.
    - cbn [to_j jcells Cells.tcells]. rewrite flat_map_app. f_equal.
      + induction IHd as [|[k d] l Hk _ IH]; [reflexivity|]. cbn [map flat_map snd]. rewrite IH. f_equal.
        unfold Cells.ilab. rewrite <- jid_dict_to_j. f_equal. apply Hd. exact Hk.
      + induction IHn as [|d l Hk _ IH]; [reflexivity|]. cbn [map flat_map snd]. rewrite IH. f_equal.
        unfold Cells.ilab. rewrite <- jid_dict_to_j. f_equal. apply Hd. exact Hk.
  Qed.
  Lemma out_cells_map l : out_cells xml idn (map dict_to_j l) = flat_map icells l.
  Proof.
    unfold out_cells. pose proof (jcells_to_j (TTemp [] l)) as H. cbn [to_j map app] in H.
    transitivity (Cells.tcells xml idn (TTemp [] l)); [exact H|]. rewrite tcells_temp. reflexivity.
  Qed.

  Theorem no_cell_lost sheets out w : do_unflatten O sheets = Ok out w ->
    forall p c, In (p, c) (flat_map icells (fragments O sheets)) ->
      (exists c', In (p, c') (out_cells xml idn out) /\ carries c' c) \/ (exists x, In x w /\ named_by x p c).
  Proof.
    intros H p c Hc. apply do_unflatten_items in H as (st & H & ->).
    destruct (run_inv_run _ _ _ H) as [_ [_ _ C _]]. rewrite out_cells_map. exact (C p c Hc).
  Qed.

  (** every cell of the output comes from a row *)
  Theorem no_cell_invented sheets out w : do_unflatten O sheets = Ok out w ->
    forall p c', In (p, c') (out_cells xml idn out) ->
      (exists c, In (p, c) (flat_map icells (fragments O sheets)) /\ c_val c' = c_val c /\ c_loc c' = c_loc c) /\
      (forall v l, In (v, l) (c_sub c') -> cv_eqb (c_val c') v = true /\
         exists c, In (p, c) (flat_map icells (fragments O sheets)) /\ c_val c = v /\ c_loc c = l).
  Proof.
    intros H p c' Hc. apply do_unflatten_items in H as (st & H & ->).
    destruct (run_inv_run _ _ _ H) as [Hf [_ _ _ F]]. rewrite out_cells_map in Hc.
    destruct (F p c' Hc) as (c & [[]|Hin] & Hv & Hl & Hs). split; [exists c; auto|].
    intros v l Hvl. destruct (Hs _ Hvl) as [G|(cm & G1 & G2 & G3)].
    - rewrite (frs_ok_nosub _ Hf p c Hin) in G. destruct G.
    - injection G2 as -> ->. split; [exact G3|]. exists cm. auto.
  Qed.
End Run.
