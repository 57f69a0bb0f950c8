(** Reading rows: one line on its own, lines of whole runs, order of array items. *)
From Coq Require Import Lia Permutation Sorting.Sorted.
From Verif.Base Require Import PyStr PyNum PyVal PyDict Outcome.
From Verif.Model Require Import Warn Lib Convert Input.
From Verif.Spec Require Import Headings Plain Ids Cells Rows Same.
From Verif.Proofs Require Import ColumnFacts TreeInd Total RowBuild RowFin RunCells Grouping RowRead.
Local Open Scope res_scope.

Section One.
  Variable O : opts.
  Hypothesis Hxml : o_xml O = false.
  Notation E := (o_conv O).
  Notation idn := (o_id_name O).

  (** an object of a row is placed by its id *)
  Lemma main_id_shown L d : tshows idn L (TDict d) -> ids_ok idn L -> exists k, main_id O d = Ok k [] /\ item_key false idn d = Ok k [].
  Proof.
    intros H (He & Hv & _). destruct (item_key_shown idn L d H He Hv) as [(c & s & _ & _ & K)|[_ K]].
    - exists (Some s). split; [|exact K]. unfold item_key in K. unfold main_id. rewrite Hxml. destruct (sget idn d) as [[c0|e|dt nk]|]; try discriminate; exact K.
    - exists None. split; [|exact K]. unfold item_key in K. unfold main_id. rewrite Hxml. destruct (sget idn d) as [[c0|e|dt nk]|]; try discriminate; exact K.
  Qed.

  Lemma line_shown sheet hs j line C W : reads E (o_types O) line C W -> headed hs line -> NoDup (map path_of C) ->
    ids_plain idn (map snd C) -> id_ends idn (map snd C) -> ids_distinct idn (map snd C) ->
    exists cells d w acc rej LLa LLr, line_cells O sheet hs j 0 line = Ok cells [] /\ unflatten_row E (o_types O) (o_xml O) idn cells = Ok d w /\
      settled C W acc rej w /\ Forall2 same_col acc LLa /\ Forall2 same_col rej LLr /\ tshows idn (map snd LLa) (TDict d) /\ ids_ok idn (map snd LLa) /\
      (forall h p x, In (h, (p, x)) rej -> exists h' q x', In (h', (q, x')) acc /\ ~ compatible q p) /\
      forall i h v, nth_error line i = Some (h, v) -> blank v = false ->
        exists p c wc, (In (h, (p, c)) LLa \/ In (h, (p, c)) LLr) /\ heading_says (o_types O) h p /\ convert_type E (o_types O (path_text p)) (CV v) = Ok (c_val c) wc /\
          l_sheet (c_loc c) = sheet /\ l_row (c_loc c) = (j + 2)%N /\
          l_col (c_loc c) = (if o_vertical O then N_str (N.of_nat i + 1)%N else column_letter (N.of_nat i + 1)%N) /\
          match hs with None => l_heading (c_loc c) = h | Some l => nth_error l i = Some (l_heading (c_loc c)) end.
  Proof.
    intros HR Hh Hnd Hpl He Hd.
    destruct (line_creads O sheet hs j line C W HR 0%N) as (cells & LL & Ec & Hc & F & Hn). { intros l El. specialize (Hh l El). simpl. lia. }
    pose proof (same_ids_ok O C LL F Hpl He Hd) as Hok.
    rewrite (same_paths _ _ F) in Hnd.
    destruct (row_shown E (o_types O) idn cells LL W Hc Hnd Hok) as (d & w & a & b & Hu & Hdl & Hs & Hr).
    destruct (same_settled _ _ F _ _ _ _ Hdl) as (acc & rej & D & Fa & Fr).
    exists cells, d, w, acc, rej, a, b. split; [exact Ec|]. split; [rewrite Hxml; exact Hu|]. split; [exact D|]. split; [exact Fa|]. split; [exact Fr|]. split; [exact Hs|].
    split; [eapply ids_ok_incl; [exact Hok|apply incl_map'; eapply settled_incl; exact Hdl]|]. split.
    - intros h p x Hin. destruct (Forall2_in_l _ _ _ Fr _ Hin) as ([h' [p' c']] & Hin' & (Q1 & Q2 & Q3)). unfold path_of in Q2. simpl in *. subst.
      destruct (Hr _ _ _ Hin') as (q & c2 & Hq & Hn2).
      apply in_map_iff in Hq as ([h2 [q2 c3]] & Q & Hq). simpl in Q. injection Q as -> ->.
      destruct (Forall2_in_r _ _ _ Fa _ Hq) as ([h3 [q3 x3]] & Hq3 & (R1 & R2 & R3)). unfold path_of in R2. simpl in *. subst. eauto 8.
    - intros i h v Hi Hb. destruct (Hn i h v Hi Hb) as (p & c & wc & A1 & A2). exists p, c, wc. split; [apply (settled_in _ _ _ _ _ Hdl); exact A1|exact A2].
  Qed.

  Theorem one_row name hs line C W : reads E (o_types O) line C W -> C <> [] -> headed hs line -> NoDup (map path_of C) ->
    ids_plain idn (map snd C) -> id_ends idn (map snd C) -> ids_distinct idn (map snd C) ->
    exists o w acc rej, unflatten O [one_line name hs line] = Ok [o] (match hs with Some l => heading_warnings name l | None => [] end ++ w) /\
      settled C W acc rej w /\ shows (ids_first idn) (map snd acc) (VDict o) /\
      (forall h p x, In (h, (p, x)) rej -> exists h' q x', In (h', (q, x')) acc /\ ~ compatible q p).
  Proof.
    intros HR Hne Hh Hnd Hpl He Hd.
    destruct (line_shown name hs 0%N line C W HR Hh Hnd Hpl He Hd) as (cells & d & w & acc & rej & LLa & LLr & Ec & Eu & D & Fa & Fr & Hs & Hok & Hr & _).
    exists (vdict_of d), w, acc, rej. split; [|split; [exact D|split; [|exact Hr]]].
    - destruct (main_id_shown _ d Hs Hok) as (k & K1 & K2).
      assert (Hbl : forallb (fun kv => blank (snd kv)) line = false). { destruct (forallb _ line) eqn:Eb; [|reflexivity]. apply (reads_blank_line O line C W HR) in Eb. contradiction. }
      assert (Hst : exists st, place O name (line_root O line) d [] = Ok st [] /\ flat_map (fun rt => map dict_to_j (temp_items (snd rt))) st = [dict_to_j d]).
      { unfold place. cbn [kget aget]. rewrite K1. cbn [bind fst snd]. rewrite Hxml. unfold temp_append. rewrite K2.
        unfold kget, kset. cbn [aget]. destruct k as [k|]; cbn [bind ret app]; cbn [aget aset bind ret app]; eexists; split; reflexivity. }
      destruct Hst as (st & Ep & Es).
      assert (Hline : do_lines O name hs 0 [line] [] = Ok st w).
      { cbn [do_lines]. unfold do_line. rewrite Hbl, Ec. cbn [bind]. rewrite Eu. cbn [bind]. rewrite Ep. cbn [bind ret]. rewrite !app_nil_r. reflexivity. }
      assert (Hline0 : line <> []). { intros ->. inversion HR; subst. congruence. }
      unfold unflatten, do_unflatten. cbn [do_sheets]. unfold do_sheet, one_line. cbn [si_name si_headings si_lines].
      destruct hs as [[|h0 hs0]|].
      + exfalso. specialize (Hh [] eq_refl). destruct line; [congruence|simpl in Hh; lia].
      + cbn [bind]. rewrite Hline. cbn [bind ret]. rewrite Es. cbn [map]. rewrite !app_nil_r. reflexivity.
      + rewrite Hline. cbn [bind ret]. rewrite Es. cbn [map]. rewrite !app_nil_r. reflexivity.
    - rewrite (same_pmap _ _ Fa). apply (tshows_shows idn (TDict d)). exact Hs.
  Qed.

  (** headings that agree *)
  Lemma agree_incompatible (C acc rej : list column) W w : agree (map snd C) -> settled C W acc rej w ->
    (forall h p x, In (h, (p, x)) rej -> exists h' q x', In (h', (q, x')) acc /\ ~ compatible q p) -> rej = [].
  Proof.
    intros HA D H. destruct rej as [|[h [p x]] rej]; [reflexivity|]. exfalso. destruct (H h p x) as (h' & q & x' & Hin & Hn); [left; reflexivity|].
    apply Hn. unfold agree in HA. clear H Hn.
    assert (G : forall (C acc rej : list column) W w, settled C W acc rej w -> ForallOrdPairs (fun a b => compatible (fst a) (fst b)) (map snd C) ->
              forall a b, In a acc -> In b rej -> compatible (path_of a) (path_of b)).
    { clear. induction 1 as [|c wc C W acc rej w D IH|c wc y C W acc rej w Hy D IH]; intros HA a b Ha Hb; inversion HA as [|? ? H1 H2]; subst; [destruct Ha| |].
      - destruct Ha as [<-|Ha]; [|eauto]. rewrite Forall_forall in H1. apply (H1 (snd b)). apply in_map. apply (settled_in _ _ _ _ _ D). right. exact Hb.
      - destruct Hb as [<-|Hb]; [|eauto]. rewrite Forall_forall in H1. apply compatible_sym. apply (H1 (snd a)). apply in_map. apply (settled_in _ _ _ _ _ D). left. exact Ha. }
    exact (G C acc _ W w D HA (h', (q, x')) (h, (p, x)) Hin (or_introl eq_refl)).
  Qed.
  Lemma agree_NoDup (C : list column) : agree (map snd C) -> NoDup (map path_of C).
  Proof.
    unfold agree. induction C as [|c C IH]; simpl; intros H; [constructor|]. inversion H as [|? ? H1 H2]; subst. constructor; [|auto].
    intros Hin. apply in_map_iff in Hin as (d & Hd & Hin). rewrite Forall_forall in H1. specialize (H1 (snd d) (in_map snd _ _ Hin)).
    unfold path_of in Hd. rewrite Hd in H1. exact (compatible_irrefl _ H1).
  Qed.
  Theorem agreeing_row name hs line C W : reads E (o_types O) line C W -> C <> [] -> headed hs line -> agree (map snd C) ->
    ids_plain idn (map snd C) -> id_ends idn (map snd C) -> ids_distinct idn (map snd C) ->
    exists o, unflatten O [one_line name hs line] = Ok [o] (match hs with Some l => heading_warnings name l | None => [] end ++ concat W) /\
      shows (ids_first idn) (map snd C) (VDict o).
  Proof.
    intros HR Hne Hh HA Hpl He Hd. destruct (one_row name hs line C W HR Hne Hh (agree_NoDup _ HA) Hpl He Hd) as (o & w & acc & rej & Hu & D & Hs & Hr).
    assert (rej = []). { eapply agree_incompatible; [exact HA|exact D|]. exact Hr. }
    subst rej. apply settled_none in D as [-> ->]. eauto.
  Qed.

  (** ** Runs *)
  Lemma do_lines_line sheet hs lines : forall j st st' w i line, do_lines O sheet hs j lines st = Ok st' w -> nth_error lines i = Some line ->
    exists s1 s2 w', do_line O sheet hs (j + N.of_nat i)%N line s1 = Ok s2 w' /\ incl w' w.
  Proof.
    induction lines as [|l lines IH]; intros j st st' w i line H Hi; [destruct i; discriminate|]. cbn [do_lines] in H.
    apply bind_ok in H as (s1 & w1 & w2 & H1 & H2 & ->). destruct i as [|i]; simpl in Hi.
    - injection Hi as ->. exists st, s1, w1. rewrite N.add_0_r. split; [exact H1|]. intros x Hx. apply in_or_app. left. exact Hx.
    - destruct (IH _ _ _ _ i line H2 Hi) as (t1 & t2 & w' & E' & I'). exists t1, t2, w'. split; [replace (j + N.of_nat (S i))%N with (j + 1 + N.of_nat i)%N by lia; exact E'|].
      intros x Hx. apply in_or_app. right. auto.
  Qed.
  Lemma do_sheets_sheet sheets : forall st st' w s, do_sheets O sheets st = Ok st' w -> In s sheets ->
    exists s1 s2 w', do_sheet O s s1 = Ok s2 w' /\ incl w' w.
  Proof.
    induction sheets as [|s0 sheets IH]; intros st st' w s H; [intros []|]. cbn [do_sheets] in H. apply bind_ok in H as (s1 & w1 & w2 & H1 & H2 & ->). intros [<-|Hin].
    - exists st, s1, w1. split; [exact H1|]. intros x Hx. apply in_or_app. left. exact Hx.
    - destruct (IH _ _ _ s H2 Hin) as (t1 & t2 & w' & E' & I'). exists t1, t2, w'. split; [exact E'|]. intros x Hx. apply in_or_app. right. auto.
  Qed.
  Lemma do_sheet_lines s st st' w : do_sheet O s st = Ok st' w -> si_headings s <> Some [] ->
    exists w', do_lines O (si_name s) (si_headings s) 0%N (si_lines s) st = Ok st' w' /\ incl w' w.
  Proof.
    unfold do_sheet. destruct (si_headings s) as [[|h hs]|]; intros H Hne; [congruence| |].
    - apply bind_ok in H as (u0 & w1 & w2 & H1 & H2 & ->). exists w2. split; [exact H2|]. apply incl_appr, incl_refl.
    - exists w. split; [exact H|apply incl_refl].
  Qed.
  Lemma row_in_run s sheets j line : In s sheets -> si_headings s <> Some [] -> nth_error (si_lines s) j = Some line ->
    incl (line_row O (si_name s) (si_headings s) (N.of_nat j) line) (rows_of O sheets).
  Proof.
    intros Hs Hne Hj x Hx. unfold rows_of. apply in_flat_map. exists s. split; [exact Hs|].
    assert (G : forall hs lines i k, nth_error lines i = Some line -> In x (line_row O (si_name s) hs (k + N.of_nat i) line) -> In x (lines_rows O (si_name s) hs k lines)).
    { intros hs lines. induction lines as [|l lines IH]; intros [|i] k Hi Hin; simpl in Hi; try discriminate; cbn [lines_rows]; apply in_or_app.
      - left. injection Hi as ->. rewrite N.add_0_r in Hin. exact Hin.
      - right. apply (IH i); [exact Hi|]. replace (k + 1 + N.of_nat i)%N with (k + N.of_nat (S i))%N by lia. exact Hin. }
    unfold sheet_rows. destruct (si_headings s) as [[|h hs]|] eqn:Eh; [congruence| |]; (eapply G; [exact Hj|rewrite N.add_0_l; exact Hx]).
  Qed.

  Theorem run_row_reported sheets out w : do_unflatten O sheets = Ok out w ->
    forall s j line C W, In s sheets -> nth_error (si_lines s) j = Some line -> headed (si_headings s) line -> reads E (o_types O) line C W -> NoDup (map path_of C) ->
      ids_plain idn (map snd C) -> id_ends idn (map snd C) -> ids_distinct idn (map snd C) ->
      forall k h v, nth_error line k = Some (h, v) -> blank v = false ->
      exists l x p wc, located O s j k l /\ heading_says (o_types O) h p /\ convert_type E (o_types O (path_text p)) (CV v) = Ok x wc /\
        ((exists sp c, In (sp, c) (out_cells (o_xml O) idn out) /\ In l (cell_locs c) /\ (c_val c = x \/ cv_eqb (c_val c) x = true)) \/
         (exists y, In y w /\ cell_reported y l h p x)).
  Proof.
    intros H s j line C W Hs Hj Hh HR Hnd Hpl He Hd k h v Hk Hb.
    destruct (line_shown (si_name s) (si_headings s) (N.of_nat j) line C W HR Hh Hnd Hpl He Hd) as (cells & d & w1 & acc & rej & LLa & LLr & Ec & Eu & D & Fa & Fr & Hsh & Hok & Hr & Hn).
    destruct (Hn k h v Hk Hb) as (p & c & wc & Hc & Hp & Hcv & L1 & L2 & L3 & L4).
    exists (c_loc c), (c_val c), p, wc. split.
    { split; [exact L1|]. split; [exact L2|]. split; [rewrite L3; apply column_name_ok|]. destruct (si_headings s); [exact L4|]. exists line, v. rewrite L4. auto. }
    split; [exact Hp|]. split; [exact Hcv|].
    assert (Hhs : si_headings s <> Some []). { intros Q. specialize (Hh [] Q). destruct line; [destruct k; discriminate|simpl in Hh; lia]. }
    assert (Hbl : forallb (fun kv => blank (snd kv)) line = false).
    { destruct (forallb _ line) eqn:Eb; [|reflexivity]. rewrite forallb_forall in Eb. apply nth_error_In in Hk. apply Eb in Hk. simpl in Hk. congruence. }
    destruct Hc as [Hc|Hc].
    - (* kept in the row *)
      assert (Hin : In (p, c) (map snd LLa)) by (apply in_map_iff; exists (h, (p, c)); auto).
      destruct (tshows_cells (o_xml O) idn _ _ Hsh p c Hin) as (sp & Hsp & _ & Hlast).
      assert (Hfr : In (ilab (o_xml O) idn d :: sp, c) (flat_map (icells (o_xml O) idn) (fragments O sheets))).
      { apply in_flat_map. exists d. split; [|unfold icells, below; apply in_map_iff; exists (sp, c); auto].
        unfold fragments. apply in_map_iff. exists {| r_sheet := si_name s; r_root := line_root O line; r_obj := d |}. split; [reflexivity|].
        apply (row_in_run s sheets j line Hs Hhs Hj). unfold line_row. rewrite Hbl, Ec. cbn [bind]. rewrite Eu. left. reflexivity. }
      destruct (no_cell_lost O sheets out w H _ _ Hfr) as [(c' & Hc' & Hl & Hv)|(y & Hy & Hnm)].
      + left. exists (ilab (o_xml O) idn d :: sp), c'. auto.
      + right. exists y. split; [exact Hy|]. right. destruct y; simpl in Hnm; try contradiction; [exact Hnm|].
        destruct Hnm as (Q1 & Q2 & Q3). split; [|split; [exact Q2|exact Q3]].
        destruct (says_last E _ _ _ Hp) as (kk & Hkk). rewrite Hkk. f_equal. specialize (Hlast kk Hkk).
        destruct sp as [|a sp]; [simpl in Hlast; discriminate|]. simpl in Q1, Hlast. congruence.
    - (* refused *)
      right. destruct (Forall2_in_r _ _ _ Fr _ Hc) as ([h3 [q3 x3]] & Hq3 & (R1 & R2 & R3)). unfold path_of in R2. simpl in R1, R2, R3. subst.
      destruct (settled_named _ _ _ _ _ D _ _ _ Hq3) as (y & Hy & Hnm). exists y. split; [|left; exact Hnm].
      unfold do_unflatten in H. apply bind_ok in H as (st & w2 & w3 & H & Q & ->). injection Q as <- <-. rewrite app_nil_r.
      destruct (do_sheets_sheet _ _ _ _ s H Hs) as (t1 & t2 & w4 & G1 & I1). destruct (do_sheet_lines _ _ _ _ G1 Hhs) as (w5 & G2 & I2).
      destruct (do_lines_line _ _ _ _ _ _ _ j line G2 Hj) as (t3 & t4 & w6 & G3 & I3). apply I1, I2, I3. clear -G3 Hbl Ec Eu Hy.
      unfold do_line in G3. rewrite N.add_0_l, Hbl, Ec in G3. cbn [bind] in G3. rewrite Eu in G3. cbn [bind] in G3.
      destruct (place O (si_name s) (line_root O line) d t3) as [a w7|]; [|discriminate]. injection G3 as _ <-. simpl. apply in_or_app. left. exact Hy.
  Qed.
End One.
