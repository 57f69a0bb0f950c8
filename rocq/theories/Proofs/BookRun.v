(** Flattening to a workbook or an ODS document, and reading it. *)
From Coq Require Import Permutation Lia Sorted.
From Verif.Base Require Import PyStr PyNum PyVal PyDict Outcome.
From Verif.Model Require Import Warn Lib Convert Input Json Flatten Readers Ods Output Schema Commands.
From Verif.Spec Require Import Flat Sites Paths Headings Filled Written OdsCells Commands RoundTrip Typed Trip BookTrip Alike Near.
From Verif.Proofs Require Import FlattenTrace FlattenRun FlattenPlain FlattenPaths FlattenItems FlattenMain FlattenTotal FlattenUsed RtTrip RtNames RtMain OutputFacts OdsFacts OdsFiles CommandFacts Trip TripJson TripRun BookRead NearFacts.
Local Open Scope res_scope.

Lemma map_o_all {A B} (f : A -> OR B) (g : A -> B -> Prop) l : (forall x, In x l -> exists y w, f x = Ok y w /\ g x y) -> exists r w, map_o f l = Ok r w /\ Forall2 g l r.
Proof.
  induction l as [|x l IH]; intros H; [exists [], []; split; [reflexivity|constructor]|]. destruct (H x (or_introl eq_refl)) as (y & w1 & E1 & G1). destruct IH as (r & w2 & E2 & G2); [intros z Hz; apply H; right; exact Hz|].
  exists (y :: r), (w1 ++ (w2 ++ [])). cbn [map_o]. rewrite E1. cbn [bind]. rewrite E2. cbn [bind ret]. split; [reflexivity|constructor; assumption].
Qed.
Lemma clean_value_total v : exists v' w, clean_value v = Ok v' w.
Proof. destruct v as [[]| |]; try (do 2 eexists; reflexivity). cbn [clean_value]. cbv zeta. destruct (str_eqb _ s); do 2 eexists; reflexivity. Qed.
Lemma make_cell_for E v c : ods_cell_for E v c -> make_cell E v = Ok c [].
Proof.
  intros H. assert (G : exists c', make_cell E v = Ok c' []).
  { unfold make_cell. destruct H as (_ & _ & _ & _ & _ & [(N & _)|(N & s & -> & [(f & Ef & _)|(Ef & _)])]).
    - apply jfalsy_nothing in N. rewrite N. eexists. reflexivity.
    - destruct (jfalsy (JS s)) eqn:J; [apply jfalsy_nothing in J; contradiction|]. rewrite Ef. eexists. reflexivity.
    - destruct (jfalsy (JS s)) eqn:J; [apply jfalsy_nothing in J; contradiction|]. rewrite Ef. eexists. reflexivity. }
  destruct G as (c' & G). rewrite G. f_equal. apply make_cell_ok in G as (_ & G). destruct H as (T & A1 & A2 & A3 & A4 & H), G as (T' & B1 & B2 & B3 & B4 & G). destruct c, c'; cbn in *. subst.
  destruct H as [(N & -> & ->)|(N & s & Es & H)], G as [(N' & -> & ->)|(N' & s' & Es' & G)]; try contradiction; [reflexivity|]. rewrite Es in Es'. injection Es' as <-.
  destruct H as [(f & Ef & -> & ->)|(Ef & -> & ->)], G as [(f' & Ef' & -> & ->)|(Ef' & -> & ->)]; try congruence.
Qed.

Section Sheets.
  Variables (O : popts) (drop : bool) (pi : list str) (W : wopts) (E : wenv) (docs : list jobj) (back : scalar -> scalar).
  Hypothesis HW : whole O.
  Hypothesis HD : documents O docs.
  Variables (s : pst) (w : list fwarning).
  Hypothesis HR : flatten O drop pi (map JO docs) = Ok s w.
  Notation NF := (free O drop pi docs HW HD s w HR).

  Lemma used_cell t row h v : In t (tables s) -> In row (tb_rows t) -> sget h row = Some v -> exists c, v = JS c /\ cell_used O docs h c.
  Proof. exact (rows_placed O drop pi docs HW HD s w HR t row h v). Qed.
  Lemma used_heading t h : In t (tables s) -> In h (tb_header t) -> heading_used O docs h.
  Proof. exact (heads_placed O drop pi docs HW HD s w HR t h). Qed.
  Lemma tables_good t : In t (tables s) -> (forall h, heading_used O docs h -> h <> [] /\ h <> u "#") -> BookRead.good t.
  Proof.
    intros Ht H. split; [apply (flatten_distinct O drop pi (simple_ready O (proj1 HW)) _ s w HR t Ht)|]. split; [intros h Hh; apply H, (used_heading t h Ht Hh)|].
    intros Q. destruct (tb_rows t) as [|row rows] eqn:Er; [reflexivity|]. exfalso. apply (rows_headed O drop pi docs HW HD s w HR t row Ht); [rewrite Er; left; reflexivity|exact Q].
  Qed.
  Lemma table_named t : In t (in_order W (main_table s) (sub_tables s)) -> sheet_named O W docs (tb_name t).
  Proof.
    intros [<-|Ht]; [left; reflexivity|]. right. apply (Permutation_in t (Permutation_sym (sort_tables_perm _))) in Ht.
    destruct (names_from O drop pi docs HW HD s w HR (tb_name t) (in_map tb_name _ _ Ht)) as [A|(d & x & A)]; [right; exact A|left; exists d, x; exact A].
  Qed.
  Lemma table_from t : In t (in_order W (main_table s) (sub_tables s)) -> exists t0, In t0 (tables s) /\ tb_header t = tb_header t0 /\ tb_rows t = tb_rows t0.
  Proof.
    intros [<-|Ht]; [exists (main_table s); split; [left; reflexivity|split; reflexivity]|]. exists t. split; [right; apply (Permutation_in t (Permutation_sym (sort_tables_perm _)) Ht)|split; reflexivity].
  Qed.
  Lemma good_order : (forall h, heading_used O docs h -> h <> [] /\ h <> u "#") -> Forall BookRead.good (in_order W (main_table s) (sub_tables s)).
  Proof. intros H. apply Forall_forall. intros t Ht. destruct (table_from t Ht) as (t0 & H0 & E1 & E2). pose proof (tables_good t0 H0 H) as G. unfold BookRead.good in *. rewrite E1, E2. exact G. Qed.
  (** the cells of a row *)
  Lemma value_used t row h : In t (in_order W (main_table s) (sub_tables s)) -> In row (tb_rows t) ->
    (get_value row h = JS SNone /\ sget h row = None) \/ exists c, sget h row = Some (JS c) /\ get_value row h = JS c /\ cell_used O docs h c.
  Proof.
    intros Ht Hr. destruct (table_from t Ht) as (t0 & H0 & E1 & E2). rewrite E2 in Hr. unfold get_value. destruct (sget h row) as [v|] eqn:Ev; [|left; auto]. right. destruct (used_cell t0 row h v H0 Hr Ev) as (c & -> & Hc). exists c. auto.
  Qed.

  (** *** XLSX *)
  Section Xlsx.
    Variable read : jv -> scalar.
    Hypothesis HX : xlsx_ready O W E docs read back.
    Lemma xlsx_row_for t row : In t (in_order W (main_table s) (sub_tables s)) -> In row (tb_rows t) ->
      exists l wl, xlsx_out_row E t row = Ok l wl /\ map read l = row_cells back (tb_header t) row.
    Proof.
      intros Ht Hr. destruct HX as (_ & (N1 & N2) & _ & HC).
      assert (G : forall h, exists v w0, clean_value (get_value row h) = Ok v w0 /\ we_cell E v = None /\ read v = match sget h row with Some (JS c) => back c | _ => SNone end).
      { intros h. destruct (clean_value_total (get_value row h)) as (v & w0 & Ev). exists v, w0. split; [exact Ev|]. apply clean_value_ok in Ev as (Cl & _). destruct (value_used t row h Ht Hr) as [(Eg & ->)|(c & -> & Eg & Hc)]; rewrite Eg in Cl.
        - cbn [cleaned] in Cl. subst v. auto.
        - apply (HC h c v Hc Cl). }
      destruct (map_o_all (fun h => clean_value (get_value row h)) (fun h v => we_cell E v = None /\ read v = match sget h row with Some (JS c) => back c | _ => SNone end) (tb_header t)) as (l & wl & El & Fl); [intros h _; apply G|].
      unfold xlsx_out_row. rewrite El. cbn [bind].
      assert (Q : map_o (xlsx_value E) l = Ok l []). { clear -Fl. induction Fl as [|h v hs l (Hv & _) F IH]; [reflexivity|]. cbn [map_o]. unfold xlsx_value at 1. rewrite Hv. cbn [refuse ret bind app]. rewrite IH. reflexivity. }
      rewrite Q. exists l, (wl ++ []). split; [reflexivity|]. unfold row_cells, table_line. rewrite map_map. cbn [snd]. clear -Fl. induction Fl as [|h v hs l (_ & Hv) F IH]; [reflexivity|]. cbn [map]. rewrite Hv, IH. reflexivity.
    Qed.
    Lemma xlsx_sheet_for t : In t (in_order W (main_table s) (sub_tables s)) -> exists sh wl, xlsx_sheet W E t = Ok sh wl /\ grid_for back t (map (map read) (snd sh)).
    Proof.
      intros Ht. pose proof HX as (HT & _ & HH & _). destruct (table_from t Ht) as (t0 & H0 & E1 & E2).
      destruct (map_o_all (xlsx_out_row E t) (fun row l => map read l = row_cells back (tb_header t) row) (tb_rows t)) as (rows & wl & Er & Fr); [intros row Hr; apply (xlsx_row_for t row Ht Hr)|].
      assert (Hh : forall h, In h (tb_header t) -> we_cell E (JS (SStr h)) = None /\ read (JS (SStr h)) = SStr h) by (intros h Hh; rewrite E1 in Hh; destruct (HH h (used_heading t0 h H0 Hh)) as (_ & _ & A & B); auto).
      unfold xlsx_sheet. cbv zeta. fold (sheet_title W (tb_name t)). rewrite (HT _ (table_named t Ht)). cbn [refuse ret bind].
      assert (Q : forall hs, (forall h, In h hs -> we_cell E (JS (SStr h)) = None /\ read (JS (SStr h)) = SStr h) -> map_o (xlsx_value E) (map (fun h => JS (SStr h)) hs) = Ok (map (fun h => JS (SStr h)) hs) [] /\ map read (map (fun h => JS (SStr h)) hs) = map SStr hs).
      { clear. induction hs as [|h hs IH]; intros H; [split; reflexivity|]. destruct (IH (fun x Hx => H x (or_intror Hx))) as [I1 I2]. destruct (H h (or_introl eq_refl)) as [A B]. cbn [map map_o]. unfold xlsx_value at 1. rewrite A. cbn [refuse ret bind app]. rewrite I1, B, I2. split; reflexivity. }
      destruct (Q (tb_header t) Hh) as [Q1 Q2]. rewrite Q1. cbn [bind]. rewrite Er. cbn [bind ret app]. do 2 eexists. split; [reflexivity|]. cbn [snd map]. exists (map (map read) rows). split; [rewrite Q2; reflexivity|].
      clear -Fr. induction Fr as [|row l rs ls H F IH]; [constructor|]. cbn [map]. constructor; [|exact IH]. exists 0%nat. cbn [repeat]. rewrite app_nil_r. exact H.
    Qed.
    Lemma xlsx_written_for : exists sheets wl, write_xlsx W E (main_table s) (sub_tables s) = Ok sheets wl /\ Forall2 (fun t sh => grid_for back t (map (map read) (snd sh))) (in_order W (main_table s) (sub_tables s)) sheets.
    Proof. unfold write_xlsx. apply map_o_all. exact xlsx_sheet_for. Qed.
  End Xlsx.

  (** *** ODS *)
  Section Ods.
    Variable RE : ods_env.
    Hypothesis HX : ods_ready O W E docs RE back.
    Lemma shows_fun c x y : shows RE c x -> shows RE c y -> x = y.
    Proof. intros H1 H2. apply shows_value in H1, H2. destruct H1 as [(A & ->)|(A & H1)], H2 as [(B & ->)|(B & H2)]; congruence. Qed.
    Lemma row_shows r full : Forall2 (fun c x => own_cell c /\ shows RE c x) (or_cells r) full -> exists row, read_row RE false r = Ok row [] /\ short row full.
    Proof.
      intros F. destruct (own_row RE r) as (row & E1 & E2 & E3).
      - clear -F. induction F as [|c x cs xs (H & _) F IH]; constructor; assumption.
      - clear -F. intros c Hc. induction F as [|c' x cs xs (_ & H) F IH]; [destruct Hc|]. destruct Hc as [<-|Hc]; [eauto|auto].
      - exists row. split; [exact E1|]. clear E1. exists (length full - length row)%nat. rewrite (Forall2_length F) in E2.
        assert (N : forall j, (j < length full)%nat -> nth j row SNone = nth j full SNone).
        { intros j Hj. assert (G : exists c, nth_error (or_cells r) j = Some c /\ shows RE c (nth j full SNone)). { clear -F Hj. revert j Hj. induction F as [|c x cs xs (_ & H) F IH]; intros j Hj; [cbn in Hj; lia|]. destruct j as [|j]; [exists c; auto|]. apply IH. cbn in Hj. lia. }
          destruct G as (c & Hc & Hs). apply (shows_fun c); [apply E3; exact Hc|exact Hs]. }
        clear -N E2. revert full E2 N. induction row as [|x row IH]; intros full E2 N.
        + cbn [app length]. rewrite Nat.sub_0_r. clear E2. induction full as [|y full IH]; [reflexivity|]. cbn [length repeat]. f_equal; [exact (N 0%nat ltac:(cbn; lia))|]. apply IH. intros j Hj. specialize (N (S j) ltac:(cbn; lia)). cbn [nth] in N. destruct j; exact N.
        + destruct full as [|y full]; [cbn in E2; lia|]. cbn [app length]. cbn [Nat.sub]. f_equal; [exact (N 0%nat ltac:(cbn; lia))|]. apply IH; [cbn in E2; lia|]. intros j Hj. apply (N (S j)). cbn. lia.
    Qed.
    Lemma own_for v c : ods_cell_for E v c -> own_cell c.
    Proof. intros (_ & A & B & C & _). repeat split; assumption. Qed.
    Lemma none_cell : exists c, make_cell E (JS SNone) = Ok c [] /\ own_cell c /\ shows RE c SNone.
    Proof. eexists. split; [reflexivity|]. split; [repeat split|]. apply shows_nothing. reflexivity. Qed.
    Lemma ods_row_for t row : In t (in_order W (main_table s) (sub_tables s)) -> In row (tb_rows t) ->
      exists r wl, ods_out_row E t row = Ok r wl /\ exists g, read_row RE false r = Ok g [] /\ short g (row_cells back (tb_header t) row).
    Proof.
      intros Ht Hr. destruct HX as (_ & _ & _ & HC).
      destruct (map_o_all (fun h => v <- clean_value (get_value row h) ;; make_cell E v) (fun h c => own_cell c /\ shows RE c (match sget h row with Some (JS c) => back c | _ => SNone end)) (tb_header t)) as (l & wl & El & Fl).
      { intros h _. destruct (clean_value_total (get_value row h)) as (v & w0 & Ev). rewrite Ev. apply clean_value_ok in Ev as (Cl & _). cbn [bind]. destruct (value_used t row h Ht Hr) as [(Eg & ->)|(c & -> & Eg & Hc)]; rewrite Eg in Cl.
        - cbn [cleaned] in Cl. subst v. destruct none_cell as (c & Ec & A & B). rewrite Ec. cbn [bind]. do 2 eexists. split; [reflexivity|auto].
        - destruct (HC h c v Hc Cl) as (cell & A & B). rewrite (make_cell_for E v cell A). do 2 eexists. split; [reflexivity|]. split; [exact (own_for v cell A)|exact B]. }
      unfold ods_out_row. rewrite El. cbn [bind ret]. do 2 eexists. split; [reflexivity|]. apply row_shows. cbn [or_cells]. unfold row_cells, table_line. rewrite map_map. cbn [snd]. clear -Fl.
      induction Fl as [|h c hs l H F IH]; [constructor|]. cbn [map]. constructor; [exact H|exact IH].
    Qed.
    Lemma ods_sheet_for t : In t (in_order W (main_table s) (sub_tables s)) -> exists sh wl, ods_sheet W E t = Ok sh wl /\ fst sh = sheet_title W (tb_name t) /\ exists g, read_ods_sheet RE false (snd sh) = Ok g [] /\ grid_for back t g.
    Proof.
      intros Ht. pose proof HX as (_ & _ & HH & _). destruct (table_from t Ht) as (t0 & H0 & E1 & E2).
      destruct (map_o_all (ods_out_row E t) (fun row r => exists g, read_row RE false r = Ok g [] /\ short g (row_cells back (tb_header t) row)) (tb_rows t)) as (rows & wl & Er & Fr); [intros row Hr; apply (ods_row_for t row Ht Hr)|].
      destruct (map_o_all (fun h => make_cell E (JS (SStr h))) (fun h c => own_cell c /\ shows RE c (SStr h)) (tb_header t)) as (hs & wh & Eh & Fh).
      { intros h Hh. rewrite E1 in Hh. destruct (HH h (used_heading t0 h H0 Hh)) as (_ & _ & cell & A & B). rewrite (make_cell_for _ _ _ A). do 2 eexists. split; [reflexivity|]. split; [exact (own_for _ _ A)|exact B]. }
      unfold ods_sheet. rewrite Eh. cbn [bind]. rewrite Er. cbn [bind ret]. do 2 eexists. split; [reflexivity|]. cbn [fst snd]. split; [reflexivity|].
      destruct (row_shows {| or_repeat := None; or_cells := hs |} (map SStr (tb_header t))) as (top & Et & (n & St)).
      { cbn [or_cells]. clear -Fh. induction Fh as [|h c hs l H F IH]; [constructor|]. cbn [map]. constructor; assumption. }
      assert (n = 0%nat) as ->. { destruct n as [|n]; [reflexivity|]. exfalso. assert (In SNone (map SStr (tb_header t))) by (rewrite <- St; apply in_or_app; right; left; reflexivity). apply in_map_iff in H as (x & Q & _). discriminate Q. }
      cbn [repeat] in St. rewrite app_nil_r in St. subst top.
      assert (G : exists gs, Forall2 (fun r g => read_row RE false r = Ok g []) rows gs /\ Forall2 (fun row g => short g (row_cells back (tb_header t) row)) (tb_rows t) gs).
      { clear -Fr. induction Fr as [|row r rs ls (g & A & B) F (gs & I1 & I2)]; [exists []; split; constructor|]. exists (g :: gs). split; constructor; assumption. }
      destruct G as (gs & G1 & G2). exists (map SStr (tb_header t) :: gs). split; [apply map_res_F2; constructor; assumption|]. exists gs. split; [reflexivity|exact G2].
    Qed.
    Lemma titles_apart : NoDup (map (fun t => sheet_title W (tb_name t)) (in_order W (main_table s) (sub_tables s))).
    Proof.
      destruct HX as ((A & B) & Ti & _).
      assert (N : NoDup (map tb_name (in_order W (main_table s) (sub_tables s)))).
      { cbn [in_order map named tb_name]. constructor.
        - intros Q. assert (Q' : In (w_main W) (map tb_name (sub_tables s))) by (eapply Permutation_in; [apply Permutation_map, Permutation_sym, sort_tables_perm|exact Q]).
          destruct (names_from O drop pi docs HW HD s w HR _ Q') as [C|(d & x & Hd & Hx & C)]; [exact (B _ C eq_refl)|exact (A d x Hd Hx (eq_sym C))].
        - eapply Permutation_NoDup; [apply Permutation_map, sort_tables_perm|]. apply (flatten_names O drop pi (simple_ready O (proj1 HW)) _ _ _ HR). }
      pose proof table_named as Tn. revert N Tn. generalize (in_order W (main_table s) (sub_tables s)). intros l N Tn. induction l as [|t l IH]; [constructor|]. cbn [map] in *. inversion N as [|? ? N1 N2]; subst. constructor; [|apply IH; [exact N2|intros x Hx; apply Tn; right; exact Hx]].
      intros Q. apply in_map_iff in Q as (x & Q & Hx). apply N1. rewrite (Ti (tb_name t) (tb_name x)); [apply in_map; exact Hx|apply Tn; left; reflexivity|apply Tn; right; exact Hx|exact (eq_sym Q)].
    Qed.
    Lemma ods_written_for : exists sheets wl b, write_ods W E (main_table s) (sub_tables s) = Ok sheets wl /\ read_ods RE false sheets [] = Ok b [] /\ NoDup (map fst b) /\ Forall2 (grid_for back) (in_order W (main_table s) (sub_tables s)) (map snd b).
    Proof.
      destruct (map_o_all (ods_sheet W E) (fun t sh => fst sh = sheet_title W (tb_name t) /\ exists g, read_ods_sheet RE false (snd sh) = Ok g [] /\ grid_for back t g) (in_order W (main_table s) (sub_tables s))) as (sheets & wl & E1 & F); [exact ods_sheet_for|].
      assert (G : exists b, Forall2 (fun d x => fst d = fst x /\ read_ods_sheet RE false (snd d) = Ok (snd x) []) sheets b /\ Forall2 (fun t x => fst x = sheet_title W (tb_name t) /\ grid_for back t (snd x)) (in_order W (main_table s) (sub_tables s)) b).
      { clear E1. revert F. generalize (in_order W (main_table s) (sub_tables s)). intros T F. induction F as [|t sh T sheets (A & g & B & C) F (b & I1 & I2)]; [exists []; split; constructor|]. exists ((fst sh, g) :: b). split; constructor; auto. }
      destruct G as (b & G1 & G2). exists sheets, wl, b. split; [exact E1|].
      assert (Nm : map fst b = map (fun t => sheet_title W (tb_name t)) (in_order W (main_table s) (sub_tables s))).
      { clear -G2. revert G2. generalize (in_order W (main_table s) (sub_tables s)). intros T G2. induction G2 as [|t x T b (H & _) F IH]; [reflexivity|]. cbn [map]. rewrite H, IH. reflexivity. }
      assert (Nb : NoDup (map fst b)) by (rewrite Nm; apply titles_apart).
      split; [|split; [exact Nb|]].
      - rewrite (read_ods_all RE sheets [] b); [reflexivity| |intros n _ []|exact G1]. replace (map fst sheets) with (map fst b); [exact Nb|]. clear -G1. induction G1 as [|d x sheets b (H & _) F IH]; [reflexivity|]. cbn [map]. rewrite H, IH. reflexivity.
      - clear -G2. revert G2. generalize (in_order W (main_table s) (sub_tables s)). intros T G2. induction G2 as [|t x T b (_ & H) F IH]; [constructor|]. cbn [map]. constructor; assumption.
    Qed.
  End Ods.

  (** *** Back *)
  Lemma order_shown ideals : Forall2 (table_shown back SNone) (in_order W (main_table s) (sub_tables s)) ideals -> Forall2 (table_shown back SNone) (main_table s :: sort_tables (sub_tables s)) ideals.
  Proof. intros F. inversion F as [|? x ? xs H F']; subst. constructor; [|exact F']. destruct H as [A B]. split; [exact A|exact B]. Qed.
  Theorem book_any near P f b : come (near_leaf near) O P back docs -> f <> Readers.Csv -> NoDup (map fst b) -> (forall h, heading_used O docs h -> h <> [] /\ h <> u "#") ->
    Forall2 (grid_for back) (in_order W (main_table s) (sub_tables s)) (map snd b) ->
    exists sheets out wu, read_book f rd0 b = Ok sheets [] /\ unflatten P sheets = Ok out wu /\ same_records (@Permutation jv) (map (nearby_doc near) docs) out.
  Proof.
    intros HV Hf Nb Hh F. destruct (book_read P back f b _ Hf Nb (good_order Hh) F) as (sheets & E1 & E2 & E3).
    assert (L : length (map fst b) = length (in_order W (main_table s) (sub_tables s))) by (rewrite map_length, (Forall2_length F), map_length; reflexivity).
    destruct (ideals_shown back b _ L) as [I1 _]. apply order_shown in I1.
    destruct (comes_any O drop pi P back docs SNone HW HV (near_fair near) eq_refl HD s w HR (main_table s :: sort_tables (sub_tables s)) (ideals back b (in_order W (main_table s) (sub_tables s)))) as (out & A & B).
    - unfold tables. constructor. apply sort_tables_perm.
    - clear -I1. induction I1 as [|t x T l [A B] F IH]; constructor; [|exact IH]. split; [exact A|]. rewrite B. reflexivity.
    - destruct (ideal_decides P back b _ sheets out L E2 E3 A) as (wu & Hu). exists sheets, out, wu. split; [exact E1|]. split; [exact Hu|]. apply records_near; [|exact B]. intros g l l' H. apply Permutation_map. exact H.
  Qed.
  Theorem book_ordered near P f b : come (near_leaf near) O P back docs -> f <> Readers.Csv -> NoDup (map fst b) -> (forall h, heading_used O docs h -> h <> [] /\ h <> u "#") ->
    Forall2 (grid_for back) (in_order W (main_table s) (sub_tables s)) (map snd b) -> roots_together O docs -> short_names O docs ->
    exists sheets out wu, read_book f rd0 b = Ok sheets [] /\ unflatten P sheets = Ok out wu /\ same_records eq (map (nearby_doc near) docs) out.
  Proof.
    intros HV Hf Nb Hh F Hrt Hsh. destruct (book_read P back f b _ Hf Nb (good_order Hh) F) as (sheets & E1 & E2 & E3).
    assert (L : length (map fst b) = length (in_order W (main_table s) (sub_tables s))) by (rewrite map_length, (Forall2_length F), map_length; reflexivity).
    destruct (ideals_shown back b _ L) as [I1 _]. apply order_shown in I1.
    destruct (comes_ordered O drop pi P back docs SNone HW HV (near_fair near) eq_refl HD s w HR (sort_tables (sub_tables s)) _ (sort_tables_perm _) I1 (sorted_outer_first O drop pi docs s w HW HD HR _ (sort_tables_perm _) (sort_tables_sorted _) Hsh) Hrt) as (out & A & B).
    destruct (ideal_decides P back b _ sheets out L E2 E3 A) as (wu & Hu). exists sheets, out, wu. split; [exact E1|]. split; [exact Hu|]. apply records_near; [|exact B]. intros g l l' ->. reflexivity.
  Qed.
End Sheets.
