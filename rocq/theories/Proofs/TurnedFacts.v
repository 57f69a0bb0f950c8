(** Reading a sheet by columns is reading the turned sheet by rows. *)
From Coq Require Import Lia.
From Verif.Base Require Import PyStr PyNum PyVal PyDict Outcome.
From Verif.Model Require Import Warn Lib Convert Input Readers.
From Verif.Spec Require Import Grids Turned.
From Verif.Proofs Require Import ReaderFacts.

Lemma skipn_seq k : forall a n, skipn k (seq a n) = seq (a + k) (n - k).
Proof.
  induction k as [|k IH]; intros a n; [rewrite Nat.add_0_r, Nat.sub_0_r; reflexivity|]. destruct n as [|n]; [reflexivity|]. cbn [seq skipn]. rewrite IH. f_equal; lia.
Qed.
Lemma nth_seq_map {A} (F : nat -> A) w k : nth_error (map F (seq 0 w)) k = if (k <? w)%nat then Some (F k) else None.
Proof.
  rewrite nth_error_map. destruct (Nat.ltb_spec k w) as [H|H].
  - rewrite (nth_error_nth' _ 0%nat) by (rewrite seq_length; exact H). rewrite seq_nth by exact H. reflexivity.
  - assert (E : nth_error (seq 0 w) k = None) by (apply nth_error_None; rewrite seq_length; exact H). rewrite E. reflexivity.
Qed.
Lemma longest_width g : width g = Nat.max (longest g) 1.
Proof. unfold width, longest. induction g as [|r g IH]; [reflexivity|]. cbn [fold_right]. rewrite IH. lia. Qed.
Lemma longest_ge g r : In r g -> (length r <= longest g)%nat.
Proof. unfold longest. induction g as [|x g IH]; [intros []|]. cbn [fold_right]. intros [->|H]; [lia|specialize (IH H); lia]. Qed.
Lemma width_all m g : g <> [] -> (1 <= m)%nat -> (forall r, In r g -> length r = m) -> width g = m.
Proof.
  unfold width. intros Hg Hm. induction g as [|r g IH]; [contradiction|]. intros H. cbn [fold_right]. rewrite (H r (or_introl eq_refl)).
  destruct g as [|r2 g]; [cbn; lia|]. rewrite IH; [lia|discriminate|intros x Hx; apply H; right; exact Hx].
Qed.
Lemma width_wide g : width (wide g) = width g.
Proof.
  apply width_all.
  - unfold wide. destruct g; discriminate.
  - rewrite longest_width. lia.
  - intros r Hr. unfold wide in Hr. apply in_map_iff in Hr as (x & <- & Hx). apply pad_length. destruct g as [|y g]; [destruct Hx as [<-|[]]; cbn; lia|]. apply width_ge. exact Hx.
Qed.
Lemma nth_error_at (r : list scalar) j : (match nth_error r j with Some v => v | None => SNone end) = nth j r SNone.
Proof. revert j. induction r as [|x r IH]; intros [|j]; try reflexivity. cbn [nth_error nth]. apply IH. Qed.
Lemma column_is g j : column g j = column_at g j.
Proof. unfold column, column_at. apply map_ext. intros r. apply nth_error_at. Qed.
Lemma column_wide g j : g <> [] -> column (wide g) j = column_at g j.
Proof. intros H. rewrite column_is. unfold wide, column_at. destruct g as [|r g]; [contradiction|]. rewrite map_map. apply map_ext. intros x. apply nth_pad. Qed.
Lemma column_skip n g j : skipn n (column_at g j) = column_at (skipn n g) j.
Proof. unfold column_at. rewrite skipn_map. reflexivity. Qed.
Lemma column_length rows j : length (column_at rows j) = length rows.
Proof. unfold column_at. apply map_length. Qed.

Lemma conf_line_rows c n : conf_rows c n -> conf_line c = n.
Proof.
  unfold conf_rows, conf_line. intros [[-> ->]|[H ->]]; [reflexivity|]. destruct (sc_any c) eqn:E; [reflexivity|]. apply sc_any_iff in E. contradiction.
Qed.
Lemma across_laid_out rd c L n : laid_out rd c L -> conf_rows c n -> laid_out (by_rows rd (ly_conf L)) empty_conf (across n L).
Proof.
  intros HL Hn. split; [apply base_conf; reflexivity|]. destruct HL as (_ & n' & s & h & Hn' & Hs & Hh & H1 & H2). exists 0%nat, s, h. cbn [across ly_conf ly_heading ly_first].
  assert (n' = n) by (unfold conf_rows in Hn; destruct Hn' as [[? ?]|[? ?]], Hn as [[? ?]|[? ?]]; congruence). subst n'.
  split; [left; split; reflexivity|]. split; [exact Hs|]. split; [exact Hh|]. split; lia.
Qed.

Lemma skipn_In {A} k (l : list A) x : In x (skipn k l) -> In x l.
Proof. rewrite <- (firstn_skipn k l) at 2. intros H. apply in_or_app. right. exact H. Qed.
Section Turned.
  Variables (f : fmt) (rd : reader) (c : sheet_conf) (n : nat) (g : grid) (L : layout).
  Hypothesis Hv : rd_vertical rd = true.
  Hypothesis HL : laid_out rd c L.
  Hypothesis Hn : conf_rows c n.
  Hypothesis Hr : readable_across f n g L.
  Let rd' := by_rows rd (ly_conf L).
  Let e := ly_conf L.

  Lemma below_ne : skipn n g <> [].
  Proof. destruct Hr as (_ & (r & Hi & _) & _). intros E. rewrite E in Hi. destruct Hi. Qed.
  Lemma above_ne : g <> [].
  Proof. intros E. apply below_ne. rewrite E. apply skipn_nil. Qed.
  Lemma below_longest : (1 <= longest (skipn n g))%nat.
  Proof. destruct Hr as (_ & (r & Hi & Hne) & _). pose proof (longest_ge _ _ Hi). destruct r; [contradiction|]. cbn [length] in H. lia. Qed.
  Lemma above_longest : (1 <= longest g)%nat.
  Proof. destruct Hr as (_ & (r & Hi & Hne) & _). pose proof (longest_ge g r (skipn_In _ _ _ Hi)). destruct r; [contradiction|]. cbn [length] in H. lia. Qed.

  Let t := map (column_at (skipn n g)) (seq 0 (longest g)).
  Lemma t_width : width t = length (skipn n g).
  Proof.
    apply width_all.
    - unfold t. pose proof above_longest. destruct (longest g); [lia|]. discriminate.
    - pose proof below_ne. destruct (skipn n g); [contradiction|]. cbn. lia.
    - intros r Hi. apply in_map_iff in Hi as (j & <- & _). apply column_length.
  Qed.
  Lemma t_wide : wide t = t.
  Proof.
    unfold wide. pose proof above_longest as Hl. assert (Ht : t <> []) by (unfold t; destruct (longest g); [lia|discriminate]). pose proof t_width as Hw.
    assert (E : map (pad (width t)) t = t).
    { rewrite Hw. unfold t. rewrite map_map. apply map_ext. intros j. unfold pad. rewrite column_length, Nat.sub_diag. apply app_nil_r. }
    destruct t as [|x y]; [contradiction|exact E].
  Qed.
  Lemma t_row k : xlsx_row t k = column_at (skipn n g) k.
  Proof.
    unfold xlsx_row. rewrite t_wide, t_width. unfold t. rewrite nth_seq_map. destruct (Nat.ltb_spec k (longest g)) as [H|H]; [reflexivity|].
    unfold column_at. assert (G : forall r, In r (skipn n g) -> nth k r SNone = SNone).
    { intros r Hi. apply nth_overflow. apply skipn_In in Hi. apply longest_ge in Hi. lia. }
    induction (skipn n g) as [|r rows IH]; [reflexivity|]. cbn [length repeat map]. rewrite (G r (or_introl eq_refl)). f_equal. apply IH. intros x Hx. apply G. right. exact Hx.
  Qed.
  Lemma ods_headings_at : ragged_column 0 (skipn n g) = column_at (non_empty (skipn n g)) 0.
  Proof.
    unfold ragged_column, column_at, non_empty. induction (skipn n g) as [|r rows IH]; [reflexivity|]. cbn [flat_map filter]. rewrite IH. destruct r; reflexivity.
  Qed.

  Theorem turned_headings name : headings_of f rd c name g = headings_of f rd' empty_conf name (turned f n g).
  Proof.
    pose proof (laid_out_conf _ _ _ HL) as Hc. pose proof (laid_out_conf _ _ _ (across_laid_out _ _ _ _ HL Hn)) as Hc'. fold rd' in Hc'. cbn [across ly_conf] in Hc'.
    pose proof (conf_line_rows _ _ Hn) as En. pose proof Hr as (Hf & Hne & Ho). destruct (laid_out_rows _ _ _ HL) as [H1 H2]. rewrite En in H1.
    pose proof t_row as Htr. pose proof t_wide as Htw. pose proof above_ne as Han. pose proof above_longest as Hal. pose proof below_longest as Hbl. pose proof below_ne as Hbn.
    destruct f; [contradiction| |]; cbn [headings_of]; unfold turned, rows_below.
    - unfold xlsx_headings. rewrite Hc, Hc', Hv. fold e. destruct (sc_ignore e || hash_sheet e name); [reflexivity|]. cbn [rd_vertical rd' by_rows conf_line empty_conf sc_any]. rewrite Nat.add_0_r.
      fold t. rewrite Htr. rewrite column_wide by exact Han. rewrite En, column_skip. reflexivity.
    - unfold ods_headings. rewrite Hc, Hc', Hv. fold e. destruct (sc_ignore e || hash_sheet e name); [reflexivity|]. cbn [rd_vertical rd' by_rows conf_line empty_conf sc_any]. rewrite Nat.add_0_r.
      destruct (Ho eq_refl) as [Ha Hb]. assert (Es : skip_of e = 0%nat) by (unfold e; lia). rewrite Es, En, nth_seq_map. pose proof Hbl as Hl.
      destruct (Nat.ltb_spec 0 (longest (skipn n g))); [|lia]. apply ods_headings_at.
  Qed.
  Theorem turned_lines : lines_in f rd c g = lines_in f rd' empty_conf (turned f n g).
  Proof.
    pose proof (laid_out_conf _ _ _ HL) as Hc. pose proof (laid_out_conf _ _ _ (across_laid_out _ _ _ _ HL Hn)) as Hc'. fold rd' in Hc'. cbn [across ly_conf] in Hc'.
    pose proof (conf_line_rows _ _ Hn) as En. pose proof Hr as (Hf & Hne & Ho). destruct (laid_out_rows _ _ _ HL) as [H1 H2]. rewrite En in H1.
    pose proof t_row as Htr. pose proof t_wide as Htw. pose proof above_ne as Han. pose proof above_longest as Hal. pose proof below_longest as Hbl. pose proof below_ne as Hbn.
    destruct f; [contradiction| |]; cbn [lines_in]; unfold turned, rows_below.
    - f_equal. unfold xlsx_lines. rewrite Hc, Hc', Hv. fold e. cbv zeta. cbn [rd_vertical rd' by_rows conf_line empty_conf sc_any]. rewrite !Nat.add_0_r. fold t. rewrite Htr, Htw.
      rewrite column_wide by exact Han. rewrite En, column_skip. unfold t, columns_from. rewrite skipn_map, skipn_seq, !map_map. rewrite width_wide, longest_width. cbn [Nat.add].
      replace (Nat.max (longest g) 1) with (longest g) by (lia). apply map_ext. intros j. rewrite column_wide by exact Han. rewrite column_skip. reflexivity.
    - unfold ods_lines. rewrite Hc, Hc', Hv. fold e. cbv zeta. cbn [rd_vertical rd' by_rows conf_line empty_conf sc_any]. rewrite !Nat.add_0_r. destruct (Ho eq_refl) as [Ha Hb].
      assert (Es : skip_of e = 0%nat) by (unfold e; lia). assert (Eh : header_of e = 1%nat) by (unfold e; lia). rewrite Es, Eh, En. pose proof Hbl as Hl.
      cbn [Nat.add]. rewrite nth_seq_map. destruct (Nat.ltb_spec 0 (longest (skipn n g))) as [_|Hx]; [|lia]. rewrite skipn_map, skipn_seq. rewrite <- ods_headings_at. cbn [Nat.add].
      pose proof Hbn as Hb'. destruct (skipn n g) as [|r0 rows] eqn:Eg; [contradiction|]. rewrite <- Eg. f_equal.
      change (fold_right (fun r w => Nat.max (length r) w) 0%nat (skipn n g)) with (longest (skipn n g)). apply map_ext. intros j. apply column_is.
  Qed.
End Turned.
Theorem turned_read f rd c n g L name : rd_vertical rd = true -> laid_out rd c L -> conf_rows c n -> readable_across f n g L ->
  laid_out (by_rows rd (ly_conf L)) empty_conf (across n L) /\
  headings_of f rd c name g = headings_of f (by_rows rd (ly_conf L)) empty_conf name (turned f n g) /\
  lines_in f rd c g = lines_in f (by_rows rd (ly_conf L)) empty_conf (turned f n g).
Proof.
  intros Hv HL Hn Hr. split; [apply (across_laid_out _ _ _ _ HL Hn)|]. split; [apply turned_headings; assumption|apply turned_lines; assumption].
Qed.
Theorem csv_by_rows rd v c g name : headings_of Csv rd c name g = headings_of Csv (oriented v rd) c name g /\ lines_in Csv rd c g = lines_in Csv (oriented v rd) c g.
Proof. split; reflexivity. Qed.

(** ** Cells *)
Lemma rows_below_In f n g r : In r (rows_below f n g) -> In r (skipn n g).
Proof. unfold rows_below. destruct f; auto. intros H. apply filter_In in H as [H _]. exact H. Qed.
Lemma nth_column rows i j : nth i (column_at rows j) SNone = cell_at rows i j.
Proof.
  unfold column_at, cell_at. revert i. induction rows as [|r rows IH]; intros [|i]; try reflexivity. cbn [map nth nth_error]. apply IH.
Qed.
Lemma turned_length f n g : length (turned f n g) = longest (match f with Ods => skipn n g | _ => g end).
Proof. unfold turned. rewrite map_length, seq_length. reflexivity. Qed.
Theorem turned_cells f n g i j : cell_at (turned f n g) j i = cell_at (rows_below f n g) i j.
Proof.
  unfold cell_at at 1. unfold turned. rewrite nth_seq_map. set (w := longest _). destruct (Nat.ltb_spec j w) as [H|H]; [apply nth_column|].
  rewrite <- nth_column. unfold column_at. assert (G : forall r, In r (rows_below f n g) -> nth j r SNone = SNone).
  { intros r Hi. apply nth_overflow. apply rows_below_In in Hi. unfold w in H. destruct f; [apply skipn_In in Hi|apply skipn_In in Hi|]; apply longest_ge in Hi; lia. }
  clear - G. revert i. induction (rows_below f n g) as [|r rows IH]; intros [|i]; try reflexivity; cbn [map nth].
  - symmetry. apply G. left. reflexivity.
  - apply IH. intros x Hx. apply G. right. exact Hx.
Qed.
Lemma turned_row f n g j : (j < length (turned f n g))%nat -> row_at (turned f n g) j = column_at (rows_below f n g) j.
Proof. rewrite turned_length. intros H. unfold row_at, turned. rewrite nth_seq_map. apply Nat.ltb_lt in H. rewrite H. reflexivity. Qed.

Theorem columns_read f rd c n g L name : rd_vertical rd = true -> laid_out rd c L -> conf_rows c n -> readable_across f n g L -> is_read f (ly_conf L) name ->
  (ly_heading L < ly_first L)%nat -> (ly_first L <= n + longest (skipn n g))%nat ->
  once_headings f (ly_conf L) (column_at (rows_below f n g) (ly_heading L - n)) -> hash_ok f (ly_conf L) (column_at (rows_below f n g) (ly_heading L - n)) ->
  (forall i, nth i (headings_of f rd c name g) SNone = cell_at (rows_below f n g) i (ly_heading L - n)) /\
  exists ls, lines_in f rd c g = Ok ls [] /\
    non_empty (map line_values ls) = non_empty (map (fun j => row_values f (ly_conf L) (column_at (rows_below f n g) (ly_heading L - n)) (column_at (rows_below f n g) j))
                                                    (seq (ly_first L - n) (n + longest (match f with Ods => skipn n g | _ => g end) - ly_first L))).
Proof.
  intros Hv HL Hn Hr Hrd Hlt Hle Ho Hh. destruct (turned_read f rd c n g L name Hv HL Hn Hr) as (HL' & E1 & E2).
  destruct (laid_out_rows _ _ _ HL) as [R1 R2]. rewrite (conf_line_rows _ _ Hn) in R1.
  assert (Hlen : (ly_first L - n <= length (turned f n g))%nat).
  { rewrite turned_length. enough (longest (skipn n g) <= longest (match f with Ods => skipn n g | _ => g end))%nat by lia.
    assert (G : (longest (skipn n g) <= longest g)%nat).
    { clear. revert n. induction g as [|r g IH]; intros n; [rewrite skipn_nil; reflexivity|]. destruct n as [|n]; [reflexivity|]. cbn [skipn]. specialize (IH n). unfold longest in *. cbn [fold_right]. lia. }
    destruct f; lia. }
  pose proof (turned_row f n g (ly_heading L - n) ltac:(lia)) as Er.
  destruct (rows_read f (by_rows rd (ly_conf L)) empty_conf (turned f n g) name (across n L) eq_refl HL') as [H1 (ls & H2 & H3)].
  - exact Hrd.
  - cbn [across ly_heading ly_first]. lia.
  - exact Hlen.
  - cbn [across ly_heading ly_conf]. rewrite Er. exact Ho.
  - cbn [across ly_heading ly_conf]. rewrite Er. exact Hh.
  - cbn [across ly_heading ly_first ly_conf] in *. split; [intros i; rewrite E1, H1; apply turned_cells|]. exists ls. split; [rewrite E2; exact H2|]. rewrite H3, Er. f_equal.
    unfold turned. rewrite skipn_map, skipn_seq, map_map. cbn [Nat.add]. f_equal. f_equal. rewrite turned_length in Hlen. lia.
Qed.
