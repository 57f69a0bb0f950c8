(** Reading a workbook or an ODS document with a sheet for every table. *)
From Coq Require Import Lia.
From Verif.Base Require Import PyStr PyNum PyVal PyDict Outcome.
From Verif.Model Require Import Warn Lib Convert Input Flatten Readers Output Commands.
From Verif.Spec Require Import Filled RoundTrip.
From Verif.Proofs Require Import CsvFiles EraseRun TripRun.
Local Open Scope res_scope.

Section Read.
  Variables (P : opts) (write : scalar -> scalar).
  (** the cells of the table, without empty ones at the ends of rows *)
  Definition row_cells (header : list str) (row : Flatten.frow) : list scalar := map snd (table_line write SNone header row).
  Definition short (r full : list scalar) : Prop := exists n, r ++ repeat SNone n = full.
  Definition grid_for (t : table) (g : grid) : Prop :=
    exists rs, g = map SStr (tb_header t) :: rs /\ Forall2 (fun row r => short r (row_cells (tb_header t) row)) (tb_rows t) rs.
  Definition good (t : table) : Prop :=
    NoDup (tb_header t) /\ (forall h, In h (tb_header t) -> h <> [] /\ h <> u "#") /\ (tb_header t = [] -> tb_rows t = []).
  Definition ideal (n : str) (t : table) : sheet_in :=
    {| si_name := n; si_headings := Some (map SStr (tb_header t)); si_lines := map (table_line write SNone (tb_header t)) (tb_rows t) |}.

  Lemma line_combine header row : table_line write SNone header row = combine (map SStr header) (row_cells header row).
  Proof. unfold row_cells, table_line. induction header as [|h hs IH]; [reflexivity|]. cbn [map combine snd]. f_equal. exact IH. Qed.
  Lemma row_length header row : length (row_cells header row) = length header.
  Proof. unfold row_cells, table_line. rewrite !map_length. reflexivity. Qed.
  Lemma short_length r full : short r full -> (length r <= length full)%nat.
  Proof. intros (n & <-). rewrite app_length. lia. Qed.
  Lemma short_pad r full : short r full -> pad (length full) r = full.
  Proof. intros (n & <-). unfold pad. f_equal. rewrite app_length, repeat_length. f_equal. lia. Qed.

  Lemma make_line_combine header r : NoDup header -> make_line (combine (map SStr header) r) = combine (map SStr header) r.
  Proof.
    intros D. assert (G : forall (hs : list str) (r : list scalar), exists hs' (f : str -> scalar), (exists k, hs' = firstn k hs) /\ (NoDup hs -> combine (map SStr hs) r = map (fun h => (SStr h, f h)) hs')).
    { clear. induction hs as [|h hs IH]; intros r; [exists [], (fun _ => SNone); split; [exists 0%nat; reflexivity|reflexivity]|]. destruct r as [|v r]; [exists [], (fun _ => SNone); split; [exists 0%nat; reflexivity|reflexivity]|].
      destruct (IH r) as (hs' & f & (k & Ek) & F). exists (h :: hs'), (fun x => if str_eqb x h then v else f x). split; [exists (S k); cbn; rewrite Ek; reflexivity|].
      intros D. inversion D as [|? ? N D']; subst. cbn [map combine]. rewrite str_eqb_refl. f_equal. rewrite (F D'). apply map_ext_in. intros x Hx. destruct (str_eqb_spec x h) as [->|]; [|reflexivity]. exfalso. apply N. rewrite <- (firstn_skipn k hs). apply in_or_app. left. exact Hx. }
    destruct (G header r) as (hs' & f & (k & Ek) & F). rewrite (F D). apply make_line_map. rewrite Ek. clear -D. revert k. induction D as [|h hs N D IH]; intros [|k]; cbn [firstn]; constructor; auto.
    intros Q. apply N. rewrite <- (firstn_skipn k hs). apply in_or_app. left. exact Q.
  Qed.
  (** *** XLSX *)
  Lemma xlsx_cells_plain header r : (forall h, In h header -> h <> []) -> xlsx_cells empty_conf (map SStr header) r = combine (map SStr header) r.
  Proof.
    intros H. unfold xlsx_cells. rewrite <- (map_id (combine _ r)) at 2. apply map_ext_in. intros [h v] Hin. apply in_combine_l in Hin. apply in_map_iff in Hin as (x & <- & Hx).
    specialize (H x Hx). destruct x as [|c x]; [congruence|]. reflexivity.
  Qed.
  Lemma xlsx_width hr (rs : grid) : (1 <= length hr)%nat -> Forall (fun r => (length r <= length hr)%nat) rs -> width (hr :: rs) = length hr.
  Proof.
    intros H F. cbn [width fold_right]. assert (G : (fold_right (fun r w => Nat.max (length r) w) 1 rs <= length hr)%nat). { induction F as [|r rs Hr F IH]; [exact H|]. cbn [fold_right]. lia. } lia.
  Qed.
  Lemma rd0_conf : conf_of rd0 empty_conf = empty_conf. Proof. reflexivity. Qed.
  Lemma rows_short t rs : Forall2 (fun row r => short r (row_cells (tb_header t) row)) (tb_rows t) rs -> Forall (fun r => (length r <= length (tb_header t))%nat) rs.
  Proof. intros F. induction F as [|row r rows rs H F IH]; constructor; [|exact IH]. apply short_length in H. rewrite row_length in H. exact H. Qed.
  Lemma xlsx_read n t g : good t -> grid_for t g -> exists x, read_sheet Xlsx rd0 (n, g, empty_conf) = Ok x [] /\ fits x /\ filled_rows P x = filled_rows P (ideal n t).
  Proof.
    intros (D & Hh & H0) (rs & -> & F). pose proof (rows_short t rs F) as Ls.
    assert (C : tb_header t = [] \/ tb_header t <> []) by (destruct (tb_header t); [left; reflexivity|right; discriminate]). destruct C as [C|C].
    - rewrite (H0 C) in F. inversion F; subst. rewrite C. eexists. split; [reflexivity|]. split; [intros l []|]. unfold filled_rows, ideal. rewrite C, (H0 C). reflexivity.
    - exists (ideal n t). split; [|split; [|reflexivity]].
      + set (hr := map SStr (tb_header t)) in *. assert (Hl : (1 <= length hr)%nat) by (unfold hr; rewrite map_length; destruct (tb_header t); [congruence|cbn; lia]).
        assert (Hw : width (hr :: rs) = length hr) by (apply xlsx_width; [exact Hl|]; unfold hr; rewrite map_length; exact Ls).
        assert (Hwide : wide (hr :: rs) = hr :: map (row_cells (tb_header t)) (tb_rows t)).
        { unfold wide. rewrite Hw. cbn [map]. f_equal; [unfold pad; rewrite Nat.sub_diag; apply app_nil_r|]. unfold hr. rewrite map_length. clear -F. induction F as [|row r rows rs H F IH]; [reflexivity|]. cbn [map]. f_equal; [|exact IH]. rewrite <- (row_length (tb_header t) row). apply short_pad. exact H. }
        unfold read_sheet, headings_of, lines_in, xlsx_headings, xlsx_lines, xlsx_row. rewrite rd0_conf. change (sc_ignore empty_conf) with false. change (hash_sheet empty_conf n) with false. change (rd_vertical rd0) with false. change (skip_of empty_conf) with 0%nat. change (conf_line empty_conf) with 0%nat. change (header_of empty_conf) with 1%nat. cbn [orb Nat.add].
        rewrite Hwide. cbn [nth_error skipn]. unfold ideal. fold hr. destruct hr as [|h0 hr0] eqn:Ehr; [cbn in Hl; lia|]. rewrite <- Ehr. cbn [ret bind app]. unfold ret. f_equal. f_equal.
        rewrite map_map. apply map_ext. intros row. unfold hr. rewrite xlsx_cells_plain by (intros h Hx; apply (Hh h Hx)). rewrite make_line_combine by exact D. symmetry. apply line_combine.
      + unfold fits, ideal. cbn [si_headings si_lines]. intros l Hl. apply in_map_iff in Hl as (row & <- & _). unfold table_line. rewrite !map_length. lia.
  Qed.
  Lemma xlsx_plain t g : good t -> grid_for t g -> bind (get_conf Xlsx g) (fun l => parse_sheet_configuration l empty_conf) = Ok empty_conf [].
  Proof.
    intros (D & Hh & H0) (rs & -> & F). unfold get_conf, xlsx_conf, xlsx_row, wide. cbn [nth_error map]. destruct (tb_header t) as [|h hs].
    - cbn [map pad app]. unfold pad. cbn [app length]. rewrite Nat.sub_0_r. assert (W : (1 <= width ([] :: rs))%nat) by (cbn [width fold_right length Nat.max]; clear; induction rs as [|r rs IH]; cbn [fold_right]; lia).
      destruct (width ([] :: rs)) as [|k]; [lia|]. reflexivity.
    - unfold pad. cbn [map app]. destruct (str_eqb_spec h (u "#")) as [->|]; [exfalso; apply (Hh (u "#") (or_introl eq_refl)); reflexivity|]. reflexivity.
  Qed.
  (** *** ODS *)
  Lemma ods_cells_plain header : (forall h, In h header -> h <> []) -> forall r, ods_cells empty_conf (map SStr header) r = Ok (combine (map SStr header) r) [].
  Proof.
    induction header as [|h hs IH]; intros H r; [reflexivity|]. destruct r as [|v r]; [reflexivity|]. cbn [map ods_cells combine].
    assert (Fh : falsy (SStr h) = false) by (specialize (H h (or_introl eq_refl)); destruct h; [congruence|reflexivity]). rewrite Fh. change (sc_hash empty_conf) with false. cbn [ret bind app]. rewrite (IH (fun x Hx => H x (or_intror Hx))). reflexivity.
  Qed.
  Lemma headed_combine header : forall r, headed (Some (map SStr header)) (combine (map SStr header) r) = map (fun hv => {| fc_key := fst hv; fc_heading := fst hv; fc_value := snd hv |}) (combine (map SStr header) r).
  Proof. induction header as [|h hs IH]; intros [|v r]; [reflexivity|reflexivity|reflexivity|]. cbn [map combine headed fst snd]. f_equal. apply IH. Qed.
  Lemma filled_short header r full : short r full -> filled (Some (map SStr header)) (combine (map SStr header) r) = filled (Some (map SStr header)) (combine (map SStr header) full).
  Proof.
    intros (n & <-). unfold filled. rewrite !headed_combine. revert r. induction header as [|h hs IH]; intros r; [reflexivity|]. destruct r as [|v r].
    - assert (G : forall (l : list scalar) m, filter (fun c => negb (blank (fc_value c))) (map (fun hv : scalar * scalar => {| fc_key := fst hv; fc_heading := fst hv; fc_value := snd hv |}) (combine l (repeat SNone m))) = []).
      { clear. induction l as [|x l IH]; intros [|m]; [reflexivity|reflexivity|reflexivity|]. cbn [repeat combine map filter fst snd fc_value blank negb]. apply IH. }
      symmetry. apply (G (SStr h :: map SStr hs) n).
    - cbn [app map combine filter]. destruct (negb _); rewrite IH; reflexivity.
  Qed.
  Lemma root_short header r full : short r full -> line_root P (combine (map SStr header) r) = line_root P (combine (map SStr header) full).
  Proof.
    intros (n & <-). unfold line_root. destruct (o_root_id P) as [|c rid]; [reflexivity|]. generalize (c :: rid). intros k. revert r. induction header as [|h hs IH]; intros r; [reflexivity|]. destruct r as [|v r].
    - cbn [map combine app]. unfold kget at 1. cbn [aget]. assert (G : forall (l : list scalar) m, match kget (SStr k) (combine l (repeat SNone m)) with Some v => v | None => SNone end = SNone).
      { clear. induction l as [|x l IH]; intros [|m]; [reflexivity|reflexivity|reflexivity|]. cbn [repeat combine]. unfold kget in *. cbn [aget]. destruct (py_eqb (SStr k) x); [reflexivity|apply IH]. }
      symmetry. apply (G (SStr h :: map SStr hs) n).
    - cbn [app map combine]. unfold kget in *. cbn [aget]. destruct (py_eqb (SStr k) (SStr h)); [reflexivity|apply IH].
  Qed.
  Lemma none_filled hs l : forallb (fun kv : scalar * scalar => is_none (snd kv)) l = true -> filled hs l = [].
  Proof.
    revert hs. unfold filled. induction l as [|[k v] l IH]; intros hs H; [destruct hs; reflexivity|]. cbn [forallb snd] in H. apply andb_prop in H as [Hv H]. destruct v; try discriminate Hv. cbn [headed].
    destruct hs as [[|h hs]|]; [reflexivity| |]; cbn [filter fc_value blank negb]; apply IH; exact H.
  Qed.
  Lemma ods_read n t g : good t -> grid_for t g -> exists x, read_sheet Ods rd0 (n, g, empty_conf) = Ok x [] /\ fits x /\ filled_rows P x = filled_rows P (ideal n t).
  Proof.
    intros (D & Hh & H0) (rs & -> & F). 
    assert (C : tb_header t = [] \/ tb_header t <> []) by (destruct (tb_header t); [left; reflexivity|right; discriminate]). destruct C as [C|C].
    - rewrite (H0 C) in F. inversion F; subst. rewrite C. eexists. split; [reflexivity|]. split; [intros l []|]. unfold filled_rows, ideal. rewrite C, (H0 C). reflexivity.
    - set (row_of := fun (hs : option (list scalar)) (line : list (scalar * scalar)) => match filled hs line with [] => [] | c => [{| fr_sheet := n; fr_root := line_root P line; fr_cells := c |}] end).
      assert (G : exists ls, ods_rows empty_conf (map SStr (tb_header t)) rs = Ok ls [] /\ Forall (fun l : line => (length l <= length (tb_header t))%nat) ls /\
        flat_map (row_of (Some (map SStr (tb_header t)))) ls = flat_map (row_of (Some (map SStr (tb_header t)))) (map (table_line write SNone (tb_header t)) (tb_rows t))).
      { clear -F D Hh. induction F as [|row r rows rs H F (ls & E1 & E2 & E3)]; [exists []; repeat split; constructor|]. cbn [ods_rows]. rewrite (ods_cells_plain _ (fun h Hx => proj1 (Hh h Hx))). cbn [bind]. rewrite E1. cbn [bind app ret]. cbv zeta. rewrite make_line_combine by exact D.
        cbn [map flat_map]. rewrite line_combine. pose proof (filled_short (tb_header t) r _ H) as Ef. pose proof (root_short (tb_header t) r _ H) as Er.
        destruct (forallb (fun kv => is_none (snd kv)) (combine (map SStr (tb_header t)) r)) eqn:Q.
        - exists ls. split; [reflexivity|]. split; [exact E2|]. rewrite (none_filled _ _ Q) in Ef. unfold row_of at 2. rewrite <- Ef. exact E3.
        - eexists. split; [reflexivity|]. split; [constructor; [rewrite combine_length, map_length; lia|exact E2]|]. cbn [flat_map]. f_equal; [|exact E3]. unfold row_of. rewrite Ef, Er. reflexivity. }
      destruct G as (ls & E1 & E2 & E3). exists {| si_name := n; si_headings := Some (map SStr (tb_header t)); si_lines := ls |}. split; [|split].
      + unfold read_sheet, headings_of, lines_in, ods_headings, ods_lines. rewrite rd0_conf. change (sc_ignore empty_conf) with false. change (hash_sheet empty_conf n) with false. change (rd_vertical rd0) with false. change (skip_of empty_conf) with 0%nat. change (conf_line empty_conf) with 0%nat. change (header_of empty_conf) with 1%nat. cbn [orb Nat.add nth_error skipn].
        rewrite E1. destruct (tb_header t) as [|h hs]; [congruence|]. reflexivity.
      + intros l Hl. rewrite Forall_forall in E2. rewrite map_length. apply E2. exact Hl.
      + unfold filled_rows, ideal. cbn [si_headings si_name si_lines]. destruct (tb_header t) as [|h hs]; [congruence|]. exact E3.
  Qed.
  Lemma ods_plain_conf t g : good t -> grid_for t g -> bind (get_conf Ods g) (fun l => parse_sheet_configuration l empty_conf) = Ok empty_conf [].
  Proof.
    intros (D & Hh & H0) (rs & -> & F). unfold get_conf, ods_conf. destruct (tb_header t) as [|h hs]; [reflexivity|]. cbn [map].
    destruct (str_eqb_spec h (u "#")) as [->|]; [exfalso; apply (Hh (u "#") (or_introl eq_refl)); reflexivity|reflexivity].
  Qed.
  (** *** The whole file *)
  Definition ideals (b : book) (T : list table) : list sheet_in := map (fun nt => ideal (fst nt) (snd nt)) (combine (map fst b) T).
  Theorem book_read f b T : f <> Csv -> NoDup (map fst b) -> Forall good T -> Forall2 grid_for T (map snd b) ->
    exists sheets, read_book f rd0 b = Ok sheets [] /\ Forall fits sheets /\ flat_map (filled_rows P) sheets = flat_map (filled_rows P) (ideals b T).
  Proof.
    intros Nf Nb FT F. unfold read_book. assert (Es : select rd0 (available f b) = map fst b) by (destruct f; [congruence|reflexivity|reflexivity]). rewrite Es.
    assert (Cf : forall n g t, In (n, g) b -> good t -> grid_for t g -> configure f b n = Ok (n, g, empty_conf) []).
    { intros n g t Hin Gt Hg. unfold configure. rewrite (In_sget n g b Nb Hin). assert (Q : bind (get_conf f g) (fun l => parse_sheet_configuration l empty_conf) = Ok empty_conf []) by (destruct f; [congruence|apply (xlsx_plain t); assumption|apply (ods_plain_conf t); assumption]).
      destruct (get_conf f g) as [l wl|]; [|discriminate Q]. cbn [bind] in *. destruct (parse_sheet_configuration l empty_conf) as [c wc|]; [|discriminate Q]. injection Q as -> Qw. cbn [bind ret]. rewrite app_nil_r, Qw. reflexivity. }
    assert (G : forall b' T', incl b' b -> Forall good T' -> Forall2 grid_for T' (map snd b') -> exists cs sheets, map_res (configure f b) (map fst b') = Ok cs [] /\ map_res (read_sheet f rd0) cs = Ok sheets [] /\
       Forall fits sheets /\ flat_map (filled_rows P) sheets = flat_map (filled_rows P) (ideals b' T')).
    { clear Es FT F. induction b' as [|[n g] b' IH]; intros T' Hin FT F; cbn [map snd fst] in *.
      - exists [], []. inversion F; subst. repeat split; constructor.
      - inversion F as [|t ? T0 ? Hg F0]; subst. inversion FT as [|? ? Gt FT0]; subst. destruct (IH T0 (fun x Hx => Hin x (or_intror Hx)) FT0 F0) as (cs & sheets & E1 & E2 & E3 & E4).
        assert (R1 : exists x, read_sheet f rd0 (n, g, empty_conf) = Ok x [] /\ fits x /\ filled_rows P x = filled_rows P (ideal n t)) by (destruct f; [congruence|apply xlsx_read; assumption|apply ods_read; assumption]).
        destruct R1 as (x & R1 & R2 & R3). exists ((n, g, empty_conf) :: cs), (x :: sheets). cbn [map_res]. rewrite (Cf n g t (Hin _ (or_introl eq_refl)) Gt Hg). cbn [bind]. rewrite E1. cbn [bind ret app]. split; [reflexivity|].
        rewrite R1. cbn [bind]. rewrite E2. cbn [bind ret app]. split; [reflexivity|]. split; [constructor; assumption|]. unfold ideals. cbn [map fst combine flat_map]. rewrite R3. f_equal. exact E4. }
    destruct (G b T (incl_refl _) FT F) as (cs & sheets & E1 & E2 & E3 & E4). rewrite E1. cbn [bind]. rewrite E2. cbn [app]. eauto.
  Qed.
  Lemma ideals_shown b T : length (map fst b) = length T -> Forall2 (table_shown write SNone) T (ideals b T) /\ Forall fits (ideals b T).
  Proof.
    unfold ideals. generalize (map fst b). intros ns. revert ns. induction T as [|t T IH]; intros [|n ns] H; try discriminate H; [split; constructor|]. cbn [combine map fst snd]. destruct (IH ns) as [I1 I2]; [injection H as H; exact H|]. split; constructor; auto.
    - split; [right; reflexivity|reflexivity].
    - intros l Hl. cbn [si_lines ideal] in Hl. apply in_map_iff in Hl as (row & <- & _). unfold table_line. rewrite !map_length. lia.
  Qed.
  Theorem ideal_decides b T sheets out : length (map fst b) = length T -> Forall fits sheets -> flat_map (filled_rows P) sheets = flat_map (filled_rows P) (ideals b T) ->
    unflatten P (ideals b T) = Ok out [] -> exists w, unflatten P sheets = Ok out w.
  Proof.
    intros Hl Hf He Hu. destruct (ideals_shown b T Hl) as [_ Hi]. pose proof (filled_decides P sheets (ideals b T) Hf Hi He) as Q. rewrite Hu in Q. destruct (unflatten P sheets) as [o w|]; [|discriminate Q]. injection Q as ->. eauto.
  Qed.
End Read.
