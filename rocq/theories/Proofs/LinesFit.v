(** No line that is read has more cells than the sheet has headings. *)
From Coq Require Import Lia.
From Verif.Base Require Import PyStr PyNum PyVal PyDict Outcome.
From Verif.Model Require Import Warn Lib Convert Input Flatten Readers Titles TitleLines Schema Commands.
From Verif.Spec Require Import Commands Conversion Plain Ids Odds Outcomes.
From Verif.Proofs Require Import ReaderFacts CommandRun CommandTotal.
Local Open Scope res_scope.

Definition fits (s : sheet_in) : Prop := forall hs line, si_headings s = Some hs -> In line (si_lines s) -> length line <= length hs.
Lemma csv_cells_length hs : forall row, length (csv_cells hs row) = length hs.
Proof. induction hs as [|h hs IH]; intros [|v row]; cbn [csv_cells length]; [reflexivity|reflexivity| |]; rewrite IH; reflexivity. Qed.
Lemma ods_cells_length e hs : forall row cells w, ods_cells e hs row = Ok cells w -> length cells <= length hs.
Proof.
  induction hs as [|h hs IH]; intros row cells w H; cbn [ods_cells] in H; [injection H as <- _; cbn; lia|]. destruct row as [|v row]; [injection H as <- _; cbn; lia|].
  apply bind_ok in H as (v' & w1 & w2 & _ & H & _). apply bind_ok in H as (r & w3 & w4 & Hr & H & _). injection H as <- _. apply IH in Hr. cbn [length]. lia.
Qed.
Lemma ods_rows_length e hs rows : forall ls w, ods_rows e hs rows = Ok ls w -> forall l, In l ls -> length l <= length hs.
Proof.
  induction rows as [|row rows IH]; intros ls w H; cbn [ods_rows] in H; [injection H as <- _; intros l []|].
  apply bind_ok in H as (cells & w1 & w2 & Hc & H & _). apply bind_ok in H as (r & w3 & w4 & Hr & H & _). cbv zeta in H. injection H as <- _.
  assert (Hl : length (make_line cells) <= length hs) by (etransitivity; [apply make_line_length|eapply ods_cells_length; exact Hc]).
  destruct (forallb _ _); [exact (IH _ _ Hr)|]. intros l [<-|Hi]; [exact Hl|exact (IH _ _ Hr l Hi)].
Qed.
Lemma xlsx_cells_length e hs row : length (xlsx_cells e hs row) <= length hs.
Proof. unfold xlsx_cells. rewrite map_length, combine_length. lia. Qed.
Lemma first_skipn {A} n (g : list A) hs rest : skipn n g = hs :: rest -> nth_error g n = Some hs.
Proof. revert g. induction n as [|n IH]; intros [|x g] H; try discriminate; [injection H as -> _; reflexivity|exact (IH g H)]. Qed.
Lemma read_sheet_fits f rd x s w : read_sheet f rd x = Ok s w -> fits s.
Proof.
  destruct x as [[name g] c]. unfold read_sheet, fits. intros H hs line Eh Hl. destruct (headings_of f rd c name g) as [|h0 hs0] eqn:Eg; [injection H as <- _; destruct Hl|].
  apply bind_ok in H as (ls & w1 & w2 & Hls & H & _). injection H as <- _. cbn [si_headings si_lines] in *. injection Eh as <-. destruct f; cbn [headings_of lines_in] in *.
  - unfold csv_headings in Eg. unfold csv_lines in Hls. destruct (sc_ignore (conf_of rd c)); [discriminate|]. destruct (length g <? conf_line c + skip_of (conf_of rd c)); [discriminate|].
    destruct (skipn (conf_line c + skip_of (conf_of rd c)) g) as [|hs rest] eqn:Es.
    { destruct (header_of (conf_of rd c) - 1 =? 0); [|discriminate]. injection Hls as <- _. destruct Hl. }
    apply first_skipn in Es. rewrite Nat.add_comm in Es. rewrite Es in Eg. subst hs. destruct (length rest <? _); [discriminate|]. injection Hls as <- _.
    apply in_map_iff in Hl as (row & <- & _). etransitivity; [apply make_line_length|]. pose proof (csv_cells_length (h0 :: hs0) row) as X. exact (Nat.eq_le_incl _ _ X).
  - injection Hls as <- _. unfold xlsx_headings in Eg. unfold xlsx_lines in Hl. destruct (sc_ignore (conf_of rd c) || hash_sheet (conf_of rd c) name); [discriminate|].
    destruct (rd_vertical rd); rewrite Eg in Hl; apply in_map_iff in Hl as (row & <- & _); (etransitivity; [apply make_line_length|apply xlsx_cells_length]).
  - unfold ods_headings in Eg. unfold ods_lines in Hls. destruct (sc_ignore (conf_of rd c) || hash_sheet (conf_of rd c) name); [discriminate|].
    destruct (rd_vertical rd).
    + cbv zeta in Hls. rewrite Eg in Hls. destruct (skipn (conf_line c) g) as [|r0 g'] eqn:Es; [discriminate|]. eapply ods_rows_length; [exact Hls|exact Hl].
    + destruct (nth_error g _) as [r|]; [|discriminate]. subst r. eapply ods_rows_length; [exact Hls|exact Hl].
Qed.
Lemma convert_line_length lw T l : length (convert_line lw T l) <= length l.
Proof. unfold convert_line. destruct (tn_data _); [reflexivity|]. etransitivity; [apply make_line_length|]. rewrite map_length. reflexivity. Qed.
Theorem sheets_read_fit Wd f file rd titles schema sheets : sheets_read Wd f file rd titles schema sheets -> forall s, In s sheets -> fits s.
Proof.
  intros (b & raw & w1 & w2 & _ & Hr & Ht). unfold read_book in Hr. apply bind_ok in Hr as (cs & w3 & w4 & _ & Hs & _).
  assert (R : forall s, In s raw -> fits s).
  { clear Ht. apply map_res_In in Hs. induction Hs as [|x s cs raw (w' & Hx) _ IH]; [intros s []|]. intros s' [<-|Hin]; [eapply read_sheet_fits; exact Hx|exact (IH s' Hin)]. }
  destruct titles; [|subst raw; exact R]. unfold convert_sheets in Ht. destruct (option_map sp_table schema) as [T|].
  - injection Ht as <- _. intros s Hin. apply in_map_iff in Hin as (s0 & <- & Hin). intros hs line Eh Hl. cbn [si_headings si_lines] in *. apply in_map_iff in Hl as (l0 & <- & Hl).
    etransitivity; [apply convert_line_length|]. exact (R s0 Hin hs l0 Eh Hl).
  - destruct raw; [|discriminate]. injection Ht as <- _. intros s [].
Qed.

Lemma run_fits Wd U sheets O : can_run Wd U sheets O -> forall s, In s sheets -> fits s.
Proof. intros (fn & f & _ & _ & _ & _ & _ & _ & (schema & _ & Hs & _)). exact (sheets_read_fit _ _ _ _ _ _ _ Hs). Qed.
Theorem plain_succeeds Wd U sheets O : can_run Wd U sheets O -> u_schema U = [] -> (forall s, In s sheets -> plain_cells O s) -> exists w, unflatten_file Wd U = Ok tt w.
Proof.
  intros H Hs Hp. apply (no_schema_succeeds Wd U sheets O H Hs). intros s Hin line Hl. split; [|intros h v Hc; exact (Hp s Hin line h v Hl Hc)].
  intros hs Eh. exact (run_fits Wd U sheets O H s Hin hs line Eh Hl).
Qed.
Theorem tame_outcome Wd U sheets O : can_run Wd U sheets O -> known_types (o_types O) -> ids_single (o_types O) (o_id_name O) -> (forall s, In s sheets -> tame_cells O s) ->
  (exists w, unflatten_file Wd U = Ok tt w) \/
  (exists till w h v, unflatten_file Wd U = Raise (EFlattenToolValueError till) w /\ silent w /\ has_cell sheets h v /\ at_odds (o_types O) (path_items (o_conv O) h) till) \/
  (exists r w v, unflatten O sheets = Ok r w /\ inside (VLeaf v) (VList r) /\ finite_cell v = false).
Proof.
  intros H Hk Hi Ht. apply (schema_outcome Wd U sheets O H Hk Hi). intros s Hin line Hl. split; [|intros h v Hc Hb; exact (Ht s Hin line h v Hl Hc Hb)].
  intros hs Eh. exact (run_fits Wd U sheets O H s Hin hs line Eh Hl).
Qed.
