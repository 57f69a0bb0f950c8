(** C13, C20, C21: reading CSV, XLSX and ODS sheets.  Grids, configuration and
    what counts as data are defined in Spec/Grids.v, configuration commands in
    Spec/SheetConf.v. *)
From Coq Require Import String Sorted Permutation Lia.
From Verif.Base Require Import PyStr PyNum PyVal PyDict Outcome.
From Verif.Model Require Import Warn Lib Convert Input Readers SourceMap.
From Verif.Spec Require Import Columns Source Maps SheetConf Filled Grids.
From Verif.Tests Require Import TestLib SourceMapRepo.
From Verif.Proofs Require Import ReaderFacts LocationFacts FormatFacts.

(** ** Examples *)
Definition plain_reader : reader := {| rd_base := empty_conf; rd_use := true; rd_vertical := false; rd_include := []; rd_exclude := [] |}.
Definition texts (l : list (list string)) : grid := map (map (fun s => SStr (u s))) l.
Local Open Scope string_scope.
Definition conf_grid : grid :=
  texts [["#"; "skipRows 1"; "headerRows 2"]; ["a note"]; ["id"; "a/b"; "x"]; ["the id"]; ["1"; "p"; "q"]; ["2"; "r"; "s"]].
Local Close Scope string_scope.

(** ** C20 *)
(** the heading row is the row after the configuration row and the skipped rows;
    the lines are the rows after the header rows: the values under the headings,
    in order (rows without any value aside) *)
Theorem C20_rows : forall f rd c g name L, rd_vertical rd = false -> laid_out rd c L -> is_read f (ly_conf L) name ->
  (ly_heading L < ly_first L)%nat -> (ly_first L <= length g)%nat ->
  once_headings f (ly_conf L) (row_at g (ly_heading L)) -> hash_ok f (ly_conf L) (row_at g (ly_heading L)) ->
  (forall j, nth j (headings_of f rd c name g) SNone = cell_at g (ly_heading L) j) /\
  exists ls, lines_in f rd c g = Ok ls [] /\
    non_empty (map line_values ls) = non_empty (map (row_values f (ly_conf L) (row_at g (ly_heading L))) (skipn (ly_first L) g)).
Proof. exact rows_read. Qed.
Print Assumptions C20_rows.

(** the configuration is that of the commands in a first row starting with "#" *)
Theorem C20_configuration : forall f g, (f = Csv -> g <> []) ->
  (forall j, match cell_at g 0 (S j) with SStr _ => True | SNone => f = Xlsx \/ (length (row_at g 0) <= S j)%nat | _ => False end) ->
  exists c, bind (get_conf f g) (fun l => parse_sheet_configuration l empty_conf) = Ok c [] /\
    (cell_at g 0 0 = SStr (u "#") -> conf_means (commands_in (tl (row_at g 0))) c) /\ (cell_at g 0 0 <> SStr (u "#") -> c = empty_conf).
Proof. exact configuration_read. Qed.
Print Assumptions C20_configuration.

(** ignored sheets and hash comment sheets give no lines *)
Theorem C20_ignored : forall f rd b sheets w s, read_book f rd b = Ok sheets w -> In s sheets ->
  exists g c L, sheet_of f b (si_name s) g c /\ laid_out rd c L /\ (~ is_read f (ly_conf L) (si_name s) -> si_lines s = []).
Proof. exact not_read. Qed.
Print Assumptions C20_ignored.
Example C20_ignored_meets : exists sheets w c L, read_book Ods plain_reader [(u "s", [[SStr (u "#"); SStr (u "ignore")]; [SStr (u "id")]; [SStr (u "1")]])] = Ok sheets w /\ length sheets = 1%nat /\
  laid_out plain_reader c L /\ sheet_of Ods [(u "s", [[SStr (u "#"); SStr (u "ignore")]; [SStr (u "id")]; [SStr (u "1")]])] (u "s") [[SStr (u "#"); SStr (u "ignore")]; [SStr (u "id")]; [SStr (u "1")]] c /\
  ~ is_read Ods (ly_conf L) (u "s").
Proof.
  set (c := {| sc_skip := None; sc_header := None; sc_ignore := true; sc_hash := false; sc_xmlroot := None; sc_rootlist := None; sc_idname := None |}).
  do 2 eexists. exists c, {| ly_conf := c; ly_heading := 1; ly_first := 2 |}. split; [vm_compute; reflexivity|]. split; [reflexivity|]. split.
  - split; [apply own_conf; [reflexivity|discriminate]|]. exists 1%nat, 0%nat, 1%nat. repeat split; try reflexivity. right. split; [discriminate|reflexivity].
  - split; [split; vm_compute; reflexivity|]. intros [H _]. discriminate H.
Qed.

(** the same cells in two formats give the same JSON (or exception) and warnings *)
Theorem C20_same_in_all_formats : forall O f f' rd b b' s s' w w', rd_vertical rd = false -> same_books O f f' rd b b' ->
  read_book f rd b = Ok s w -> read_book f' rd b' = Ok s' w' ->
  seen_as but_headings (unflatten O s) = seen_as but_headings (unflatten O s').
Proof. exact same_formats. Qed.
Print Assumptions C20_same_in_all_formats.

(** all of this is met by a sheet with a configuration row, a skipped row and two header rows *)
Definition conf_c : sheet_conf := {| sc_skip := Some 1%Z; sc_header := Some 2%Z; sc_ignore := false; sc_hash := false; sc_xmlroot := None; sc_rootlist := None; sc_idname := None |}.
Definition conf_L : layout := {| ly_conf := conf_c; ly_heading := 2; ly_first := 4 |}.
Lemma conf_laid_out : laid_out plain_reader conf_c conf_L.
Proof.
  split; [apply own_conf; [reflexivity|discriminate]|]. exists 1%nat, 1%nat, 2%nat. repeat split; try reflexivity. right. split; [discriminate|reflexivity].
Qed.
Lemma conf_once f : once_headings f conf_c (row_at conf_grid 2).
Proof. repeat (constructor; [repeat (constructor; [intros H; discriminate H|]); constructor|]). constructor. Qed.
Example C20_rows_meets : forall f, is_read f conf_c (u "s") /\ once_headings f (ly_conf conf_L) (row_at conf_grid (ly_heading conf_L)) /\
  hash_ok f (ly_conf conf_L) (row_at conf_grid (ly_heading conf_L)) /\ (ly_first conf_L <= length conf_grid)%nat /\
  length (non_empty (map (row_values f conf_c (row_at conf_grid 2)) (skipn 4 conf_grid))) = 2%nat.
Proof.
  intros f. split; [split; [reflexivity|right; left; reflexivity]|]. split; [apply conf_once|]. split; [intros _ H; discriminate H|]. split; [cbn; lia|]. destruct f; reflexivity.
Qed.
(** the same sheet as an ODS file: no trailing blanks, None for the others *)
Definition ods_grid : grid :=
  [[SStr (u "#"); SStr (u "skipRows 1"); SStr (u "headerRows 2")]; [SStr (u "a note")]; [SStr (u "id"); SStr (u "a/b"); SStr (u "x")]; [SStr (u "the id")];
   [SStr (u "1"); SStr (u "p"); SStr (u "q")]; [SStr (u "2"); SNone; SStr (u "s")]; []].
Definition xlsx_grid : grid :=
  map (pad 4) [[SStr (u "#"); SStr (u "skipRows 1"); SStr (u "headerRows 2")]; [SStr (u "a note")]; [SStr (u "id"); SStr (u "a/b"); SStr (u "x")]; [SStr (u "the id")];
   [SStr (u "1"); SStr (u "p"); SStr (u "q")]; [SStr (u "2"); SStr []; SStr (u "s")]].
Lemma ods_tidy : tidy conf_c ods_grid conf_L [u "id"; u "a/b"; u "x"].
Proof.
  split; [repeat constructor; cbn; intuition discriminate|]. split; [intros s [<-|[<-|[<-|[]]]]; (split; [discriminate|intros H; discriminate H])|]. split.
  - intros [|[|[|j]]] Hj; try reflexivity. cbn in Hj. lia.
  - intros i j Hj Hi. cbn in Hj. unfold conf_L in Hi; simpl in Hi. destruct j as [|[|[|j]]]; [lia|lia|lia|]. destruct i as [|[|[|[|[|[|[|i]]]]]]]; try lia; unfold cell_at; cbn; destruct j; reflexivity || (destruct i; reflexivity).
Qed.
Lemma laid_out_unique rd c L L' : laid_out rd c L -> laid_out rd c L' -> L = L'.
Proof.
  intros H H'. pose proof (laid_out_conf _ _ _ H) as E1. pose proof (laid_out_conf _ _ _ H') as E2. destruct (laid_out_rows _ _ _ H) as [A1 A2]. destruct (laid_out_rows _ _ _ H') as [B1 B2].
  destruct L as [x1 x2 x3], L' as [y1 y2 y3]. simpl in *. subst. reflexivity.
Qed.
Example C20_formats_meets : same_books (test_opts (u "id")) Ods Xlsx plain_reader [(u "s", ods_grid)] [(u "s", xlsx_grid)] /\
  (exists s w, read_book Ods plain_reader [(u "s", ods_grid)] = Ok s w) /\
  exists s w r, read_book Xlsx plain_reader [(u "s", xlsx_grid)] = Ok s w /\ unflatten (test_opts (u "id")) s = Ok r [] /\ length r = 2%nat.
Proof.
  split; [|split; [do 2 eexists; vm_compute; reflexivity|do 3 eexists; split; [vm_compute; reflexivity|split; [vm_compute; reflexivity|reflexivity]]]].
  split; [reflexivity|]. intros name g g' H H'. apply sget_In in H as [[= <- <-]|[]]. apply sget_In in H' as [[= <-]|[]]. split.
  - intros i j. unfold cell_at. destruct i as [|[|[|[|[|[|[|i]]]]]]]; try (cbn; destruct j as [|[|[|[|[|j]]]]]; cbn; auto; fail). right. destruct i; split; cbn; try reflexivity; destruct j; reflexivity.
  - intros c L HL [_ Hc]. assert (Ec : c = conf_c) by (vm_compute in Hc; injection Hc as <-; reflexivity). subst c. pose proof (laid_out_unique _ _ _ _ HL conf_laid_out) as ->.
    split; [cbn; lia|]. split; [intros Hx; discriminate Hx|]. exists [u "id"; u "a/b"; u "x"]. split; [exact ods_tidy|]. right. right. exists 0%nat. split; [reflexivity|].
    intros i j Hi Hb. unfold conf_L in Hi; simpl in Hi. destruct i as [|[|[|[|[|[|[|i]]]]]]]; try lia; try reflexivity; unfold cell_at in *; cbn in *; try (destruct j; discriminate Hb); destruct i; cbn in *; try discriminate; destruct j; discriminate Hb.
Qed.

(** not the same in all formats: CSV files know no hash comments, and have data
    under blank headings *)
Definition hash_c : sheet_conf := {| sc_skip := None; sc_header := None; sc_ignore := false; sc_hash := true; sc_xmlroot := None; sc_rootlist := None; sc_idname := None |}.
Theorem C20_csv_columns_refuted :
  (exists g, lines_in Csv plain_reader empty_conf g = Ok [[(SStr (u "id"), SStr (u "1")); (SStr [], SStr (u "v"))]] [] /\ lines_in Ods plain_reader empty_conf g = Ok [[(SStr (u "id"), SStr (u "1")); (SStr [], SNone)]] []) /\
  (exists g, lines_in Csv plain_reader hash_c g = Ok [[(SStr (u "id"), SStr (u "1")); (SStr (u "#x"), SStr (u "v"))]] [] /\ lines_in Ods plain_reader hash_c g = Ok [[(SStr (u "id"), SStr (u "1")); (SStr (u "#x"), SNone)]] []).
Proof.
  split.
  - exists [[SStr (u "id"); SStr []]; [SStr (u "1"); SStr (u "v")]]. split; vm_compute; reflexivity.
  - exists [[SStr (u "#"); SStr (u "hashcomments")]; [SStr (u "id"); SStr (u "#x")]; [SStr (u "1"); SStr (u "v")]]. split; vm_compute; reflexivity.
Qed.
Print Assumptions C20_csv_columns_refuted.
(** a CSV file with fewer header rows than configured cannot be read, other formats can *)
Theorem C20_csv_short_refuted : exists c g, lines_in Csv plain_reader c g = Raise ERuntimeError [] /\ lines_in Xlsx plain_reader c g = Ok [] [] /\ lines_in Ods plain_reader c g = Ok [] [].
Proof. exists conf_c, (firstn 3 conf_grid). repeat split; vm_compute; reflexivity. Qed.
Print Assumptions C20_csv_short_refuted.
(** a gap in the configuration row of an ODS sheet is an error *)
Theorem C20_ods_gap_refuted : exists g, bind (get_conf Ods g) (fun l => parse_sheet_configuration l empty_conf) = Raise EAttributeError [] /\
  bind (get_conf Xlsx g) (fun l => parse_sheet_configuration l empty_conf) = Ok (set_skip 1 empty_conf) [].
Proof. exists [[SStr (u "#"); SNone; SStr (u "skipRows 1")]]. split; vm_compute; reflexivity. Qed.
Print Assumptions C20_ods_gap_refuted.
(** a repeated heading over a short row: XLSX and CSV use the last column (empty), ODS the last filled one *)
Theorem C20_repeated_refuted : exists g, lines_in Xlsx plain_reader empty_conf g = Ok [[(SStr (u "a"), SNone)]] [] /\ lines_in Ods plain_reader empty_conf g = Ok [[(SStr (u "a"), SStr (u "1"))]] [].
Proof. exists [[SStr (u "a"); SStr (u "a")]; [SStr (u "1")]]. split; vm_compute; reflexivity. Qed.
Print Assumptions C20_repeated_refuted.
(** read vertically, ODS sheets do not skip columns: the heading column is data too *)
Theorem C20_ods_vertical_refuted : exists rd c g, rd_vertical rd = true /\
  lines_in Xlsx rd c g = Ok [[(SStr (u "id"), SStr (u "1"))]] [] /\
  lines_in Ods rd c g = Ok [[(SStr (u "id"), SStr (u "id"))]; [(SStr (u "id"), SStr (u "1"))]] [].
Proof.
  exists {| rd_base := set_skip 1 empty_conf; rd_use := true; rd_vertical := true; rd_include := []; rd_exclude := [] |}, empty_conf, [[SStr (u "note"); SStr (u "id"); SStr (u "1")]].
  repeat split; vm_compute; reflexivity.
Qed.
Print Assumptions C20_ods_vertical_refuted.

(** ** C21 *)
Theorem C21_selected : forall f rd b sheets w, NoDup (map fst b) -> read_book f rd b = Ok sheets w ->
  exists l, sheet_order f (map fst b) l /\ map si_name sheets = filter (wanted rd) l.
Proof. exact sheets_selected. Qed.
Print Assumptions C21_selected.
Theorem C21_csv_files : forall listing, StronglySorted not_after (csv_names listing) /\ forall n, In n (csv_names listing) <-> In (n ++ u ".csv") listing.
Proof. exact csv_files. Qed.
Print Assumptions C21_csv_files.
Example C21_meets : exists sheets w,
  read_book Csv {| rd_base := empty_conf; rd_use := true; rd_vertical := false; rd_include := [u "b"; u "a"; u "c"]; rd_exclude := [u "c"; u "z"] |}
            [(u "d", conf_grid); (u "b", conf_grid); (u "c", conf_grid); (u "a", conf_grid)] = Ok sheets w /\ map si_name sheets = [u "a"; u "b"].
Proof. do 2 eexists. split; vm_compute; reflexivity. Qed.

(** ** C13 *)
(** in sheets with different headings, without empty lines: a location of the
    cell source map gives the column of the cell, its heading, and its row up to
    the number of rows above the data *)
Theorem C13_locations : forall O F f rd b sheets w0 r m mh w, rd_vertical rd = false -> o_vertical O = false ->
  read_book f rd b = Ok sheets w0 -> fancy_unflatten O F sheets = Ok (r, Some m, mh) w ->
  (forall name g c L, sheet_of f b name g c -> laid_out rd c L -> locatable f g L) ->
  forall p v ls l, leaf r p v -> In (place_text F p, ECells ls) m -> In l ls ->
  exists g c L i j x, sheet_of f b (l_sheet l) g c /\ laid_out rd c L /\
    (l_row l + N.of_nat (ly_first L) = N.of_nat i + 2)%N /\ letters (N.of_nat j + 1)%N (l_col l) /\
    l_heading l = cell_at g (ly_heading L) j /\
    stored (o_conv O) (o_types O) (CV (cell_at g i j)) x /\ (x = v \/ cv_eqb v x = true).
Proof. exact located. Qed.
Print Assumptions C13_locations.
(** without configuration, that is the cell itself: row [l_row l], counted from 1 *)
Theorem C13_plain : forall O F f rd b sheets w0 r m mh w, rd_vertical rd = false -> o_vertical O = false -> rd_base rd = empty_conf ->
  read_book f rd b = Ok sheets w0 -> fancy_unflatten O F sheets = Ok (r, Some m, mh) w ->
  (forall name g c L, sheet_of f b name g c -> laid_out rd c L -> c = empty_conf /\ locatable f g L) ->
  forall p v ls l, leaf r p v -> In (place_text F p, ECells ls) m -> In l ls ->
  exists g i j x, sget (l_sheet l) b = Some g /\ l_row l = (N.of_nat i + 1)%N /\ letters (N.of_nat j + 1)%N (l_col l) /\
    l_heading l = cell_at g 0 j /\ stored (o_conv O) (o_types O) (CV (cell_at g i j)) x /\ (x = v \/ cv_eqb v x = true).
Proof.
  intros O F f rd b sheets w0 r m mh w Hv Ho Hb H1 H2 H3 p v ls l A B C.
  destruct (located O F f rd b sheets w0 r m mh w Hv Ho H1 H2 (fun n g c L X Y => proj2 (H3 n g c L X Y)) p v ls l A B C) as (g & c & L & i & j & x & X1 & X2 & X3 & X4 & X5 & X6).
  destruct (H3 _ _ _ _ X1 X2) as [-> _]. assert (Ec : ly_conf L = empty_conf).
  { rewrite <- (laid_out_conf _ _ _ X2). unfold conf_of. destruct (rd_use rd); [exact Hb|reflexivity]. }
  destruct (laid_out_rows _ _ _ X2) as [Y1 Y2]. rewrite Ec in Y1, Y2. cbn in Y1, Y2.
  exists g, i, j, x. split; [exact (proj1 X1)|]. split; [lia|]. split; [exact X4|]. split; [rewrite X5; rewrite <- Y1; reflexivity|exact X6].
Qed.
Print Assumptions C13_plain.
Lemma conf_locatable f : locatable f conf_grid conf_L.
Proof.
  split; [cbn; lia|]. split; [cbn; lia|]. split; [repeat (constructor; [repeat constructor|]); constructor|]. split; [intros _ H; discriminate H|].
  intros i row Hi Hrow. unfold conf_L in Hi; simpl in Hi. destruct i as [|[|[|[|[|[|i]]]]]]; try lia; cbn in Hrow; [| |destruct i; discriminate]; injection Hrow as <-; destruct f; try exact I; discriminate.
Qed.
Example C13_meets : forall f, (forall name g c L, sheet_of f [(u "s", conf_grid)] name g c -> laid_out plain_reader c L -> locatable f g L) /\
  exists sheets w0 r m mh w, read_book f plain_reader [(u "s", conf_grid)] = Ok sheets w0 /\ fancy_unflatten (test_opts []) test_fancy sheets = Ok (r, Some m, mh) w /\ length m = 10%nat.
Proof.
  intros f. split.
  - intros name g c L [H Hc] HL. apply sget_In in H as [[= <- <-]|[]]. assert (Ec : c = conf_c) by (destruct f; vm_compute in Hc; injection Hc as <-; reflexivity). subst c.
    pose proof (laid_out_unique _ _ _ _ HL conf_laid_out) as ->. apply conf_locatable.
  - do 6 eexists. destruct f; (split; [vm_compute; reflexivity|split; [vm_compute; reflexivity|reflexivity]]).
Qed.

(** *** where it does not hold *)
Definition source_of (f : fmt) (rd : reader) (g : grid) (k : str) : option (list loc) :=
  match read_book f rd [(u "s", g)] with
  | Ok sheets _ => match fancy_unflatten (test_opts []) test_fancy sheets with
                   | Ok (_, Some m, _) _ => match sget k m with Some (ECells ls) => Some ls | _ => None end
                   | _ => None
                   end
  | Raise _ _ => None
  end.
(** with skipped rows the row number is that of another cell: "1" is in A5, not in A2 *)
Theorem C13_skipped_rows_refuted : source_of Xlsx plain_reader conf_grid (u "main/0/id") = Some [{| l_sheet := u "s"; l_col := u "A"; l_row := 2; l_heading := SStr (u "id") |}] /\
  cell_at conf_grid 4 0 = SStr (u "1") /\ cell_at conf_grid 1 0 = SStr (u "a note").
Proof. split; [vm_compute; reflexivity|split; reflexivity]. Qed.
Print Assumptions C13_skipped_rows_refuted.
(** after a repeated heading columns and headings are shifted: "y" is in C2 under "c" *)
Theorem C13_repeated_heading_refuted : exists g, source_of Xlsx plain_reader g (u "main/0/c") = Some [{| l_sheet := u "s"; l_col := u "B"; l_row := 2; l_heading := SStr (u "a") |}] /\
  cell_at g 1 2 = SStr (u "y") /\ cell_at g 0 2 = SStr (u "c").
Proof. exists [[SStr (u "a"); SStr (u "a"); SStr (u "c")]; [SStr (u "w"); SStr (u "x"); SStr (u "y")]]. split; [vm_compute; reflexivity|split; reflexivity]. Qed.
Print Assumptions C13_repeated_heading_refuted.
(** an empty line of a CSV file or an empty row of an ODS sheet shifts the row numbers below *)
Theorem C13_empty_row_refuted : exists g, (forall f, f = Csv \/ f = Ods -> source_of f plain_reader g (u "main/0/a") = Some [{| l_sheet := u "s"; l_col := u "A"; l_row := 2; l_heading := SStr (u "a") |}]) /\
  cell_at g 2 0 = SStr (u "x") /\ cell_at g 1 0 = SNone.
Proof. exists [[SStr (u "a")]; []; [SStr (u "x")]]. split; [intros f [-> | ->]; vm_compute; reflexivity|split; reflexivity]. Qed.
Print Assumptions C13_empty_row_refuted.
