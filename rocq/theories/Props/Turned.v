(** C59: sheets read by columns (vertical orientation).  The turned sheet is
    defined in Spec/Turned.v, layouts and data in Spec/Grids.v. *)
From Coq Require Import String Lia.
From Verif.Base Require Import PyStr PyNum PyVal PyDict Outcome.
From Verif.Model Require Import Warn Lib Convert Input Readers SourceMap.
From Verif.Spec Require Import Columns Source Maps Grids Turned.
From Verif.Tests Require Import TestLib SourceMapRepo.
From Verif.Proofs Require Import TurnedFacts TurnedBooks.
Local Open Scope res_scope.

(** reading a sheet by columns is reading the turned sheet by rows: the headings
    and the lines are the same, the configuration row aside *)
Theorem C59_turned : forall f rd c n g L name, rd_vertical rd = true -> laid_out rd c L -> conf_rows c n -> readable_across f n g L ->
  laid_out (by_rows rd (ly_conf L)) empty_conf (across n L) /\
  headings_of f rd c name g = headings_of f (by_rows rd (ly_conf L)) empty_conf name (turned f n g) /\
  lines_in f rd c g = lines_in f (by_rows rd (ly_conf L)) empty_conf (turned f n g).
Proof. exact turned_read. Qed.
Print Assumptions C59_turned.
(** the cell in row j, column i of the turned sheet is that in row i, column j of the sheet *)
Theorem C59_cells : forall f n g i j, cell_at (turned f n g) j i = cell_at (rows_below f n g) i j.
Proof. exact turned_cells. Qed.
Print Assumptions C59_cells.

(** cell by cell: the headings are the cells of the heading column, the lines the
    columns after the heading columns *)
Theorem C59_columns : forall f rd c n g L name, rd_vertical rd = true -> laid_out rd c L -> conf_rows c n -> readable_across f n g L -> is_read f (ly_conf L) name ->
  (ly_heading L < ly_first L)%nat -> (ly_first L <= n + longest (skipn n g))%nat ->
  once_headings f (ly_conf L) (column_at (rows_below f n g) (ly_heading L - n)) -> hash_ok f (ly_conf L) (column_at (rows_below f n g) (ly_heading L - n)) ->
  (forall i, nth i (headings_of f rd c name g) SNone = cell_at (rows_below f n g) i (ly_heading L - n)) /\
  exists ls, lines_in f rd c g = Ok ls [] /\
    non_empty (map line_values ls) = non_empty (map (fun j => row_values f (ly_conf L) (column_at (rows_below f n g) (ly_heading L - n)) (column_at (rows_below f n g) j))
                                                    (seq (ly_first L - n) (n + longest (match f with Ods => skipn n g | _ => g end) - ly_first L))).
Proof. exact columns_read. Qed.
Print Assumptions C59_columns.

(** a workbook read by columns gives exactly the JSON, warnings or exception of
    the turned workbook read by rows *)
Theorem C59_json : forall O f rd b, rd_vertical rd = true -> turnable f rd b ->
  (s <- read_book f rd b ;; unflatten (oriented_opts true O) s) = (s <- read_book f (oriented false rd) (turned_book f b) ;; unflatten (oriented_opts false O) s).
Proof. exact turned_json. Qed.
Print Assumptions C59_json.

(** a location of the cell source map gives the row of the cell as a number (from
    the first row after the configuration row) and its column, as a number, up to
    the number of columns before the data *)
Theorem C59_locations : forall O F f rd b sheets w0 r m mh w, rd_vertical rd = true -> o_vertical O = true ->
  read_book f rd b = Ok sheets w0 -> fancy_unflatten O F sheets = Ok (r, Some m, mh) w ->
  (forall name g c n L, sheet_of f b name g c -> laid_out rd c L -> conf_rows c n -> readable_across f n g L /\ locatable f (turned f n g) (across n L)) ->
  forall p v ls l, leaf r p v -> In (place_text F p, ECells ls) m -> In l ls ->
  exists g c n L i j x, sheet_of f b (l_sheet l) g c /\ laid_out rd c L /\ conf_rows c n /\
    l_col l = N_str (N.of_nat i + 1)%N /\ (l_row l + N.of_nat (ly_first L) = N.of_nat (n + j) + 2)%N /\
    l_heading l = cell_at (rows_below f n g) i (ly_heading L - n) /\
    stored (o_conv O) (o_types O) (CV (cell_at (rows_below f n g) i j)) x /\ (x = v \/ cv_eqb v x = true).
Proof. exact located_across. Qed.
Print Assumptions C59_locations.

(** CSV files are read by rows whatever the orientation *)
Theorem C59_csv : forall rd v c g name, headings_of Csv rd c name g = headings_of Csv (oriented v rd) c name g /\ lines_in Csv rd c g = lines_in Csv (oriented v rd) c g.
Proof. exact csv_by_rows. Qed.
Print Assumptions C59_csv.

(** ** A sheet with a configuration row, a skipped column and a hash comment *)
Definition column_reader : reader := {| rd_base := empty_conf; rd_use := true; rd_vertical := true; rd_include := []; rd_exclude := [] |}.
Local Open Scope string_scope.
Definition across_grid : grid := map (map (fun s => SStr (u s)))
  [["#"; "skipRows 1"; "hashcomments"]; ["note"; "id"; "1"; "2"]; ["x"; "title"; "A"; "B"]; ["y"; "#note"; "p"; "q"]; ["z"; "v/w"; "5"]].
Definition ods_across : grid := map (map (fun s => SStr (u s))) [["id"; "1"; "2"]; ["title"; "A"]; ["v/w"; "5"; "6"]].
Local Close Scope string_scope.
Definition across_c : sheet_conf := {| sc_skip := Some 1%Z; sc_header := None; sc_ignore := false; sc_hash := true; sc_xmlroot := None; sc_rootlist := None; sc_idname := None |}.
Definition across_L : layout := {| ly_conf := across_c; ly_heading := 2; ly_first := 3 |}.
Example C59_meets :
  laid_out column_reader across_c across_L /\ conf_rows across_c 1 /\ readable_across Xlsx 1 across_grid across_L /\ is_read Xlsx (ly_conf across_L) (u "s") /\
  (ly_first across_L <= 1 + longest (skipn 1 across_grid))%nat /\
  once_headings Xlsx (ly_conf across_L) (column_at (rows_below Xlsx 1 across_grid) (ly_heading across_L - 1)) /\
  sheet_of Xlsx [(u "s", across_grid)] (u "s") across_grid across_c /\
  locatable Xlsx (turned Xlsx 1 across_grid) (across 1 across_L) /\
  non_empty (map (fun j => row_values Xlsx across_c (column_at (rows_below Xlsx 1 across_grid) 1) (column_at (rows_below Xlsx 1 across_grid) j)) (seq 2 2)) =
    [[(SStr (u "id"), SStr (u "1")); (SStr (u "title"), SStr (u "A")); (SStr (u "v/w"), SStr (u "5"))]; [(SStr (u "id"), SStr (u "2")); (SStr (u "title"), SStr (u "B"))]].
Proof.
  split. { split; [apply own_conf; [reflexivity|discriminate]|]. exists 1%nat, 1%nat, 1%nat. repeat split; try reflexivity. right. split; [discriminate|reflexivity]. }
  split. { right. split; [discriminate|reflexivity]. }
  split. { split; [discriminate|]. split; [|intros H; discriminate H]. eexists. split; [left; reflexivity|discriminate]. }
  split. { split; [reflexivity|]. right. right. cbn. discriminate. }
  split; [cbn; lia|].
  split. { repeat (constructor; [repeat (constructor; [intros H; discriminate H|]); constructor|]). constructor. }
  split; [split; vm_compute; reflexivity|].
  split.
  { split; [cbn; lia|]. split; [cbn; lia|]. split; [|split; [intros H; discriminate H|intros i row _ _; exact I]].
    repeat (constructor; [repeat (constructor; [reflexivity|]); constructor|]). constructor. }
  vm_compute. reflexivity.
Qed.
Example C59_json_meets : turnable Ods column_reader [(u "s", ods_across)] /\
  exists r, (s <- read_book Ods column_reader [(u "s", ods_across)] ;; unflatten (oriented_opts true (test_opts (u "id"))) s) = Ok r [] /\ length r = 2%nat.
Proof.
  split.
  - split; [discriminate|]. intros name g [[= <- <-]|[]]. split; [discriminate|]. split; [intros _ [H|[H|[H|[]]]]; discriminate H|].
    intros L HL. split; [discriminate|]. split; [eexists; split; [left; reflexivity|discriminate]|]. intros _. destruct HL as (Hf & n & s & h & Hn & Hs & Hh & H1 & H2).
    inversion Hf as [? Hc Ee|? Hc Ee|? Ee]; try (exfalso; apply Hc; reflexivity); try discriminate. rewrite <- Ee in *. cbn in Hs, Hh. destruct Hn as [[_ ->]|[Hn _]]; [|exfalso; apply Hn; reflexivity]. lia.
  - eexists. split; vm_compute; reflexivity.
Qed.
(** with skipped columns the reading of an ODS sheet goes wrong: the column after
    the first is the first line, whatever is skipped, and a short row moves the headings *)
Theorem C59_ods_skip_refuted : exists c g, lines_in Xlsx column_reader c g = Ok [[(SStr (u "id"), SStr (u "1")); (SNone, SNone); (SStr (u "b"), SStr (u "2"))]] [] /\
  lines_in Ods column_reader c g = Ok [[(SStr (u "id"), SStr (u "id")); (SStr (u "b"), SNone)]; [(SStr (u "id"), SStr (u "1")); (SStr (u "b"), SNone)]] [].
Proof.
  exists {| sc_skip := Some 1%Z; sc_header := None; sc_ignore := false; sc_hash := false; sc_xmlroot := None; sc_rootlist := None; sc_idname := None |},
    [[SStr (u "#"); SStr (u "skipRows 1")]; [SStr (u "x"); SStr (u "id"); SStr (u "1")]; [SStr (u "x")]; [SStr (u "x"); SStr (u "b"); SStr (u "2")]].
  split; vm_compute; reflexivity.
Qed.
Print Assumptions C59_ods_skip_refuted.
