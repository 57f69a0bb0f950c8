(** Sheets read by columns: a sheet turned over. *)
From Verif.Base Require Import PyStr PyNum PyVal PyDict Outcome.
From Verif.Model Require Import Warn Lib Convert Input Readers.
From Verif.Spec Require Import Grids.

(** the number of cells of the longest row *)
Definition longest (g : grid) : nat := fold_right (fun r w => Nat.max (length r) w) 0%nat g.
(** column [j] of some rows *)
Definition column_at (rows : grid) (j : nat) : list scalar := map (fun r => nth j r SNone) rows.

(** the rows of the sheet [g] after its first [n] rows; the rows of an ODS sheet
    without any cell are left out *)
Definition rows_below (f : fmt) (n : nat) (g : grid) : grid :=
  match f with Ods => non_empty (skipn n g) | _ => skipn n g end.
(** the sheet [g] without its first [n] rows turned over: its columns as rows.
    The columns of an XLSX sheet are those of the whole sheet, the [n] rows
    included. *)
Definition turned (f : fmt) (n : nat) (g : grid) : grid :=
  map (column_at (rows_below f n g)) (seq 0 (longest (match f with Ods => skipn n g | _ => g end))).
Definition turned_book (f : fmt) (b : book) : book := map (fun s => (fst s, turned f 0 (snd s))) b.

(** the number of configuration rows of a sheet whose configuration says [c] *)
Definition conf_rows (c : sheet_conf) (n : nat) : Prop := c = empty_conf /\ n = 0%nat \/ c <> empty_conf /\ n = 1%nat.
(** the same options, but to read by rows, with the configuration [e] and no other *)
Definition by_rows (rd : reader) (e : sheet_conf) : reader :=
  {| rd_base := e; rd_use := true; rd_vertical := false; rd_include := rd_include rd; rd_exclude := rd_exclude rd |}.
(** the layout of the turned sheet: the [n] configuration rows are gone *)
Definition across (n : nat) (L : layout) : layout :=
  {| ly_conf := ly_conf L; ly_heading := ly_heading L - n; ly_first := ly_first L - n |}.
(** what can be read by columns: there is a cell below the configuration row; an
    ODS sheet has its headings in the first column and data from the second on *)
Definition readable_across (f : fmt) (n : nat) (g : grid) (L : layout) : Prop :=
  f <> Csv /\ (exists r, In r (skipn n g) /\ r <> []) /\ (f = Ods -> ly_heading L = n /\ ly_first L = S n).

(** the options with another orientation *)
Definition oriented (v : bool) (rd : reader) : reader :=
  {| rd_base := rd_base rd; rd_use := rd_use rd; rd_vertical := v; rd_include := rd_include rd; rd_exclude := rd_exclude rd |}.
Definition oriented_opts (v : bool) (O : opts) : opts :=
  {| o_conv := o_conv O; o_types := o_types O; o_root_id := o_root_id O; o_id_name := o_id_name O; o_xml := o_xml O; o_vertical := v |}.
(** a workbook without configuration rows, all of whose sheets can be read by columns *)
Definition turnable (f : fmt) (rd : reader) (b : book) : Prop :=
  f <> Csv /\ forall name g, In (name, g) b ->
    cell_at g 0 0 <> SStr (u "#") /\ (f = Ods -> ~ In [] g) /\ forall L, laid_out rd empty_conf L -> readable_across f 0 g L.
