(** Headings that occur more than once in a sheet: only the last column of
    such a heading is read, the others are reported. *)
From Verif.Base Require Import PyStr PyNum PyVal PyDict Outcome.
From Verif.Model Require Import Warn Lib Convert Input Readers.
From Verif.Spec Require Import Columns Grids.

(** [h] is the heading of column [j] (from 0) *)
Definition heading_at (hs : list scalar) (j : nat) (h : scalar) : Prop := nth_error hs j = Some h.
(** [h] is in column [j] and in no column after it *)
Definition last_at (hs : list scalar) (j : nat) (h : scalar) : Prop :=
  heading_at hs j h /\ forall k h', (j < k)%nat -> heading_at hs k h' -> py_eqb h h' = false.
(** column [j] is followed by another column of the same heading *)
Definition shadowed (hs : list scalar) (j : nat) : Prop :=
  exists k h h', (j < k)%nat /\ heading_at hs j h /\ heading_at hs k h' /\ py_eqb h h' = true.

(** the names of the columns of the headings equal to [h] among [hs], the first
    of which is column number [n] *)
Inductive columns_of (h : scalar) : N -> list scalar -> list str -> Prop :=
| co_nil n : columns_of h n [] []
| co_same n x hs c cs : py_eqb h x = true -> letters n c -> columns_of h (n + 1) hs cs -> columns_of h n (x :: hs) (c :: cs)
| co_other n x hs cs : py_eqb h x = false -> columns_of h (n + 1) hs cs -> columns_of h n (x :: hs) cs.

(** what is reported about the headings [after], which come after the headings
    [before]: each heading that does not come again but has come before, with
    the columns it had before *)
Inductive reported (sheet : str) : list scalar -> list scalar -> list warning -> Prop :=
| rp_end before : reported sheet before [] []
| rp_warn before h after cols w : h <> SNone -> existsb (py_eqb h) after = false -> columns_of h 1 before cols -> cols <> [] ->
    reported sheet (before ++ [h]) after w -> reported sheet before (h :: after) (WDuplicateHeading h cols sheet :: w)
| rp_skip before h after w : h = SNone \/ existsb (py_eqb h) after = true \/ existsb (py_eqb h) before = false ->
    reported sheet (before ++ [h]) after w -> reported sheet before (h :: after) w.
Inductive all_reported : list sheet_in -> list warning -> Prop :=
| ar_nil : all_reported [] []
| ar_none s l w : si_headings s = None -> all_reported l w -> all_reported (s :: l) w
| ar_some s hs l w w' : si_headings s = Some hs -> reported (si_name s) [] hs w -> all_reported l w' -> all_reported (s :: l) (w ++ w').
(** the reports among the warnings *)
Definition heading_reports (w : list warning) : list warning :=
  filter (fun x => match x with WDuplicateHeading _ _ _ => true | _ => false end) w.

(** the value of a line under a heading *)
Definition under (l : line) (h : scalar) : scalar := match kget h l with Some v => v | None => SNone end.
(** the line [l] is the row [row] read under the headings [hs]: under each
    heading stands the value of its last column *)
Definition row_read (f : fmt) (e : sheet_conf) (hs row : list scalar) (l : line) : Prop :=
  (forall h v, In (h, v) l -> In h hs) /\
  forall j h, last_at hs j h -> not_nan h = true -> under l h = if heading_counts f e h then nth j row SNone else SNone.
(** rows that may be passed over: without any value in a last column that counts *)
Definition no_value (f : fmt) (e : sheet_conf) (hs row : list scalar) : Prop :=
  forall j h, last_at hs j h -> not_nan h = true -> heading_counts f e h = true -> nth j row SNone = SNone.
(** [kept drop rows rows']: [rows'] is [rows] without some rows that [drop] allows to pass over *)
Inductive kept {A} (drop : A -> Prop) : list A -> list A -> Prop :=
| kp_nil : kept drop [] []
| kp_keep x l l' : kept drop l l' -> kept drop (x :: l) (x :: l')
| kp_drop x l l' : drop x -> kept drop l l' -> kept drop (x :: l) l'.
(** ODS rows end with their last filled cell: they must reach the last column of
    each repeated heading *)
Definition reaches (f : fmt) (hs row : list scalar) : Prop :=
  f = Ods -> forall i j, shadowed hs i -> (exists h h', heading_at hs i h /\ last_at hs j h' /\ py_eqb h h' = true) -> (j < length row)%nat.
(** two rows that differ at most in columns that are not the last of their heading *)
Definition same_but_shadowed (hs row row' : list scalar) : Prop :=
  length row = length row' /\ forall j, ~ shadowed hs j -> nth_error row j = nth_error row' j.
