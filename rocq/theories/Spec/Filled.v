(** What of a list of tables matters: the filled cells of the rows that have one. *)
From Verif.Base Require Import PyStr PyVal PyDict Outcome.
From Verif.Model Require Import Warn Lib Convert Input.

(** a cell of a line: the key it is stored under, the heading of its column, its value *)
Record fcell := { fc_key : scalar; fc_heading : scalar; fc_value : scalar }.
(** the cells of a line; without a list of headings the key is the heading *)
Fixpoint headed (hs : option (list scalar)) (line : list (scalar * scalar)) : list fcell :=
  match line with
  | [] => []
  | (k, v) :: line' =>
    match hs with
    | None => {| fc_key := k; fc_heading := k; fc_value := v |} :: headed None line'
    | Some [] => []
    | Some (h :: hs') => {| fc_key := k; fc_heading := h; fc_value := v |} :: headed (Some hs') line'
    end
  end.
Definition filled (hs : option (list scalar)) (line : list (scalar * scalar)) : list fcell :=
  filter (fun c => negb (blank (fc_value c))) (headed hs line).

(** a row: its sheet, the value of its root id column ([None] when there is no
    such column), its filled cells *)
Record frow := { fr_sheet : str; fr_root : scalar; fr_cells : list fcell }.
Definition filled_rows (O : opts) (s : sheet_in) : list frow :=
  match si_headings s with
  | Some [] => []
  | hs => flat_map (fun line => match filled hs line with
                                | [] => []
                                | c => [{| fr_sheet := si_name s; fr_root := line_root O line; fr_cells := c |}]
                                end) (si_lines s)
  end.
(** the rows of all sheets, without their sheet *)
Definition no_sheet (r : frow) : scalar * list fcell := (fr_root r, fr_cells r).

(** no line is longer than the list of headings *)
Definition fits (s : sheet_in) : Prop :=
  match si_headings s with
  | None => True
  | Some hs => forall line, In line (si_lines s) -> (length line <= length hs)%nat
  end.

(** outcomes seen through [h]: what each warning is turned into *)
Definition seen_as {A} (h : warning -> list warning) (m : res warning A) : res warning A :=
  match m with Ok a w => Ok a (flat_map h w) | Raise e w => Raise e (flat_map h w) end.
(** without the warnings about repeated headings *)
Definition but_headings (w : warning) : list warning := match w with WDuplicateHeading _ _ _ => [] | _ => [w] end.
(** ... and without the names of sheets *)
Definition anonymous (w : warning) : list warning :=
  match w with
  | WDuplicateHeading _ _ _ => []
  | WDuplicate ri r n i k _ a b => [WDuplicate ri r n i k [] a b]
  | _ => [w]
  end.
