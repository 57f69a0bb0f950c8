(** C42: the cells of ODS files.  Columns and contents of cells are defined in
    Spec/OdsCells.v. *)
From Coq Require Import Lia.
From Verif.Base Require Import PyStr PyNum PyVal PyDict Outcome.
From Verif.Model Require Import Warn Lib Readers Ods.
From Verif.Spec Require Import OdsCells.
From Verif.Proofs Require Import OdsFacts.

(** in a row without merged cells: the value of a cell is in the columns given by
    the repeat counts of the cells before it; there is nothing after the last column *)
Theorem C42_columns : forall E r N, columns (or_cells r) N -> (forall c, In c (or_cells r) -> oc_covered c = false /\ exists v, shows E c v) ->
  exists row, read_row E false r = Ok row [] /\ (length row <= N)%nat /\
    forall pre c post n m i, or_cells r = pre ++ c :: post -> columns pre n -> takes c m -> (i < m)%nat -> shows E c (nth (n + i) row SNone).
Proof. exact ods_row_read. Qed.
Print Assumptions C42_columns.
(** all sheets and rows are read, in order *)
Theorem C42_sheets : forall E doc b w, NoDup (map fst doc) -> read_ods E false doc [] = Ok b w ->
  Forall2 (fun d s => fst d = fst s /\ Forall2 (fun r row => exists w, read_row E false r = Ok row w) (snd d) (snd s)) doc b.
Proof. exact ods_sheets. Qed.
Print Assumptions C42_sheets.

(** examples *)
Definition no_env : ods_env := {| oe_float := fun _ => None; oe_date := fun _ => None |}.
Definition text_cell (s : str) : ods_cell := {| oc_covered := false; oc_repeat := None; oc_spanned := None; oc_text := s; oc_type := None; oc_value := None; oc_date := None |}.
Definition repeated_cell (s n : str) : ods_cell := {| oc_covered := false; oc_repeat := Some n; oc_spanned := None; oc_text := s; oc_type := None; oc_value := None; oc_date := None |}.
Definition num_cell (v : str) : ods_cell := {| oc_covered := false; oc_repeat := None; oc_spanned := None; oc_text := v; oc_type := Some (u "float"); oc_value := Some v; oc_date := None |}.
Definition cells_ex : list ods_cell := [text_cell (u "a"); repeated_cell [] (u "3"); repeated_cell (u "b") (u "2"); num_cell (u "7"); repeated_cell [] (u "1000")].
Example C42_meets : columns cells_ex 1007 /\ (forall c, In c cells_ex -> oc_covered c = false /\ exists v, shows no_env c v) /\
  read_row no_env false {| or_repeat := None; or_cells := cells_ex |} = Ok [SStr (u "a"); SNone; SNone; SNone; SStr (u "b"); SStr (u "b"); SInt 7] [].
Proof.
  split.
  - change 1007%nat with (1 + (3 + (2 + (1 + (1000 + 0)))))%nat.
    constructor; [apply takes_one; auto|]. constructor; [eapply (takes_repeat _ (u "3") 3%Z); vm_compute; reflexivity|]. constructor; [eapply (takes_repeat _ (u "2") 2%Z); vm_compute; reflexivity|].
    constructor; [apply takes_one; auto|]. constructor; [|constructor]. change 1000%nat with (Z.to_nat 1000). eapply (takes_repeat _ (u "1000") 1000%Z); vm_compute; reflexivity.
  - split; [|vm_compute; reflexivity]. intros c [<-|[<-|[<-|[<-|[<-|[]]]]]]; (split; [reflexivity|eexists]).
    + apply shows_text; discriminate.
    + apply shows_nothing. reflexivity.
    + apply shows_text; discriminate.
    + eapply (shows_int _ _ (u "7") 7%Z); try discriminate; try reflexivity. cbn. intros [H|[]]. discriminate H.
    + apply shows_nothing. reflexivity.
Qed.

(** merged cells: the cells hidden by a merged one are not counted, so that what
    follows moves to the left: "b", in the third column, is read as the second *)
Theorem C42_merged_refuted : exists r, or_cells r = [{| oc_covered := false; oc_repeat := None; oc_spanned := Some (u "2"); oc_text := u "a"; oc_type := None; oc_value := None; oc_date := None |};
    {| oc_covered := true; oc_repeat := None; oc_spanned := None; oc_text := []; oc_type := None; oc_value := None; oc_date := None |}; text_cell (u "b")] /\
  read_row no_env false r = Ok [SStr (u "a"); SStr (u "b")] [].
Proof. eexists {| or_repeat := None; or_cells := _ |}. split; [reflexivity|vm_compute; reflexivity]. Qed.
Print Assumptions C42_merged_refuted.
(** a row standing for several equal rows is read once *)
Theorem C42_repeated_rows_refuted : exists r, or_repeat r = Some (u "2") /\ or_cells r = [text_cell (u "a")] /\ read_ods_sheet no_env false [r] = Ok [[SStr (u "a")]] [].
Proof. eexists {| or_repeat := _; or_cells := _ |}. split; [reflexivity|split; [reflexivity|vm_compute; reflexivity]]. Qed.
Print Assumptions C42_repeated_rows_refuted.
(** a number in exponent notation without "." makes the file unreadable *)
Theorem C42_exponent_refuted : exists r, or_cells r = [num_cell (u "1E+20")] /\ forall E, read_row E false r = Raise EValueError [].
Proof. eexists {| or_repeat := None; or_cells := _ |}. split; [reflexivity|]. intros E. vm_compute. reflexivity. Qed.
Print Assumptions C42_exponent_refuted.
