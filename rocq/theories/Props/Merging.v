(** C04, C05, C06, C10: what happens to rows that speak about the same object.
    The notions used in the statements are defined in Spec/Ids.v, Spec/Embed.v,
    Spec/Rows.v and Spec/Cells.v. *)
From Coq Require Import String.
From Verif.Base Require Import PyStr PyNum PyVal PyDict Outcome.
From Verif.Model Require Import Warn Lib Convert Input.
From Verif.Spec Require Import Embed Ids Rows Cells.
From Verif.Tests Require Import TestLib.
From Verif.Proofs Require Import EmbedFacts Grouping IdRun RunCells Conflict.

(** ** A concrete run used to show that the hypotheses are met *)
Definition ex_row (i : Z) (t : string) (ai : Z) (av : string) : list (scalar * scalar) :=
  [(SStr (u "id"), SInt i); (SStr (u "title"), SStr (u t));
   (SStr (u "a/0/id"), SInt ai); (SStr (u "a/0/v"), SStr (u av))].
Definition ex_sheet1 : sheet_in :=
  {| si_name := u "main"; si_headings := None; si_lines := [ex_row 1 "x" 10 "p"; ex_row 2 "z" 10 "p"] |}.
Definition ex_sheet2 : sheet_in :=
  {| si_name := u "more"; si_headings := None; si_lines := [ex_row 1 "y" 10 "p"; ex_row 1 "x" 11 "q"] |}.
Definition ex_item (i : Z) (v : string) : vdict := [(u "id", VLeaf (CV (SInt i))); (u "v", VLeaf (CV (SStr (u v))))].
Definition ex_out : list vdict :=
  [[(u "id", VLeaf (CV (SInt 1))); (u "title", VLeaf (CV (SStr (u "x")))); (u "a", VList [ex_item 10 "p"; ex_item 11 "q"])];
   [(u "id", VLeaf (CV (SInt 2))); (u "title", VLeaf (CV (SStr (u "z")))); (u "a", VList [ex_item 10 "p"])]].
(** the run succeeds, merges the rows and reports exactly one conflict *)
Example ex_run : check_unflatten [] [ex_sheet1; ex_sheet2] ex_out (Some 1%nat) = true.
Proof. vm_compute. reflexivity. Qed.

(** ** C04 *)
(** arrays inside the output objects, at every depth *)
Theorem C04_nested : forall O sheets r w, unflatten O sheets = Ok r w ->
  forall o k n l, In o r -> In (k, n) o -> inside (VList l) n -> ids_differ (o_xml O) (o_id_name O) l.
Proof. exact nested_ids_differ. Qed.
Print Assumptions C04_nested.

(** the output list, no root id *)
Theorem C04_root : forall O sheets r w, o_root_id O = [] -> unflatten O sheets = Ok r w ->
  ids_differ (o_xml O) (o_id_name O) r.
Proof. exact root_ids_differ. Qed.
Print Assumptions C04_root.

(** the output list, per root id; and C10 *)
Theorem C04_C10_groups : forall O sheets out w,
  (forall x, In x (rows_of O sheets) -> row_plain O x) ->
  do_unflatten O sheets = Ok out w ->
  exists groups, out = map dict_to_j (concat groups) /\
    Forall2 (fun r g => group O (filter (has_root r) (rows_of O sheets)) g /\
                        ids_differ (o_xml O) (o_id_name O) (map (fun d => dict_to_v (dict_to_j d)) g))
      (roots (rows_of O sheets)) groups.
Proof. exact groups_ids_differ. Qed.
Print Assumptions C04_C10_groups.
Example C04_C10_groups_meets : forall x, In x (rows_of (test_opts (u "ocid")) [ex_sheet1; ex_sheet2]) -> row_plain (test_opts (u "ocid")) x.
Proof.
  intros x Hx. vm_compute in Hx.
  destruct Hx as [<-|[<-|[<-|[<-|[]]]]]; (split; [reflexivity|]; intros k Hk; vm_compute in Hk; injection Hk as <-; reflexivity).
Qed.

(** ** C10 *)
Theorem C10_order : forall O sheets out w,
  (forall x, In x (rows_of O sheets) -> row_plain O x) ->
  do_unflatten O sheets = Ok out w ->
  exists objs, out = map dict_to_j objs /\ grouped O (rows_of O sheets) objs.
Proof. exact unflatten_grouped. Qed.
Print Assumptions C10_order.

(** ** C05 *)
Theorem C05_kept : forall O a b r1 w1 r2 w2, continues a b ->
  unflatten O a = Ok r1 w1 -> unflatten O b = Ok r2 w2 -> out_emb r1 r2.
Proof. exact unflatten_continues_emb. Qed.
Print Assumptions C05_kept.
Example C05_kept_meets : continues [ex_sheet1] [ex_sheet1; ex_sheet2] /\
  (exists r w, unflatten (test_opts []) [ex_sheet1] = Ok r w /\ length r = 2%nat) /\
  (exists r w, unflatten (test_opts []) [ex_sheet1; ex_sheet2] = Ok r w /\ length r = 2%nat).
Proof.
  split; [exact (cont_sheets [ex_sheet1] [ex_sheet2])|]. split; eexists; eexists; (split; [vm_compute; reflexivity|reflexivity]).
Qed.

(** two rows with different values for one identified place: a warning names
    one of them *)
Theorem C05_conflict : forall O sheets out w, o_root_id O = [] -> do_unflatten O sheets = Ok out w ->
  forall p c1 c2, identified p ->
    In (p, c1) (flat_map (icells (o_xml O) (o_id_name O)) (fragments O sheets)) ->
    In (p, c2) (flat_map (icells (o_xml O) (o_id_name O)) (fragments O sheets)) ->
    c_val c1 <> c_val c2 -> cv_eqb (c_val c1) (c_val c2) = false ->
    exists x, In x w /\ (named_by x p c1 \/ named_by x p c2).
Proof. exact conflict_reported. Qed.
Print Assumptions C05_conflict.
Example C05_conflict_meets : exists p c1 c2, identified p /\
    In (p, c1) (flat_map (icells false (u "id")) (fragments (test_opts []) [ex_sheet1; ex_sheet2])) /\
    In (p, c2) (flat_map (icells false (u "id")) (fragments (test_opts []) [ex_sheet1; ex_sheet2])) /\
    c_val c1 <> c_val c2 /\ cv_eqb (c_val c1) (c_val c2) = false.
Proof.
  exists [Item (Some (KNum (QArith_base.Qmake 1 1))); Key (u "title")].
  exists (mk_cell (CV (SStr (u "x"))) {| l_sheet := u "main"; l_col := u "B"; l_row := 2%N; l_heading := SStr (u "title") |}).
  exists (mk_cell (CV (SStr (u "y"))) {| l_sheet := u "more"; l_col := u "B"; l_row := 2%N; l_heading := SStr (u "title") |}).
  split; [intros s [<-|[<-|[]]]; exact I|].
  split; [right; left; reflexivity|]. split; [|split; [discriminate|reflexivity]].
  vm_compute. tauto.
Qed.

(** ** C06 *)
Theorem C06_no_cell_lost : forall O sheets out w, do_unflatten O sheets = Ok out w ->
  forall p c, In (p, c) (flat_map (icells (o_xml O) (o_id_name O)) (fragments O sheets)) ->
    (exists c', In (p, c') (out_cells (o_xml O) (o_id_name O) out) /\ carries c' c) \/ (exists x, In x w /\ named_by x p c).
Proof. exact no_cell_lost. Qed.
Print Assumptions C06_no_cell_lost.

Theorem C06_no_cell_invented : forall O sheets out w, do_unflatten O sheets = Ok out w ->
  forall p c', In (p, c') (out_cells (o_xml O) (o_id_name O) out) ->
    (exists c, In (p, c) (flat_map (icells (o_xml O) (o_id_name O)) (fragments O sheets)) /\ c_val c' = c_val c /\ c_loc c' = c_loc c) /\
    (forall v l, In (v, l) (c_sub c') -> cv_eqb (c_val c') v = true /\
       exists c, In (p, c) (flat_map (icells (o_xml O) (o_id_name O)) (fragments O sheets)) /\ c_val c = v /\ c_loc c = l).
Proof. exact no_cell_invented. Qed.
Print Assumptions C06_no_cell_invented.
Example C06_meets : exists out w, do_unflatten (test_opts []) [ex_sheet1; ex_sheet2] = Ok out w /\
  length (flat_map (icells false (u "id")) (fragments (test_opts []) [ex_sheet1; ex_sheet2])) = 16%nat /\
  length (out_cells false (u "id") out) = 10%nat.
Proof. eexists. eexists. split; [vm_compute; reflexivity|]. split; vm_compute; reflexivity. Qed.
