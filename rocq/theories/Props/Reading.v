(** C07, C08, C09: what one row says.  The notions used in the statements are in
    Spec/Headings.v (headings as paths, the object a row describes, what a
    warning names), Spec/Cells.v (the cells of the output) and Spec/Same.v. *)
From Coq Require Import String Permutation Lia.
From Verif.Base Require Import PyStr PyNum PyVal PyDict Outcome.
From Verif.Model Require Import Warn Lib Convert Input.
From Verif.Spec Require Import Headings Plain Cells Same.
From Verif.Tests Require Import TestLib.
From Verif.Proofs Require Import RowRead RowRun RowOrder RtCheck.

(** ** Rows used to show that the hypotheses are met *)
Definition s (x : string) : scalar := SStr (u x).
Definition O1 : opts := test_opts [].
Example O1_not_xml : o_xml O1 = false.
Proof. reflexivity. Qed.
(** brackets, positions out of order, a nested array, a blank cell *)
Definition line1 : list (scalar * scalar) :=
  [(s "id", SInt 1); (s "a[]/2/id", s "i2"); (s "c/d", s "D"); (s "e", SNone); (s "a/2/b/7/z", s "Z"); (s "a/1/id", s "i1")].
Definition cols1 : list column :=
  [ (s "id", ([HKey (u "id")], CV (SInt 1)));
    (s "a[]/2/id", ([HKey (u "a"); HPos 2; HKey (u "id")], CV (s "i2")));
    (s "c/d", ([HKey (u "c"); HKey (u "d")], CV (s "D")));
    (s "a/2/b/7/z", ([HKey (u "a"); HPos 2; HKey (u "b"); HPos 7; HKey (u "z")], CV (s "Z")));
    (s "a/1/id", ([HKey (u "a"); HPos 1; HKey (u "id")], CV (s "i1"))) ].
(** two more columns that contradict the others *)
Definition line2 : list (scalar * scalar) := line1 ++ [(s "c", s "C"); (s "a/d", s "AD")].
Definition bad2 : list column := [(s "c", ([HKey (u "c")], CV (s "C"))); (s "a/d", ([HKey (u "a"); HKey (u "d")], CV (s "AD")))].

Ltac spell := first
  [ apply sp_leaf; split; [discriminate|reflexivity]
  | eapply sp_at; [split; [discriminate|reflexivity]|reflexivity|spell]
  | apply sp_in; [split; [discriminate|reflexivity]|spell] ].
Ltac slashless := let x := fresh in let H := fresh in let Q := fresh in intros x H; simpl in H;
  repeat (destruct H as [<-|H]; [intros Q; simpl in Q; intuition discriminate|]); destruct H.
Ltac headed parts := exists parts; split; [reflexivity|split; [slashless|vm_compute; spell]].
Ltac cell parts := eapply reads_cell; [reflexivity|eexists; split; [headed parts|vm_compute; reflexivity]|apply fits_check; vm_compute; reflexivity|vm_compute; reflexivity|reflexivity|].
Example line1_reads : reads (o_conv O1) (o_types O1) line1 cols1 (repeat [] 5).
Proof.
  cell [u "id"]. cell [u "a[]"; u "2"; u "id"]. cell [u "c"; u "d"]. apply reads_blank; [reflexivity|].
  cell [u "a"; u "2"; u "b"; u "7"; u "z"]. cell [u "a"; u "1"; u "id"]. apply reads_nil.
Qed.
Example line2_reads : reads (o_conv O1) (o_types O1) line2 (cols1 ++ bad2) (repeat [] 7).
Proof.
  cell [u "id"]. cell [u "a[]"; u "2"; u "id"]. cell [u "c"; u "d"]. apply reads_blank; [reflexivity|].
  cell [u "a"; u "2"; u "b"; u "7"; u "z"]. cell [u "a"; u "1"; u "id"]. cell [u "c"]. cell [u "a"; u "d"]. apply reads_nil.
Qed.
Ltac walk_path q H := cbn in H; first [discriminate H | destruct q as [|? q]; [cbn in H; try discriminate H|walk_path q H]].
Ltac members H := repeat (destruct H as [H|H]; [|]); [..|destruct H].
Example line2_ids : id_ends (o_id_name O1) (map snd (cols1 ++ bad2)).
Proof.
  intros p v q r H ->. cbn in H. members H; injection H as H _; walk_path q H; injection H; intros; subst; reflexivity.
Qed.
Example line2_plain : ids_plain (o_id_name O1) (map snd (cols1 ++ bad2)).
Proof. exact (reads_ids_plain _ _ _ _ _ _ line2_reads (fun q => eq_refl)). Qed.
Example line2_distinct : ids_distinct (o_id_name O1) (map snd (cols1 ++ bad2)).
Proof.
  intros q i j x y H1 H2. cbn in H1, H2. members H1; injection H1 as H1 Hx; walk_path q H1; injection H1; intros; subst;
    members H2; injection H2; intros; subst; try discriminate; try (exfalso; congruence); reflexivity.
Qed.
Lemma sub_ids : id_ends (o_id_name O1) (map snd cols1) /\ ids_distinct (o_id_name O1) (map snd cols1).
Proof.
  assert (I : forall x, In x (map snd cols1) -> In x (map snd (cols1 ++ bad2))) by (intros x Hx; rewrite map_app; apply in_or_app; left; exact Hx).
  split; [intros p v q r H; apply (line2_ids p v q r); auto|intros q i j x y H1 H2; apply (line2_distinct q i j x y); auto].
Qed.
Example line2_nodup : NoDup (map path_of (cols1 ++ bad2)).
Proof. repeat (constructor; [cbn; intuition discriminate|]). constructor. Qed.
Example line1_agree : agree (map snd cols1).
Proof. unfold agree. repeat (constructor; [repeat constructor|]). constructor. Qed.
(** with a schema: a number, a number that is none, an array of texts; "b" is an
    object for the schema too *)
Definition types3 (p : str) : str :=
  match find (fun x => str_eqb (u (fst x)) p) [("id", "integer"); ("n", "number"); ("b", "object"); ("b/m", "number"); ("b/t", "string_array"); ("a", "array")]%string with
  | Some x => u (snd x) | None => [] end.
Definition O3 : opts := {| o_conv := test_cenv; o_types := types3; o_root_id := []; o_id_name := u "id"; o_xml := false; o_vertical := false |}.
Definition line3 : list (scalar * scalar) := [(s "id", s "12"); (s "n", s "1.50"); (s "b/m", s "many"); (s "b/t", s "x;y"); (s "a/0/v", SInt 3); (s "a/q", s "no")].
Definition cols3 : list column :=
  [ (s "id", ([HKey (u "id")], CV (SInt 12))); (s "n", ([HKey (u "n")], CV (SDec (DFin false 150 (-2))))); (s "b/m", ([HKey (u "b"); HKey (u "m")], CV (s "many")));
    (s "b/t", ([HKey (u "b"); HKey (u "t")], CList [s "x"; s "y"])); (s "a/0/v", ([HKey (u "a"); HPos 0; HKey (u "v")], CV (SInt 3))) ].
Definition W3 : list (list warning) := [[]; []; [WNonNumeric (CV (s "many"))]; []; []].
Example line3_reads : reads (o_conv O3) (o_types O3) (firstn 5 line3) cols3 W3.
Proof. cell [u "id"]. cell [u "n"]. cell [u "b"; u "m"]. cell [u "b"; u "t"]. cell [u "a"; u "0"; u "v"]. apply reads_nil. Qed.
(** "a" is an array for the schema: "a/q" leaves out the position *)
Example line3_omitted : reads (o_conv O3) (o_types O3) line3 (cols3 ++ [(s "a/q", ([HKey (u "a"); HPos (-1); HKey (u "q")], CV (s "no")))]) (W3 ++ [[]]).
Proof. cell [u "id"]. cell [u "n"]. cell [u "b"; u "m"]. cell [u "b"; u "t"]. cell [u "a"; u "0"; u "v"]. cell [u "a"; u "q"]. apply reads_nil. Qed.
Example line3_ids : ids_plain (o_id_name O3) (map snd cols3) /\ id_ends (o_id_name O3) (map snd cols3) /\ ids_distinct (o_id_name O3) (map snd cols3) /\ agree (map snd cols3).
Proof.
  split; [|split; [|split]].
  - intros q x H. cbn in H. members H; injection H as H Hx; walk_path q H. subst. eexists. split; reflexivity.
  - intros p v q r H ->. cbn in H. members H; injection H as H _; walk_path q H; injection H; intros; subst; reflexivity.
  - intros q i j x y H1 H2. cbn in H1, H2. members H1; injection H1 as H1 Hx; walk_path q H1.
  - unfold agree. repeat (constructor; [repeat constructor|]). constructor.
Qed.

(** ** C07 a row loses no cell silently *)
(** one row on its own: its columns fall into two parts; the object has exactly
    the values of the first at their paths; each of the second contradicts one
    of the first and is named by a warning; there are no other warnings than
    these and those of the conversion of values (all by [settled]) *)
Theorem C07_row : forall O, o_xml O = false -> forall name hs line C W, reads (o_conv O) (o_types O) line C W -> C <> [] -> headed hs line -> NoDup (map path_of C) ->
  ids_plain (o_id_name O) (map snd C) -> id_ends (o_id_name O) (map snd C) -> ids_distinct (o_id_name O) (map snd C) ->
  exists o w acc rej, unflatten O [one_line name hs line] = Ok [o] (match hs with Some l => heading_warnings name l | None => [] end ++ w) /\
    settled C W acc rej w /\ shows (ids_first (o_id_name O)) (map snd acc) (VDict o) /\
    (forall h p x, In (h, (p, x)) rej -> exists h' q x', In (h', (q, x')) acc /\ ~ compatible q p).
Proof. exact one_row. Qed.
Print Assumptions C07_row.
Example C07_row_meets : exists o w, unflatten O1 [one_line (u "t") None line2] = Ok [o] w /\ length w = 2%nat /\
  w = [WColumnValue (u "c"); WColumnObject (s "a/d") (u "a")].
Proof. eexists. eexists. split; [vm_compute; reflexivity|]. split; reflexivity. Qed.

(** a row of any run: each of its cells is in the output, its location listed
    for the value, or named by a warning *)
Theorem C07_run : forall O, o_xml O = false -> forall sheets out w, do_unflatten O sheets = Ok out w ->
  forall s j line C W, In s sheets -> nth_error (si_lines s) j = Some line -> headed (si_headings s) line -> reads (o_conv O) (o_types O) line C W -> NoDup (map path_of C) ->
    ids_plain (o_id_name O) (map snd C) -> id_ends (o_id_name O) (map snd C) -> ids_distinct (o_id_name O) (map snd C) ->
    forall k h v, nth_error line k = Some (h, v) -> blank v = false ->
    exists l x p wc, located O s j k l /\ heading_says (o_types O) h p /\ convert_type (o_conv O) (o_types O (path_text p)) (CV v) = Ok x wc /\
      ((exists sp c, In (sp, c) (out_cells (o_xml O) (o_id_name O) out) /\ In l (cell_locs c) /\ (c_val c = x \/ cv_eqb (c_val c) x = true)) \/
       (exists y, In y w /\ cell_reported y l h p x)).
Proof. exact run_row_reported. Qed.
Print Assumptions C07_run.
Definition sheet_ab : sheet_in := {| si_name := u "t"; si_headings := None; si_lines := [line1; line2] |}.
Example C07_run_meets : exists out w, do_unflatten O1 [sheet_ab] = Ok out w /\ length w = 2%nat /\ length (out_cells false (u "id") out) = 6%nat /\
  nth_error (si_lines sheet_ab) 1 = Some line2 /\ headed None line2.
Proof. eexists. eexists. split; [vm_compute; reflexivity|]. split; [reflexivity|]. split; [reflexivity|]. split; [reflexivity|]. intros l Q. discriminate. Qed.

(** without the conditions cells are lost without a word *)
(** two items of one array with the same id: the second overwrites the first *)
Theorem C07_same_id_refuted : exists line, forallb (fun hv => negb (blank (snd hv))) line = true /\
  In (s "a/0/v", s "lost") line /\
  unflatten O1 [one_line (u "t") None line] =
    Ok [[(u "a", VList [[(u "id", VLeaf (CV (s "1"))); (u "v", VLeaf (CV (s "kept")))]])]] [].
Proof. exists [(s "a/0/id", s "1"); (s "a/0/v", s "lost"); (s "a/1/id", s "1"); (s "a/1/v", s "kept")]. split; [reflexivity|]. split; [simpl; tauto|]. vm_compute. reflexivity. Qed.
Print Assumptions C07_same_id_refuted.
(** a heading that ends with a position *)
Theorem C07_position_last_refuted : unflatten O1 [one_line (u "t") None [(s "id", s "1"); (s "a/0", s "lost")]] =
  Ok [[(u "id", VLeaf (CV (s "1"))); (u "a", VList [])]] [].
Proof. vm_compute. reflexivity. Qed.
Print Assumptions C07_position_last_refuted.
(** two spellings of one path *)
Theorem C07_same_path_refuted : unflatten O1 [one_line (u "t") None [(s "a", s "lost"); (s "a[]", s "kept")]] =
  Ok [[(u "a", VLeaf (CV (s "kept")))]] [] /\
  unflatten O1 [one_line (u "t") None [(s "a/0/b", s "lost"); (s "a/00/b", s "kept")]] = Ok [[(u "a", VList [[(u "b", VLeaf (CV (s "kept")))]])]] [].
Proof. split; vm_compute; reflexivity. Qed.
Print Assumptions C07_same_path_refuted.
(** a heading that begins with a number: said to be ignored, yet stored *)
Theorem C07_number_first_refuted : unflatten O1 [one_line (u "t") None [(s "0/a", s "x")]] =
  Ok [[(u "a", VLeaf (CV (s "x")))]] [WNumberColumn (s "0/a")].
Proof. vm_compute. reflexivity. Qed.
Print Assumptions C07_number_first_refuted.

(** ** C08 a heading is the path of its cell *)
Theorem C08_paths : forall O, o_xml O = false -> forall name hs line C W, reads (o_conv O) (o_types O) line C W -> C <> [] -> headed hs line -> agree (map snd C) ->
  ids_plain (o_id_name O) (map snd C) -> id_ends (o_id_name O) (map snd C) -> ids_distinct (o_id_name O) (map snd C) ->
  exists o, unflatten O [one_line name hs line] = Ok [o] (match hs with Some l => heading_warnings name l | None => [] end ++ concat W) /\
    shows (ids_first (o_id_name O)) (map snd C) (VDict o).
Proof. exact agreeing_row. Qed.
Print Assumptions C08_paths.
Example C08_paths_meets : unflatten O1 [one_line (u "t") None line1] =
  Ok [[(u "id", VLeaf (CV (SInt 1)));
       (u "a", VList [[(u "id", VLeaf (CV (s "i1")))]; [(u "id", VLeaf (CV (s "i2"))); (u "b", VList [[(u "z", VLeaf (CV (s "Z")))]])]]);
       (u "c", VDict [(u "d", VLeaf (CV (s "D")))])]] [].
Proof. vm_compute. reflexivity. Qed.
(** with types: the values are converted, the warning is that of the conversion *)
Example C08_typed_meets : unflatten O3 [one_line (u "t") None (firstn 5 line3)] =
  Ok [[(u "id", VLeaf (CV (SInt 12))); (u "n", VLeaf (CV (SDec (DFin false 150 (-2))))); (u "b", VDict [(u "m", VLeaf (CV (s "many"))); (u "t", VLeaf (CList [s "x"; s "y"]))]);
       (u "a", VList [[(u "v", VLeaf (CV (SInt 3)))]])]] (concat W3).
Proof. vm_compute. reflexivity. Qed.
Example C08_omitted_meets : exists o w, unflatten O3 [one_line (u "t") None line3] = Ok [o] w /\
  sget (u "a") o = Some (VList [[(u "q", VLeaf (CV (s "no")))]; [(u "v", VLeaf (CV (SInt 3)))]]).
Proof. do 2 eexists. split; vm_compute; reflexivity. Qed.
(** [shows] determines the object: nothing else is in it *)
Theorem C08_only : forall order L n m, shows order L n -> shows order L m -> n = m.
Proof. intros order L n m. exact (shows_unique order n L m). Qed.
Print Assumptions C08_only.
(** an empty part in a heading: the value is stored at two places *)
Theorem C08_empty_part_refuted : unflatten O1 [one_line (u "t") None [(s "a//b", s "x")]] =
  Ok [[(u "a", VLeaf (CV (s "x"))); (u "", VDict [(u "b", VLeaf (CV (s "x")))])]] [].
Proof. vm_compute. reflexivity. Qed.
Print Assumptions C08_empty_part_refuted.

(** ** C09 positions only give an order *)
Theorem C09_increasing : forall O, o_xml O = false -> forall name hs line C W, reads (o_conv O) (o_types O) line C W -> C <> [] -> headed hs line -> agree (map snd C) ->
  ids_plain (o_id_name O) (map snd C) -> id_ends (o_id_name O) (map snd C) -> ids_distinct (o_id_name O) (map snd C) -> ids_uniform (o_id_name O) (map snd C) ->
  exists o w, unflatten O [one_line name hs line] = Ok [o] w /\ shows increasing (map snd C) (VDict o).
Proof. exact row_increasing. Qed.
Print Assumptions C09_increasing.
Example C09_increasing_meets : ids_uniform (o_id_name O1) (map snd cols1).
Proof.
  intros q i j p r v w H1 H2 ->. cbn in H1, H2. members H1; injection H1 as H1 Hx; walk_path q H1; injection H1; intros; subst;
    members H2; cbn in H2; injection H2; intros; subst; try discriminate; eexists; cbn; eauto 10.
Qed.
Theorem C09_renumber : forall O, o_xml O = false -> forall f name name' hs hs' line line' C C' W W', order_preserving f ->
  reads (o_conv O) (o_types O) line C W -> reads (o_conv O) (o_types O) line' C' W' -> map snd C' = map (fun pv => (renumber f [] (fst pv), snd pv)) (map snd C) ->
  C <> [] -> headed hs line -> headed hs' line' -> agree (map snd C) -> ids_plain (o_id_name O) (map snd C) -> id_ends (o_id_name O) (map snd C) -> ids_distinct (o_id_name O) (map snd C) ->
  exists o w w', unflatten O [one_line name hs line] = Ok [o] w /\ unflatten O [one_line name' hs' line'] = Ok [o] w'.
Proof. exact row_renumbered. Qed.
Print Assumptions C09_renumber.
Example C09_renumber_meets : exists (f : hpath -> Z -> Z) cols W, order_preserving f /\
  reads (o_conv O1) (o_types O1) [(s "id", SInt 1); (s "a/7/id", s "i2"); (s "c/d", s "D"); (s "a/7/b/-2/z", s "Z"); (s "a/4/id", s "i1")] cols W /\
  map snd cols = map (fun pv => (renumber f [] (fst pv), snd pv)) (map snd cols1).
Proof.
  exists (fun q i => match q with [_] => 3 * i + 1 | _ => i - 9 end)%Z. eexists. eexists.
  split; [intros q i j; destruct q as [|a [|b q]]; lia|]. split.
  - cell [u "id"]. cell [u "a"; u "7"; u "id"]. cell [u "c"; u "d"]. cell [u "a"; u "7"; u "b"; u "-2"; u "z"]. cell [u "a"; u "4"; u "id"]. apply reads_nil.
  - reflexivity.
Qed.
Theorem C09_column_order : forall O, o_xml O = false -> forall name name' hs hs' line line' C C' W W',
  reads (o_conv O) (o_types O) line C W -> reads (o_conv O) (o_types O) line' C' W' -> Permutation C C' ->
  C <> [] -> headed hs line -> headed hs' line' -> agree (map snd C) -> ids_plain (o_id_name O) (map snd C) -> id_ends (o_id_name O) (map snd C) -> ids_distinct (o_id_name O) (map snd C) ->
  exists o o' w w', unflatten O [one_line name hs line] = Ok [o] w /\ unflatten O [one_line name' hs' line'] = Ok [o'] w' /\ veq (VDict o) (VDict o').
Proof. exact row_columns_permuted. Qed.
Print Assumptions C09_column_order.
Example C09_column_order_meets : exists cols W, reads (o_conv O1) (o_types O1) (rev line1) cols W /\ Permutation cols1 cols /\ cols1 <> [].
Proof.
  exists (rev cols1), (repeat [] 5). split; [|split; [apply Permutation_rev|discriminate]].
  cell [u "a"; u "1"; u "id"]. cell [u "a"; u "2"; u "b"; u "7"; u "z"]. apply reads_blank; [reflexivity|]. cell [u "c"; u "d"]. cell [u "a[]"; u "2"; u "id"]. cell [u "id"]. apply reads_nil.
Qed.
(** items with an id come before items without *)
Theorem C09_mixed_ids_refuted : unflatten O1 [one_line (u "t") None [(s "a/0/v", s "first"); (s "a/1/id", s "1")]] =
  Ok [[(u "a", VList [[(u "id", VLeaf (CV (s "1")))]; [(u "v", VLeaf (CV (s "first")))]])]] [].
Proof. vm_compute. reflexivity. Qed.
Print Assumptions C09_mixed_ids_refuted.
