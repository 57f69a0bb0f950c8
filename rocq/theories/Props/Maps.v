(** C11, C12, C14, C46: the source maps.  Places, their texts and locations are
    defined in Spec/Maps.v, Spec/Source.v and Spec/Columns.v; what a row's cells
    are and when a warning names one, in Spec/Rows.v and Spec/Cells.v. *)
From Coq Require Import String Sorted.
From Verif.Base Require Import PyStr PyNum PyVal PyDict Outcome.
From Verif.Model Require Import Warn Lib Convert Input SourceMap.
From Verif.Spec Require Import Source Rows Cells Maps.
From Verif.Tests Require Import TestLib SourceMapRepo.
From Verif.Proofs Require Import MapSound MapOrder.

(** ** A run used to show that the hypotheses are met *)
Definition map_ex : list sheet_in :=
  [{| si_name := u "main"; si_headings := Some [SStr (u "id"); SStr (u "a/0/b"); SStr (u "x/y")];
      si_lines := [[(SStr (u "id"), SStr (u "1")); (SStr (u "a/0/b"), SStr (u "p")); (SStr (u "x/y"), SInt 5)];
                   [(SStr (u "id"), SStr (u "1")); (SStr (u "a/0/b"), SStr (u "q")); (SStr (u "x/y"), SInt 6)]] |};
   {| si_name := u "more"; si_headings := Some [SStr (u "id"); SStr (u "a/7/c")];
      si_lines := [[(SStr (u "id"), SStr (u "1")); (SStr (u "a/7/c"), SInt 3)]] |}].

(** ** C11 *)
(** the cell entries are the leaves of the output, each once; the locations of an
    entry are those of cells whose converted value is the one at that place *)
Theorem C11_cells : forall O F sheets r m mh w, fancy_unflatten O F sheets = Ok (r, Some m, mh) w ->
  unflatten O sheets = Ok r w /\ NoDup (map fst m) /\
  (forall p q v v', leaf r p v -> leaf r q v' -> place_text F p = place_text F q -> p = q) /\
  (forall k ls, In (k, ECells ls) m -> exists p v, leaf r p v /\ k = place_text F p) /\
  (forall p v, leaf r p v -> exists ls, In (place_text F p, ECells ls) m /\ ls <> [] /\ forall l, In l ls -> read_as O sheets l v).
Proof. exact cell_map_sound. Qed.
Print Assumptions C11_cells.

(** every cell of every row is listed at a leaf with an equal value, or is named
    by a warning *)
Theorem C11_complete : forall O F sheets r m mh w, fancy_unflatten O F sheets = Ok (r, Some m, mh) w ->
  forall d sp c, In d (fragments O sheets) -> In (sp, c) (icells (o_xml O) (o_id_name O) d) ->
    (exists p v ls, leaf r p v /\ In (place_text F p, ECells ls) m /\ In (c_loc c) ls /\ (v = c_val c \/ cv_eqb v (c_val c) = true)) \/
    (exists x, In x w /\ named_by x sp c).
Proof. exact cell_map_complete. Qed.
Print Assumptions C11_complete.
Example C11_meets : exists r m mh w, fancy_unflatten (test_opts []) test_fancy map_ex = Ok (r, Some m, mh) w /\
  length m = 10%nat /\ length w = 1%nat /\ length (fragments (test_opts []) map_ex) = 3%nat.
Proof. do 4 eexists. split; [vm_compute; reflexivity|]. split; [reflexivity|]. split; reflexivity. Qed.

(** the order of the entries: the places of the values (array positions by
    number, fields by name), then their rows; the headings as they come up in
    this order *)
Theorem C11_order : forall O F sheets r mc mh w, fancy_unflatten O F sheets = Ok (r, mc, mh) w ->
  mc = None /\ mh = None \/
  exists ps, StronglySorted before ps /\ (forall p, In p ps <-> exists v, leaf r p v) /\
    (forall m, mc = Some m -> map fst m = map (place_text F) ps ++ firsts (map (fun p => place_text F (removelast p)) ps)) /\
    (forall h, f_headings F = true -> mh = Some h -> map fst h = firsts (map (field_text F) ps)).
Proof. exact maps_in_order. Qed.
Print Assumptions C11_order.
Example C11_order_meets : exists r m h w, fancy_unflatten (test_opts []) test_fancy map_ex = Ok (r, Some m, Some h) w /\ f_headings test_fancy = true /\ (2 < length h)%nat.
Proof. do 4 eexists. split; [vm_compute; reflexivity|]. split; [reflexivity|]. repeat constructor. Qed.

(** ** C46 *)
(** the row entries are the objects of the output that have a field directly
    holding a value; an entry lists exactly the rows of those fields' cells, once *)
Theorem C46_rows : forall O F sheets r m mh w, fancy_unflatten O F sheets = Ok (r, Some m, mh) w ->
  (forall k rs, In (k, ERows rs) m -> NoDup rs /\ exists q, k = place_text F q /\ (exists f v, leaf r (q ++ [PKey f]) v) /\
     forall s n, In (s, n) rs <-> exists f v ls l, leaf r (q ++ [PKey f]) v /\ In (place_text F (q ++ [PKey f]), ECells ls) m /\ In l ls /\ l_sheet l = s /\ l_row l = n) /\
  (forall q f v, leaf r (q ++ [PKey f]) v -> exists rs, In (place_text F q, ERows rs) m).
Proof. exact row_entries. Qed.
Print Assumptions C46_rows.
Example C46_meets : exists r m mh w, fancy_unflatten (test_opts []) test_fancy map_ex = Ok (r, Some m, mh) w /\
  In (u "main/0", ERows [(u "main", 2%N); (u "main", 3%N); (u "more", 2%N)]) m.
Proof. do 4 eexists. split; [vm_compute; reflexivity|]. vm_compute. tauto. Qed.

(** ** C12 *)
Theorem C12_total : forall O F sheets r w, unflatten O sheets = Ok r w ->
  exists mc mh, fancy_unflatten O F sheets = Ok (r, mc, mh) w /\
    (f_cells F = true -> exists m, mc = Some m) /\ (f_headings F = true -> exists h, mh = Some h).
Proof. exact maps_total. Qed.
Print Assumptions C12_total.
Example C12_meets : exists r w, unflatten (test_opts []) map_ex = Ok r w.
Proof. do 2 eexists. vm_compute. reflexivity. Qed.

(** ** C14 *)
(** the keys are the leaves' places without array positions; an entry has, up to
    Python equality and without repetition, the (sheet, heading) pairs of the
    cells recorded for the leaves with that key *)
Theorem C14_headings : forall O F sheets r mc h w, f_headings F = true -> fancy_unflatten O F sheets = Ok (r, mc, Some h) w ->
  exists tree, do_unflatten O sheets = Ok tree w /\ r = map dict_to_v tree /\ NoDup (map fst h) /\
  (forall k hs, In (k, hs) h -> exists p v, leaf r p v /\ k = field_text F p) /\
  (forall p v, leaf r p v -> exists hs, In (field_text F p, hs) h) /\
  (forall k hs, In (k, hs) h -> once hpair_eqb hs /\
     (forall s x, In (s, x) hs -> exists p l, field_text F p = k /\ recorded tree p l /\ l_sheet l = s /\ l_heading l = x) /\
     (forall p l, field_text F p = k -> recorded tree p l -> exists x, In (l_sheet l, x) hs /\ (x = l_heading l \/ py_eqb (l_heading l) x = true))).
Proof. exact heading_map_sound. Qed.
Print Assumptions C14_headings.

(** when both maps are asked for, the recorded cells are those of the cell source map *)
Theorem C14_cells : forall O F sheets r m h w, f_headings F = true -> fancy_unflatten O F sheets = Ok (r, Some m, Some h) w ->
  forall k hs, In (k, hs) h ->
     (forall s x, In (s, x) hs -> exists p v ls l, leaf r p v /\ field_text F p = k /\ In (place_text F p, ECells ls) m /\ In l ls /\ l_sheet l = s /\ l_heading l = x) /\
     (forall p v ls l, leaf r p v -> field_text F p = k -> In (place_text F p, ECells ls) m -> In l ls -> exists x, In (l_sheet l, x) hs /\ (x = l_heading l \/ py_eqb (l_heading l) x = true)).
Proof. exact heading_cell_maps. Qed.
Print Assumptions C14_cells.
Example C14_meets : exists r m h w, fancy_unflatten (test_opts []) test_fancy map_ex = Ok (r, Some m, Some h) w /\
  In (u "main/id", [(u "main", SStr (u "id")); (u "more", SStr (u "id"))]) h /\ In (u "main/a/c", [(u "more", SStr (u "a/7/c"))]) h.
Proof. do 4 eexists. split; [vm_compute; reflexivity|]. vm_compute. tauto. Qed.
