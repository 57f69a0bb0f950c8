(** C22-C31 and C45: flattening JSON into sheets.
    The notions used in the statements are in Spec/Flat.v, Spec/Sites.v
    ([simple], [leaf_cell]), Spec/Paths.v, Spec/Preserve.v, Spec/Rollup.v. *)
From Coq Require Import String Permutation.
From Verif.Base Require Import PyStr PyNum PyVal PyDict Outcome.
From Verif.Model Require Import Flatten.
From Verif.Spec Require Import Flat Sites Paths Preserve Rollup.
From Verif.Tests Require Import TestLib FlattenLib.
From Verif.Proofs Require Import FlattenRun FlattenPlain FlattenPaths FlattenItems FlattenMain FlattenTotal PreserveFacts RollupFacts FlattenUsed RtCheck.
From Verif.Spec Require RoundTrip.

(** ** A case used below: two records, an array of objects inside an object, an
    array inside its items *)
Definition t (x : string) : jv := JS (SStr (u x)).
Definition case : list jv :=
  [ JO [(u "ocid", t "o1"); (u "id", t "1");
        (u "a", JO [(u "b", t "x");
                    (u "c", JA [JO [(u "id", t "i1"); (u "v", t "5"); (u "d", JA [JO [(u "id", t "j"); (u "z", t "9")]])];
                                JO [(u "id", t "i2"); (u "v", t "6")]])])];
    JO [(u "id", t "2"); (u "tags", JA [t "p"; t "q"])] ].
Definition case_opts := ftest_opts (u "ocid").
Ltac distinct := repeat (constructor; [simpl; intuition discriminate|]); try constructor.
Ltac clean_case := repeat (constructor; [simpl; repeat split; try distinct; try (intros Q; simpl in Q; intuition discriminate)|]); constructor.
Example case_clean : Forall clean case.
Proof. clean_case. Qed.
Example case_keys : key_ok (po_id_name case_opts) /\ key_ok (po_root_id case_opts).
Proof. split; intros Q; simpl in Q; intuition discriminate. Qed.
Definition run (O : popts) (l : list jv) : list table := match flatten O false [] l with Ok s _ => tables s | Raise _ _ => [] end.
Example case_runs : exists s, flatten case_opts false [] case = Ok s [] /\ name_free case_opts s /\
  map tb_name (sub_tables s) = [u "a_c"; u "a_c_d"] /\
  map (fun x => List.length (tb_rows x)) (tables s) = [2; 2; 1]%nat.
Proof.
  eexists. split; [vm_compute; reflexivity|]. split; [|split; vm_compute; reflexivity]. intros _. vm_compute. intuition discriminate.
Qed.

(** ** C22 every value has a column *)
Theorem C22_every_value_has_a_column : forall O drop pi, schema_ready O -> forall l s w, flatten O drop pi l = Ok s w -> name_free O s ->
  forall x row k v, In x (tables s) -> In row (tb_rows x) -> In (k, v) row -> In k (tb_header x).
Proof. exact flatten_covered. Qed.
Print Assumptions C22_every_value_has_a_column.
(** an array of objects under the key "" is stored under the name of the main sheet *)
Definition unnamed : list jv := [JO [(u "x", t "1"); ([], JA [JO [(u "y", t "2")]])]].
Theorem C22_unnamed_sheet_refuted : exists O l s w x row k v, flatten O false [] l = Ok s w /\ In x (tables s) /\ In row (tb_rows x) /\ In (k, v) row /\ ~ In k (tb_header x).
Proof.
  exists (ftest_opts []), unnamed. eexists. eexists. eexists. exists [(u "x", t "1")], (u "x"), (t "1").
  split; [vm_compute; reflexivity|]. split; [right; left; reflexivity|]. split; [vm_compute; auto|]. split; [left; reflexivity|]. vm_compute. intuition discriminate.
Qed.
Print Assumptions C22_unnamed_sheet_refuted.
Example C22_meets : schema_ready case_opts /\ exists s, flatten case_opts false [] case = Ok s [] /\ name_free case_opts s.
Proof. split; [exact I|]. destruct case_runs as (s & H & F & _). eauto. Qed.

(** ** C23 columns: none twice, new ones at the end *)
Theorem C23_no_column_twice : forall O drop pi, schema_ready O -> forall l s w, flatten O drop pi l = Ok s w ->
  forall x, In x (tables s) -> NoDup (tb_header x).
Proof. exact flatten_distinct. Qed.
Print Assumptions C23_no_column_twice.
Theorem C23_columns_grow : forall O drop pi, schema_ready O -> forall l1 l2 s2 w2, flatten O drop pi (l1 ++ l2) = Ok s2 w2 -> name_free O s2 ->
  exists s1 w1, flatten O drop pi l1 = Ok s1 w1 /\ forall x, In x (tables s1) -> exists x', In x' (tables s2) /\ extends x x'.
Proof. exact flatten_grows. Qed.
Print Assumptions C23_columns_grow.
Theorem C23_sheet_names_differ : forall O drop pi, schema_ready O -> forall l s w, flatten O drop pi l = Ok s w -> NoDup (map tb_name (sub_tables s)).
Proof. exact flatten_names. Qed.
Print Assumptions C23_sheet_names_differ.
(** no row has a value twice under one heading *)
Theorem C23_one_value_per_column : forall O drop pi, schema_ready O -> forall l s w, flatten O drop pi l = Ok s w -> name_free O s ->
  forall x row, In x (tables s) -> In row (tb_rows x) -> NoDup (map fst row).
Proof. exact flatten_keys. Qed.
Print Assumptions C23_one_value_per_column.
(** every column is used by a row, or is one of the schema *)
Theorem C23_columns_used : forall O, RoundTrip.whole O -> forall drop pi docs s w, flatten O drop pi (map JO docs) = Ok s w -> name_free O s ->
  Forall (fun d => clean (JO d) /\ RoundTrip.ids_are_values O (JO d)) docs ->
  forall t k, In t (tables s) -> In k (tb_header t) ->
    (exists row, In row (tb_rows t) /\ In k (map fst row)) \/
    exists sc, po_schema O = Some sc /\ (In k (header (sci_main sc)) \/ exists n x, In (n, x) (sci_subs sc) /\ In k (header x)).
Proof. exact columns_used. Qed.
Print Assumptions C23_columns_used.
(** the field of the root id inside the record: a column "ocid" without values *)
Theorem C23_unused_column_refuted : exists s, flatten (ftest_opts (u "ocid")) false [] [JO [(u "a", JO [(u "ocid", t "1")])]] = Ok s [] /\
  tb_header (main_table s) = [u "ocid"; u "a/ocid"] /\ tb_rows (main_table s) = [[(u "a/ocid", t "1")]].
Proof. eexists. split; [vm_compute; reflexivity|]. split; vm_compute; reflexivity. Qed.
Print Assumptions C23_unused_column_refuted.
Example C23_used_meets : RoundTrip.whole case_opts /\ Forall (fun v => clean v /\ RoundTrip.ids_are_values case_opts v) case.
Proof.
  split; [repeat split; left; reflexivity|]. pose proof case_clean as C. inversion C as [|? ? C1 C']; subst. inversion C' as [|? ? C2 _]; subst.
  assert (G : forall v, In v case -> RoundTrip.ids_are_values case_opts v).
  { intros v Hv Q d Ha. apply places_all in Ha.
    set (ok := fun x => match leaf_cell case_opts x with Some _ => true | None => false end).
    assert (B : forallb (fun p => match snd p with
        | JO e => match sget (u "id") e with Some x => ok x | None => true end && match sget (u "ocid") e with Some x => Nat.eqb (List.length (fst p)) 0 && ok x | None => true end
        | _ => true end) (flat_map places case) = true) by (vm_compute; reflexivity).
    rewrite forallb_forall in B. specialize (B (Q, JO d) (proj2 (in_flat_map _ _ _) (ex_intro _ v (conj Hv Ha)))). cbn [fst snd] in B. apply andb_prop in B as [B1 B2].
    assert (L : forall x, ok x = true -> leaf_cell case_opts x <> None) by (intros x; unfold ok; destruct (leaf_cell case_opts x); discriminate).
    split; [intros x Hx; change (po_id_name case_opts) with (u "id") in Hx; rewrite Hx in B1; apply L, B1|]. intros _ x Hx. change (po_root_id case_opts) with (u "ocid") in Hx. rewrite Hx in B2.
    apply andb_prop in B2 as [B2 B3]. split; [destruct Q; [reflexivity|discriminate]|apply L, B3]. }
  constructor; [split; [exact C1|apply G; left; reflexivity]|]. constructor; [split; [exact C2|apply G; right; left; reflexivity]|constructor].
Qed.
Example C23_meets : schema_ready case_opts /\ exists s, flatten case_opts false [] ([hd (t "") case] ++ tl case) = Ok s [] /\ name_free case_opts s /\
  tb_header (main_table s) = [u "ocid"; u "id"; u "a/b"; u "tags"].
Proof.
  split; [exact I|]. destruct case_runs as (s & H & F & _). exists s. split; [exact H|]. split; [exact F|]. vm_compute in H. injection H as <-. vm_compute. reflexivity.
Qed.

(** ** C24 one row per object *)
Theorem C24_main_rows : forall O drop pi, simple O -> forall l s w, flatten O drop pi l = Ok s w -> name_free O s ->
  List.length (tb_rows (main_table s)) = List.length (records (chosen O l)).
Proof. exact count_main. Qed.
Print Assumptions C24_main_rows.
Theorem C24_main_rows_in_order : forall O drop pi, simple O -> forall l s w, flatten O drop pi l = Ok s w -> name_free O s -> Forall clean l -> po_rollup O = [] ->
  Forall2 (record_shown O) (records (chosen O l)) (tb_rows (main_table s)).
Proof. exact shown_main. Qed.
Print Assumptions C24_main_rows_in_order.
(** each item once, in the order in which the items end *)
Theorem C24_sub_rows_in_order : forall O drop pi, simple O -> forall l s w, flatten O drop pi l = Ok s w -> name_free O s -> Forall clean l ->
  key_ok (po_id_name O) -> key_ok (po_root_id O) ->
  forall x, In x (sub_tables s) -> Forall2 (item_shown O) (sheet_items O (tb_name x) (chosen O l)) (tb_rows x).
Proof. exact shown_subs. Qed.
Print Assumptions C24_sub_rows_in_order.
Theorem C24_sub_sheets : forall O drop pi, simple O -> forall l s w, flatten O drop pi l = Ok s w -> name_free O s -> Forall clean l ->
  forall n, (In n (map tb_name (sub_tables s)) -> schema_sheet O n \/ sheet_items O n (chosen O l) <> []) /\
            (sheet_items O n (chosen O l) <> [] -> In n (map tb_name (sub_tables s))).
Proof. exact names_subs. Qed.
Print Assumptions C24_sub_sheets.
(** the list of items is what it should be: the objects in arrays, at any depth *)
Theorem C24_items_sound : forall v, clean v -> forall x, In x (items_in v) -> at_path v (it_path x) = Some (JO (it_obj x)).
Proof. exact items_at. Qed.
Print Assumptions C24_items_sound.
Theorem C24_items_complete : forall v, clean v -> forall q k i e, at_path v (q ++ [(k, Some i)]) = Some (JO e) ->
  In {| it_at := q; it_key := k; it_pos := i; it_obj := e |} (items_in v).
Proof. exact items_all. Qed.
Print Assumptions C24_items_complete.
(** an item with an array inside that shares its sheet comes after that array's items *)
Definition shared : list jv := [JO [(u "a_d", JA [JO [(u "v", t "outer"); (u "d", JA [JO [(u "v", t "inner")]])]])]].
Theorem C24_document_order_refuted : exists O l s w x, simple O /\ Forall clean l /\ flatten O false [] l = Ok s w /\ In x (sub_tables s) /\
  tb_rows x = [[(u "a_d/0/d/0/v", t "inner")]; [(u "a_d/0/v", t "outer")]].
Proof.
  exists {| po_str := test_env; po_titles := false; po_schema := None; po_root_id := []; po_id_name := u "id"; po_xml := false;
     po_filter := None; po_preserve := []; po_rollup := []; po_trunc := 1; po_wkt := false; po_shape := None; po_set_order := fun l => l |}, shared.
  eexists. eexists. eexists. split; [split; [left; reflexivity|repeat split]|]. split; [clean_case|]. split; [vm_compute; reflexivity|]. split; [left; reflexivity|]. vm_compute. reflexivity.
Qed.
Print Assumptions C24_document_order_refuted.
Example C24_meets : simple case_opts /\ Forall clean case /\ key_ok (po_id_name case_opts) /\ key_ok (po_root_id case_opts) /\ po_rollup case_opts = [] /\
  (exists s, flatten case_opts false [] case = Ok s [] /\ name_free case_opts s) /\
  map (fun vx => (it_path (snd vx))) (sheet_items case_opts (u "a_c") case) = [[(u "a", None); (u "c", Some 0%nat)]; [(u "a", None); (u "c", Some 1%nat)]].
Proof.
  split; [split; [left; reflexivity|repeat split]|]. split; [exact case_clean|]. destruct case_keys as [K1 K2]. split; [exact K1|]. split; [exact K2|]. split; [reflexivity|].
  destruct case_runs as (s & H & F & _). split; [eauto|]. vm_compute. reflexivity.
Qed.

(** ** C25, C26 the row of an item: its leaves, the ids around it, nothing else *)
Theorem C25_item_row : forall O drop pi, simple O -> forall l s w v x, flatten O drop pi l = Ok s w -> name_free O s -> Forall clean l ->
  key_ok (po_id_name O) -> key_ok (po_root_id O) ->
  In v (chosen O l) -> at_path v (it_path x) = Some (JO (it_obj x)) -> keeps O (it_path x) = true ->
  exists y row, In y (sub_tables s) /\ tb_name y = item_sheet O (v, x) /\ In row (tb_rows y) /\ item_shown O (v, x) row.
Proof. exact item_has_row. Qed.
Print Assumptions C25_item_row.
(** a key that contains the separator *)
Definition slashes : list jv := [JO [(u "a/b", t "1"); (u "a", JO [(u "b", t "2")])]].
Theorem C25_separator_refuted : exists l s w, flatten (ftest_opts []) false [] l = Ok s w /\
  at_path (hd (t "") l) [(u "a/b", None)] = Some (t "1") /\ forall x row, In x (tables s) -> In row (tb_rows x) -> ~ In (t "1") (map snd row).
Proof.
  exists slashes. eexists. eexists. split; [vm_compute; reflexivity|]. split; [vm_compute; reflexivity|].
  intros x row [<-|[]] Hr. vm_compute in Hr. destruct Hr as [<-|[]]. vm_compute. intuition discriminate.
Qed.
Print Assumptions C25_separator_refuted.
Theorem C26_ids : forall O drop pi, simple O -> forall l s w, flatten O drop pi l = Ok s w -> name_free O s -> Forall clean l ->
  key_ok (po_id_name O) -> key_ok (po_root_id O) ->
  forall y, In y (sub_tables s) -> Forall2 (fun vx row => (root_id_once O (fst vx) -> shows_ids O (fst vx) (it_path (snd vx)) row /\ shows_root O (fst vx) row) /\
    shows_only O (leaf_cell O) (keeps O) (fst vx) (it_path (snd vx)) (it_obj (snd vx)) row) (sheet_items O (tb_name y) (chosen O l)) (tb_rows y).
Proof.
  intros O drop pi P l s w H HF Hc KI KR y Hy. pose proof (shown_subs O drop pi P l s w H HF Hc KI KR y Hy) as F.
  eapply Forall2_weaken; [|exact F]. intros [v x] row (_ & A & B). exact (conj A B).
Qed.
Print Assumptions C26_ids.
(** an inner object that uses the name of the root id hides the root id of the record *)
Definition hidden : list jv := [JO [(u "ocid", t "root"); (u "b", JO [(u "ocid", t "other"); (u "c", JA [JO [(u "v", t "5")]])])]].
Theorem C26_root_id_refuted : exists l s w x, simple case_opts /\ Forall clean l /\ flatten case_opts false [] l = Ok s w /\ In x (sub_tables s) /\
  tb_rows x = [[(u "ocid", t "other"); (u "b/c/0/v", t "5")]].
Proof.
  exists hidden. eexists. eexists. eexists. split; [split; [left; reflexivity|repeat split]|]. split; [clean_case|]. split; [vm_compute; reflexivity|]. split; [left; reflexivity|]. vm_compute. reflexivity.
Qed.
Print Assumptions C26_root_id_refuted.
Example C26_case : exists s, flatten case_opts false [] case = Ok s [] /\ map tb_rows (sub_tables s) =
  [ [ [(u "ocid", t "o1"); (u "id", t "1"); (u "a/c/0/id", t "i1"); (u "a/c/0/v", t "5")];
      [(u "ocid", t "o1"); (u "id", t "1"); (u "a/c/0/id", t "i2"); (u "a/c/0/v", t "6")] ];
    [ [(u "ocid", t "o1"); (u "id", t "1"); (u "a/c/0/id", t "i1"); (u "a/c/0/d/0/id", t "j"); (u "a/c/0/d/0/z", t "9")] ] ].
Proof. eexists. split; vm_compute; reflexivity. Qed.
Example C26_meets : Forall (root_id_once case_opts) case.
Proof. repeat constructor; apply lacks_once; vm_compute; reflexivity. Qed.

(** ** C27 filtering *)
Theorem C27_filter : forall O, po_wkt O = false -> forall field value drop pi l, po_filter O = Some (field, value) ->
  outcome (flatten O drop pi l) = outcome (flatten (without_filter O) drop pi (filter (passes field value) l)).
Proof. exact flatten_filter. Qed.
Print Assumptions C27_filter.
Definition with_filter (f v : str) : popts :=
  {| po_str := test_env; po_titles := false; po_schema := None; po_root_id := u "ocid"; po_id_name := u "id"; po_xml := false;
     po_filter := Some (f, v); po_preserve := []; po_rollup := []; po_trunc := 3; po_wkt := false; po_shape := None; po_set_order := fun l => l |}.
Example C27_meets : po_wkt (with_filter (u "id") (u "2")) = false /\ filter (passes (u "id") (u "2")) case = tl case /\ map (fun x => List.length (tb_rows x)) (run (with_filter (u "id") (u "2")) case) = [1%nat].
Proof. vm_compute. tauto. Qed.

(** ** C28 preserved fields.  [keeps O Q] decides whether the row of the item
    around the place [Q] shows it (C24, C25: [item_shown], [record_shown]). *)
Theorem C28_kept : forall lines R, Forall2 written lines R -> Forall request_ok R -> forall O, po_preserve O = preserve_fields lines -> R <> [] ->
  forall Q, keys_ok Q ->
  (forall ks1 ks2, keys_of Q = ks1 ++ ks2 -> ks1 <> [] -> asked R ks1 \/
     exists a b, ks1 = a ++ b /\ a <> [] /\ b <> [] /\ forall r, In r R -> contains (join (u "/") r) (slashed a) = false) ->
  keeps O Q = true.
Proof. exact requested_kept. Qed.
Print Assumptions C28_kept.
Theorem C28_dropped : forall lines R, Forall2 written lines R -> Forall request_ok R -> forall O, po_preserve O = preserve_fields lines -> R <> [] ->
  forall Q Q1 k o Q2, keys_ok Q -> Q = Q1 ++ (k, o) :: Q2 ->
  (exists r x, In r R /\ r = keys_of Q1 ++ x /\ x <> []) -> ~ asked R (keys_of Q1 ++ [k]) -> (Q1 = [] -> forall l, ~ In (l ++ [k]) R) ->
  keeps O Q = false.
Proof. exact unrequested_dropped. Qed.
Print Assumptions C28_dropped.
Definition preserving (lines : list str) : popts :=
  {| po_str := test_env; po_titles := false; po_schema := None; po_root_id := []; po_id_name := u "id"; po_xml := false;
     po_filter := None; po_preserve := preserve_fields lines; po_rollup := []; po_trunc := 3; po_wkt := false; po_shape := None; po_set_order := fun l => l |}.
(** a field requested below two objects is lost: the outer object is dropped *)
Definition deep : jv := JO [(u "a", JO [(u "b", JO [(u "c", t "1")])]); (u "c", t "2")].
Theorem C28_deep_request_refuted : exists line r, written line r /\ request_ok r /\ at_path deep (down r) = Some (t "1") /\
  map tb_rows (run (preserving [line]) [deep]) = [[[(u "c", t "2")]]].
Proof.
  exists (u "a/b/c"), [u "a"; u "b"; u "c"]. split; [vm_compute; reflexivity|]. split; [split; [discriminate|repeat constructor; try discriminate; intros Q; simpl in Q; intuition discriminate]|].
  vm_compute. tauto.
Qed.
Print Assumptions C28_deep_request_refuted.
(** everything inside a requested object, except if another request mentions its path *)
Definition wide : jv := JO [(u "ab", JO [(u "x", t "1"); (u "y", t "2")]); (u "cab", JO [(u "x", t "3"); (u "z", t "4")]); (u "q", t "5")].
Theorem C28_substring_refuted :
  map tb_rows (run (preserving [u "ab"]) [wide]) = [[[(u "ab/x", t "1"); (u "ab/y", t "2")]]] /\
  map tb_rows (run (preserving [u "ab"; u "cab/z"]) [wide]) = [[[(u "cab/z", t "4")]]].
Proof. vm_compute. tauto. Qed.
Print Assumptions C28_substring_refuted.
Example C28_meets : let R := [[u "a"; u "c"]; [u "id"]] in let Q := [(u "a", None); (u "c", Some 1%nat); (u "v", None)] in
  Forall2 written [u "a/c "; u " id"] R /\ Forall request_ok R /\ keys_ok Q /\
  (forall ks1 ks2, keys_of Q = ks1 ++ ks2 -> ks1 <> [] -> asked R ks1 \/
     exists a b, ks1 = a ++ b /\ a <> [] /\ b <> [] /\ forall r, In r R -> contains (join (u "/") r) (slashed a) = false) /\
  keeps (preserving [u "a/c "; u " id"]) Q = true /\ keeps (preserving [u "a/c "; u " id"]) [(u "a", None); (u "b", None)] = false.
Proof.
  intros R Q. split; [repeat constructor|]. split; [repeat constructor; try discriminate; intros q; simpl in q; intuition discriminate|].
  split; [repeat constructor; try discriminate; intros q; simpl in q; intuition discriminate|]. split; [|vm_compute; tauto].
  intros ks1 ks2 E H. destruct ks1 as [|k1 [|k2 [|k3 [|k4 ks]]]]; simpl in E.
  - congruence.
  - injection E as <- <-. left. exists [u "a"; u "c"]. split; [left; reflexivity|]. right. exists (u "c"). reflexivity.
  - injection E as <- <- <-. left. exists [u "a"; u "c"]. split; [left; reflexivity|]. left. reflexivity.
  - injection E as <- <- <- <-. right. exists [u "a"; u "c"], [u "v"]. split; [reflexivity|]. split; [discriminate|]. split; [discriminate|]. intros r [<-|[<-|[]]]; vm_compute; reflexivity.
  - discriminate E.
Qed.

(** ** C29 roll-up *)
Theorem C29_main_rows : forall O drop pi, simple O -> forall l s w, (forall l, Permutation l (po_set_order O l)) ->
  flatten O drop pi l = Ok s w -> name_free O s -> Forall clean l -> Forall2 (roll_shown O) (records (chosen O l)) (tb_rows (main_table s)).
Proof. exact shown_rolled. Qed.
Print Assumptions C29_main_rows.
Theorem C29_only_adds : forall O drop pi, simple O -> po_filter O = None -> (forall l, Permutation l (po_set_order O l)) ->
  forall l s w s0 w0, flatten O drop pi l = Ok s w -> name_free O s -> flatten (without_rollup O) drop pi l = Ok s0 w0 -> name_free (without_rollup O) s0 -> Forall clean l ->
  Forall2 (fun row0 row => forall c v, sget c row0 = Some v -> sget c row = Some v) (tb_rows (main_table s0)) (tb_rows (main_table s)) /\
  (forall n, ~ schema_sheet O n -> In n (map tb_name (sub_tables s)) <-> In n (map tb_name (sub_tables s0))) /\
  (forall x x0, In x (sub_tables s) -> In x0 (sub_tables s0) -> tb_name x = tb_name x0 -> tb_rows x = tb_rows x0).
Proof. exact roll_compare. Qed.
Print Assumptions C29_only_adds.
Definition rolling (ks : list str) : popts :=
  {| po_str := test_env; po_titles := false; po_schema := None; po_root_id := []; po_id_name := u "id"; po_xml := false;
     po_filter := None; po_preserve := []; po_rollup := ks; po_trunc := 3; po_wkt := false; po_shape := None; po_set_order := fun l => l |}.
Definition arrays : list jv := [ JO [(u "id", t "1"); (u "p", JA [JO [(u "x", t "2")]])]; JO [(u "id", t "3"); (u "p", JA [JO [(u "x", t "4")]; JO [(u "y", t "5")]])] ].
Example C29_meets : simple (rolling [u "p"]) /\ (forall l, Permutation l (po_set_order (rolling [u "p"]) l)) /\ Forall clean arrays /\
  (exists s w, flatten (rolling [u "p"]) false [] arrays = Ok s w /\ name_free (rolling [u "p"]) s) /\
  (exists s w, flatten (without_rollup (rolling [u "p"])) false [] arrays = Ok s w /\ name_free (without_rollup (rolling [u "p"])) s) /\
  map tb_rows (run (rolling [u "p"]) arrays) =
  [ [ [(u "id", t "1"); (u "p/0/x", t "2")]; [(u "id", t "3"); (u "p/0/x", JS (SStr rollup_text)); (u "p/0/y", JS (SStr rollup_text))] ];
    [ [(u "id", t "1"); (u "p/0/x", t "2")]; [(u "id", t "3"); (u "p/0/x", t "4")]; [(u "id", t "3"); (u "p/0/y", t "5")] ] ].
Proof.
  split; [split; [left; reflexivity|repeat split]|]. split; [intros l; apply Permutation_refl|]. split; [clean_case|].
  split; [eexists; eexists; split; [vm_compute; reflexivity|intros _; vm_compute; intuition discriminate]|].
  split; [eexists; eexists; split; [vm_compute; reflexivity|intros _; vm_compute; intuition discriminate]|]. vm_compute. reflexivity.
Qed.
(** rolling up one array makes another, with one nested item, fail *)
Theorem C29_other_array_refuted : exists l e w, Forall clean l /\ Forall (fun v => regular v) l /\
  flatten (rolling [u "p"]) false [] l = Raise e w /\ exists s w', flatten (rolling []) false [] l = Ok s w'.
Proof.
  exists [JO [(u "other", JA [JO [(u "x", JO [(u "y", t "1")])]])]]. eexists. eexists. split; [clean_case|]. split.
  - constructor; [|constructor]. simpl. split; [|exact I]. right. right. split; [intros v [<-|[]]; right; eexists; reflexivity|]. tauto.
  - split; [vm_compute; reflexivity|]. eexists. eexists. vm_compute. reflexivity.
Qed.
Print Assumptions C29_other_array_refuted.

(** ** C30 the row store *)
Theorem C30_read_back : forall l n x, proper [] l -> aget oname_eqb n (fst (run_ops l)) = Some x -> lines_of (snd (run_ops l)) x = added n l.
Proof. exact store_reads_back. Qed.
Print Assumptions C30_read_back.
Theorem C30_sheets_exist : forall l n, proper [] l -> In n (created l) -> exists x, aget oname_eqb n (fst (run_ops l)) = Some x.
Proof. exact store_has. Qed.
Print Assumptions C30_sheets_exist.
(** a second sheet of the same name takes the rows of the first *)
Theorem C30_same_name_refuted : exists l n r, In (SAdd n r) l /\ exists x, aget oname_eqb n (fst (run_ops l)) = Some x /\ lines_of (snd (run_ops l)) x = [].
Proof.
  exists [SNew (Some (u "a")); SAdd (Some (u "a")) [(u "x", t "1")]; SNew (Some (u "a"))], (Some (u "a")), [(u "x", t "1")].
  split; [right; left; reflexivity|]. eexists. split; vm_compute; reflexivity.
Qed.
Print Assumptions C30_same_name_refuted.
Example C30_meets : let l := [SNew (Some (u "a")); SAdd (Some (u "a")) [(u "x", t "1")]; SNew None; SAdd None [(u "y", t "2")]; SAdd (Some (u "a")) [(u "x", t "3")]] in
  proper [] l /\ In (Some (u "a")) (created l) /\ added (Some (u "a")) l = [[(u "x", t "1")]; [(u "x", t "3")]].
Proof. vm_compute. intuition discriminate. Qed.

(** ** C31 sheet names *)
Theorem C31_name : forall q k trunc, path_ok q -> make_sub_sheet_name (pre q) k trunc 47 =
  replace_c 58 45 (flat_map (fun x => firstn trunc x ++ u "_") (filter (fun x => negb (str_eqb x (u "0"))) (map fst q)) ++ k).
Proof. exact name_of_path. Qed.
Print Assumptions C31_name.
Theorem C31_no_colon : forall parent k trunc sep, ~ In 58%N (make_sub_sheet_name parent k trunc sep).
Proof. exact name_no_colon. Qed.
Print Assumptions C31_no_colon.
Theorem C31_columns_differ : forall q1 k1 i1 ks1 x1 q2 k2 i2 ks2 x2,
  (forall st, In st (q1 ++ (k1, Some i1) :: q2 ++ (k2, Some i2) :: down ks1 ++ down ks2) -> key_ok (fst st) /\ fst st <> u "0") -> key_ok x1 -> key_ok x2 ->
  pre (q1 ++ [(k1, Some i1)]) ++ pre (down ks1) ++ x1 = pre (q2 ++ [(k2, Some i2)]) ++ pre (down ks2) ++ x2 ->
  shape q1 = shape q2 /\ k1 = k2 /\ ks1 = ks2 /\ x1 = x2.
Proof. exact array_columns. Qed.
Print Assumptions C31_columns_differ.
Example C31_shared : make_sub_sheet_name (pre [(u "tests", None)]) (u "x") 3 47 = u "tes_x" /\ make_sub_sheet_name (pre [(u "tested", Some 4%nat)]) (u "x") 3 47 = u "tes_x" /\
  path_ok [(u "tested", Some 4%nat)].
Proof. split; [vm_compute; reflexivity|]. split; [vm_compute; reflexivity|]. constructor; [|constructor]. intros Q. simpl in Q. intuition discriminate. Qed.

(** ** C45 totality *)
Theorem C45_regular : forall O, po_xml O = false -> po_wkt O = false -> po_rollup O = [] -> forall drop pi l,
  Forall (fun v => match v with JO _ => regular v | _ => True end) l -> exists s w, flatten O drop pi l = Ok s w.
Proof. exact flatten_oks. Qed.
Print Assumptions C45_regular.
Theorem C45_mixed_array_refuted : exists l e w, flatten (ftest_opts []) false [] l = Raise e w.
Proof. exists [JO [(u "a", JA [JO [(u "x", t "1")]; t "2"])]]. eexists. eexists. vm_compute. reflexivity. Qed.
Print Assumptions C45_mixed_array_refuted.
Theorem C45_nested_array_refuted : exists l e w, flatten (ftest_opts []) false [] l = Raise e w.
Proof. exists [JO [(u "a", JA [JA [JO [(u "x", t "1")]]])]]. eexists. eexists. vm_compute. reflexivity. Qed.
Print Assumptions C45_nested_array_refuted.
Example C45_meets : Forall (fun v => match v with JO _ => regular v | _ => True end) (t "not an object" :: case).
Proof.
  constructor; [exact I|]. constructor; [|constructor; [|constructor]]; simpl;
  repeat match goal with
  | |- _ /\ _ => split
  | |- True => exact I
  | |- _ = true => reflexivity
  | |- _ \/ _ \/ _ => first [ solve [ left; intros v Hv; simpl in Hv; intuition (subst; reflexivity) ] | right; right ]
  | |- forall v, _ -> _ \/ _ => intros v Hv; simpl in Hv; right; intuition (subst; eexists; reflexivity)
  end.
Qed.
