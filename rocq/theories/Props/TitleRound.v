(** C62: flattening with a schema and titles, and unflattening with the same schema
    and titles.  The conditions are in Spec/TitledTrip.v; documents, tables and what
    "the same" means are in Spec/RoundTrip.v. *)
From Coq Require Import String Permutation Lia ZArith.
From Verif.Base Require Import PyStr PyNum PyVal PyDict Outcome.
From Verif.Model Require Import Warn Lib Convert Json Input Readers Flatten Titles TitleLines Schema.
From Verif.Tests Require Import TestLib FlattenLib.
From Verif.Spec Require SchemaFields.
From Verif.Spec Require Import Flat Sites Paths Headings Titled SchemaTitled RoundTrip Typed TitledTrip Positions.
From Verif.Proofs Require Import FlattenTotal FlattenPaths RtDoc RtMain RtTyped RtCheck SchemaCheck SchemaOnce TitleTrip TitleCheck TitledReady.

Lemma run62 SO S O docs : titled_run SO S O -> documents O docs -> forall drop pi, exists s w, flatten O drop pi (map JO docs) = Ok s w.
Proof.
  intros (_ & (_ & X & W) & _ & R & _) HD drop pi. apply flatten_oks; [exact X|exact W|exact R|].
  apply Forall_map. apply Forall_forall. intros o Ho. apply (tidy_regular O). exact (proj1 (doc_ok O docs HD o Ho)).
Qed.
(** nothing is lost, whatever the order of the sheets and of the rows of a sheet;
    the only warnings there can be are about headings *)
Theorem C62_titles_round_trip SO S O drop pi P T write docs b : titled_run SO S O -> readable_titles SO S -> all_titled SO S docs -> reads_schema SO S P T ->
  blank b = true -> documents O docs -> survive O P write docs ->
  exists s w, flatten O drop pi (map JO docs) = Ok s w /\
    forall Ts sheets, Permutation (tables s) Ts -> Forall2 (table_shuffled write b) Ts sheets ->
      exists out w', unflatten_titled (so_lower SO) P (Some T) sheets = Ok out w' /\ Forall about_headings w' /\ same_records (@Permutation jv) docs out.
Proof.
  intros HT HR HA HS Hb HD HV. destruct (run62 SO S O docs HT HD drop pi) as (s & w & E). exists s, w. split; [exact E|]. intros Ts sheets HTs F. destruct HT as (H1 & H2 & H3 & H4 & H5 & H6 & H7 & H8).
  destruct (titled_any SO S O drop pi docs s w P T write b H1 H2 H3 H4 H5 H6 H7 H8 HR HA HD HS HV Hb E Ts sheets HTs F) as (out & w' & R & Hw & Hs). exists out, w'. split; [exact R|]. split; [apply only_headings; exact Hw|exact Hs].
Qed.
Print Assumptions C62_titles_round_trip.
(** nor the order, when the main table comes first, no table comes before the one
    with the items around its own, and records with the same root id are next to
    each other *)
Theorem C62_order SO S O drop pi P T write docs b : titled_run SO S O -> readable_titles SO S -> all_titled SO S docs -> reads_schema SO S P T ->
  blank b = true -> documents O docs -> survive O P write docs -> roots_together O docs ->
  exists s w, flatten O drop pi (map JO docs) = Ok s w /\
    forall Ts sheets, Permutation (sub_tables s) Ts -> outer_sheets_first O docs (map tb_name Ts) -> Forall2 (table_shown write b) (main_table s :: Ts) sheets ->
      exists out w', unflatten_titled (so_lower SO) P (Some T) sheets = Ok out w' /\ Forall about_headings w' /\ same_records eq docs out.
Proof.
  intros HT HR HA HS Hb HD HV Hrt. destruct (run62 SO S O docs HT HD drop pi) as (s & w & E). exists s, w. split; [exact E|]. intros Ts sheets HTs Hof F. destruct HT as (H1 & H2 & H3 & H4 & H5 & H6 & H7 & H8).
  destruct (titled_ordered SO S O drop pi docs s w P T write b H1 H2 H3 H4 H5 H6 H7 H8 HR HA HD HS HV Hb E Ts sheets HTs F Hof Hrt) as (out & w' & R & Hw & Hs). exists out, w'. split; [exact R|]. split; [apply only_headings; exact Hw|exact Hs].
Qed.
Print Assumptions C62_order.
(** the cells survive when the values have the types the schema gives them *)
Theorem C62_typed SO S O drop pi P T F write docs b : titled_run SO S O -> readable_titles SO S -> all_titled SO S docs -> reads_schema SO S P T ->
  o_xml P = false -> o_id_name P = po_id_name O -> o_root_id P = po_root_id O -> blank b = true -> documents O docs ->
  Forall (has_types (o_types P)) docs ->
  (forall d Q, In d docs -> at_path (JO d) (Q ++ [(po_id_name O, None)]) <> None -> type_at (o_types P) (Q ++ [(po_id_name O, None)]) <> u "number") ->
  (forall s, s <> SNone -> write s = s \/ write s = SStr (py_str F s)) ->
  ((forall d s, In d docs -> root_key O d = Some (JS s) -> exists t, s = SStr t) \/ (forall d s, In d docs -> root_key O d = Some (JS s) -> exists z, s = SInt z)) ->
  exists s w, flatten O drop pi (map JO docs) = Ok s w /\
    forall Ts sheets, Permutation (tables s) Ts -> Forall2 (table_shuffled write b) Ts sheets ->
      exists out w', unflatten_titled (so_lower SO) P (Some T) sheets = Ok out w' /\ Forall about_headings w' /\ same_records (@Permutation jv) docs out.
Proof. intros HT HR HA HS Hx Hi Hr Hb HD Hty Hn Hw Hk. apply (C62_titles_round_trip SO S); try assumption. apply (typed_survive O P F); assumption. Qed.
Print Assumptions C62_typed.

(** for the parsed schema of the options such a run is all there is: the sheets made
    from it need not be looked at *)
Theorem C62_run : forall SO S st w O, parse_schema SO S = Ok st w -> so_titles SO = true -> po_titles O = true -> po_schema O = Some (schema_info_of st) ->
  readable_titles SO S -> ~ In 47%N (so_root_id SO) -> ~ In 58%N (so_root_id SO) -> (forall i, SchemaFields.property SO S (u "id") i -> SchemaFields.title_of i <> Some (so_root_id SO)) ->
  po_xml O = false -> po_wkt O = false -> (forall l, Permutation l (po_set_order O l)) -> po_rollup O = [] -> po_filter O = None -> po_preserve O = [] ->
  own_words SO S (po_root_id O) -> own_words SO S (po_id_name O) -> titled_run SO S O.
Proof. exact titled_run_ready. Qed.
Print Assumptions C62_run.

(** ** A case *)
Local Open Scope string_scope.
Local Open Scope list_scope.
Definition field62 (type title : string) : sv := VO None [(u "type", VS (SStr (u type))); (u "title", VS (SStr (u title)))].
Definition list62 (title : string) : sv := VO None [(u "type", VS (SStr (u "array"))); (u "title", VS (SStr (u title))); (u "items", VO None [(u "type", VS (SStr (u "string")))])].
Definition object62 (title : string) (ps : list (str * sv)) : sv := VO None [(u "type", VS (SStr (u "object"))); (u "title", VS (SStr (u title))); (u "properties", VO None ps)].
Definition array62 (title : string) (ps : list (str * sv)) : sv :=
  VO None [(u "type", VS (SStr (u "array"))); (u "title", VS (SStr (u title))); (u "items", VO None [(u "type", VS (SStr (u "object"))); (u "properties", VO None ps)])].
Definition schema62 : sv := VO None [(u "properties", VO None
  [(u "id", field62 "string" "Number"); (u "ocid", field62 "string" "Process Id"); (u "total", field62 "number" "Total"); (u "tags", list62 "Tags");
   (u "buyer", object62 "Buyer" [(u "id", field62 "string" "Number"); (u "name", field62 "string" "Name")]);
   (u "bids", array62 "Bids" [(u "id", field62 "string" "Number"); (u "value", field62 "integer" "Value"); (u "open", field62 "boolean" "Open");
      (u "docs", array62 "Documents" [(u "id", field62 "string" "Number"); (u "url", field62 "string" "Link")])])])].
Definition sopts62 (titles : bool) (root : string) : sopts := {| so_rollup := false; so_root_id := u root; so_titles := titles; so_trunc := 3; so_nodep := false; so_wkt := false; so_lower := lower |}.
Definition parsed62 (titles : bool) (root : string) : sps := match parse_schema (sopts62 titles root) schema62 with Ok st _ => st | Raise _ _ => sps_start end.
Definition opts62 : popts :=
  {| po_str := test_env; po_titles := true; po_schema := Some (schema_info_of (parsed62 true "ocid")); po_root_id := u "ocid"; po_id_name := u "id"; po_xml := false;
     po_filter := None; po_preserve := []; po_rollup := []; po_trunc := 3; po_wkt := false; po_shape := None; po_set_order := fun l => l |}.
(* unflatten parses the schema on its own, without the titles and the root id *)
Definition back62 : opts := {| o_conv := test_cenv; o_types := types_of (parsed62 false ""); o_root_id := u "ocid"; o_id_name := u "id"; o_xml := false; o_vertical := false |}.
Definition table62 : Titles.table := sp_table (parsed62 false "").
Definition t62 (x : string) : jv := JS (SStr (u x)).
Definition docs62 : list jobj :=
  [ [(u "id", t62 "1"); (u "ocid", t62 "a"); (u "total", JS (SDec (DFin false 125 (-1)))); (u "tags", JA [t62 "x"; t62 "y"]); (u "buyer", JO [(u "id", t62 "b1"); (u "name", t62 "B")]);
     (u "bids", JA [JO [(u "id", t62 "p"); (u "value", JS (SInt 7)); (u "docs", JA [JO [(u "id", t62 "d"); (u "url", t62 "L")]; JO [(u "id", t62 "e")]])];
                    JO [(u "id", t62 "q"); (u "open", JS (SBool false)); (u "docs", JA [JO [(u "id", t62 "d"); (u "url", t62 "M")]])]])];
    [(u "id", t62 "2"); (u "ocid", t62 "a"); (u "bids", JA [JO [(u "id", t62 "p"); (u "value", JS (SInt 9))]])] ].
Lemma parse62 titles root : (titles, root) = (true, "ocid") \/ (titles, root) = (false, "") -> exists w, parse_schema (sopts62 titles root) schema62 = Ok (parsed62 titles root) w.
Proof.
  intros H. unfold parsed62. assert (G : match parse_schema (sopts62 titles root) schema62 with Ok _ _ => true | Raise _ _ => false end = true) by (destruct H as [[= -> ->]|[= -> ->]]; vm_compute; reflexivity).
  destruct (parse_schema (sopts62 titles root) schema62) as [st w|e w]; [exists w; reflexivity|discriminate G].
Qed.
Lemma readable62 : readable_titles (sopts62 true "ocid") schema62.
Proof.
  split; [apply clear_ok; vm_compute; reflexivity|]. split; [apply keys_ok; vm_compute; reflexivity|]. split; [apply plain_ok; vm_compute; reflexivity|]. split; [apply named_ok; vm_compute; reflexivity|].
  split; [apply worded_ok; vm_compute; reflexivity|]. split; [apply apart_ok; vm_compute; reflexivity|]. split; [apply titled_ids_ok; vm_compute; reflexivity|]. apply words_ok. vm_compute. reflexivity.
Qed.
Lemma titled62 : titled_run (sopts62 true "ocid") schema62 opts62.
Proof.
  destruct (parse62 true "ocid") as (w & E); [left; reflexivity|].
  apply (C62_run _ _ _ w opts62 E eq_refl eq_refl eq_refl readable62); try reflexivity; try (intros X; vm_compute in X; repeat (destruct X as [X|X]; [discriminate X|]); exact X).
  - intros i (r & d & (r' & e & Es & Ep) & Hi & _) T. injection Es as <- <-. vm_compute in Ep. injection Ep as <- <-. cbn [In] in Hi.
    repeat (destruct Hi as [Hi|Hi]; [first [discriminate Hi|injection Hi as <-; vm_compute in T; discriminate T]|]). destruct Hi.
  - apply own_words_ok; vm_compute; reflexivity.
  - apply own_words_ok; vm_compute; reflexivity.
Qed.
Lemma reads62 : reads_schema (sopts62 true "ocid") schema62 back62 table62.
Proof. destruct (parse62 false "") as (w & E); [right; reflexivity|]. exists (sopts62 false ""), (parsed62 false ""), w. split; [exact E|]. repeat split. Qed.
(** the conditions, and what the tables look like *)
Example C62_meets : titled_run (sopts62 true "ocid") schema62 opts62 /\ readable_titles (sopts62 true "ocid") schema62 /\ all_titled (sopts62 true "ocid") schema62 docs62 /\
  reads_schema (sopts62 true "ocid") schema62 back62 table62 /\ documents opts62 docs62 /\ survive opts62 back62 as_is docs62 /\ roots_together opts62 docs62 /\
  match flatten opts62 false [] (map JO docs62) with
  | Ok s _ => map (fun t => (tb_name t, tb_header t)) (tables s)
  | Raise _ _ => [] end =
  [ ([], map u ["Number"; "Process Id"; "Total"; "Tags"; "Buyer:Number"; "Buyer:Name"]);
    (u "Bids", map u ["ocid"; "Number"; "Bids:Number"; "Bids:Value"; "Bids:Open"; "Process Id"]);
    (u "Bid_Documents", map u ["ocid"; "Number"; "Bids:Number"; "Bids:Documents:Number"; "Bids:Documents:Link"; "Process Id"]) ].
Proof.
  split; [exact titled62|]. split; [exact readable62|]. split; [apply all_titled_ok; vm_compute; reflexivity|]. split; [exact reads62|]. split; [apply documents_check; vm_compute; reflexivity|].
  split; [apply survive_check; vm_compute; reflexivity|]. split.
  - intros a d b' e c Q _. destruct b' as [|x b']; [constructor|]. exfalso. apply (f_equal (@List.length jobj)) in Q. rewrite !app_length in Q. cbn [List.length docs62] in Q. rewrite app_length in Q. cbn [List.length] in Q. lia.
  - vm_compute. reflexivity.
Qed.
(** An item with one field more than the schema has: its columns with titles are read
    without position ("bids/value"), the one without title with it ("bids/0/note"),
    and the item comes back as two. *)
Definition extra62 : list jobj := [ [(u "id", t62 "1"); (u "ocid", t62 "a"); (u "bids", JA [JO [(u "id", t62 "p"); (u "value", JS (SInt 7)); (u "note", t62 "N")]])] ].
Definition sheets62 (s : pst) : list sheet_in := map (fun t => {| si_name := tb_name t; si_headings := None; si_lines := map (table_line as_is SNone (tb_header t)) (tb_rows t) |}) (tables s).
Definition state62 : pst := match flatten opts62 false [] (map JO extra62) with Ok s _ => s | Raise _ _ => start opts62 false end.
Theorem C62_extra_refuted : exists SO S O P T docs s w, titled_run SO S O /\ readable_titles SO S /\ reads_schema SO S P T /\ documents O docs /\ survive O P as_is docs /\
  flatten O false [] (map JO docs) = Ok s w /\ Forall2 (table_shown as_is SNone) (tables s) (sheets62 s) /\
  docs = [ [(u "id", t62 "1"); (u "ocid", t62 "a"); (u "bids", JA [JO [(u "id", t62 "p"); (u "value", JS (SInt 7)); (u "note", t62 "N")]])] ] /\
  unflatten_titled (so_lower SO) P (Some T) (sheets62 s) =
    Ok [ [(u "id", VLeaf (CV (SStr (u "1")))); (u "ocid", VLeaf (CV (SStr (u "a"))));
          (u "bids", VList [ [(u "id", VLeaf (CV (SStr (u "p")))); (u "value", VLeaf (CV (SInt 7)))]; [(u "note", VLeaf (CV (SStr (u "N"))))] ])] ] [].
Proof.
  assert (E : exists w, flatten opts62 false [] (map JO extra62) = Ok state62 w).
  { unfold state62. assert (G : match flatten opts62 false [] (map JO extra62) with Ok _ _ => true | Raise _ _ => false end = true) by (vm_compute; reflexivity).
    destruct (flatten opts62 false [] (map JO extra62)) as [s w|e w]; [exists w; reflexivity|discriminate G]. }
  destruct E as (w & E). exists (sopts62 true "ocid"), schema62, opts62, back62, table62, extra62, state62, w. split; [exact titled62|]. split; [exact readable62|]. split; [exact reads62|].
  split; [apply documents_check; vm_compute; reflexivity|]. split; [apply survive_check; vm_compute; reflexivity|]. split; [exact E|]. split; [|split; [reflexivity|vm_compute; reflexivity]].
  unfold sheets62. generalize (tables state62). intros l. induction l as [|t l IH]; constructor; [split; [left; reflexivity|reflexivity]|exact IH].
Qed.
Print Assumptions C62_extra_refuted.
