(** C60: the titles that flattening with titles uses are those of the schema.  The
    notions used are in Spec/SchemaTitled.v (what a schema gives: Spec/SchemaFields.v;
    headings, records and items: Spec/Titled.v). *)
From Coq Require Import String Permutation.
From Verif.Base Require Import PyStr PyNum PyVal PyDict Outcome.
From Verif.Model Require Import Flatten Schema.
From Verif.Tests Require Import TestLib FlattenLib.
From Verif.Spec Require SchemaFields.
From Verif.Spec Require Import Flat Sites Paths Titled SchemaTitled.
From Verif.Proofs Require Import SchemaCheck SchemaHeadings SchemaOnce TitledSchema TitledReady.
Import SchemaFields (named_fields, keys_once, sheets_apart, array_in, sheet_of, alternatives).

(** a column of the main sheet is headed by its title in the schema, and otherwise
    by its path *)
Theorem C60_main : forall SO S O, titled_by SO S O -> named_fields SO S -> forall c, given (main_title SO S c) (heading O None c) c.
Proof. exact main_heading. Qed.
Print Assumptions C60_main.
(** the same for the sheet of an array of objects *)
Theorem C60_items : forall SO S O, titled_by SO S O -> named_fields SO S -> worded SO S -> forall q ids n v i f, array_in SO S q ids n v i ->
  let sn := sheet_of SO q n v in let c := SchemaFields.at_path q ++ n ++ u "/0/" ++ f in given (item_title SO S sn c) (heading O (Some sn) c) c.
Proof.
  intros SO S O B N W q ids n v i f A sn c. unfold c. rewrite app_assoc. apply (item_heading SO S O B N sn _ f W). right. exists q, ids, n, v, i. auto.
Qed.
Print Assumptions C60_items.
(** an array's sheet is named by the titles, and otherwise by the keys *)
Theorem C60_sheets : forall SO S O, titled_by SO S O -> named_fields SO S -> forall q k, given (sheet_title SO S (pre q) k) (array_sheet O q k) (short_name O q k).
Proof. exact sheet_heading. Qed.
Print Assumptions C60_sheets.
(** if no key is given twice and the titles are words, there is one title at most *)
Theorem C60_once : forall SO S, (forall o, ~ alternatives S o) -> keys_once SO S -> worded SO S ->
  (forall c t, main_title SO S c t -> only (main_title SO S c) t) /\
  (forall p n sn, sheet_title SO S p n sn -> only (sheet_title SO S p n) sn) /\
  (sheets_apart SO S -> forall sn c t, item_title SO S sn c t -> only (item_title SO S sn c) t).
Proof.
  intros SO S NA K W. pose proof (plain_of SO S NA K W) as P. split; [exact (main_once SO S P)|]. split; [exact (sheet_once SO S P)|exact (item_once SO S P)].
Qed.
Print Assumptions C60_once.
(** so the leaf of a record that has one title is under that title in the record's
    row, unless another value of the record is *)
Theorem C60_records : forall SO S O, titled_by SO S O -> named_fields SO S -> forall drop pi, json_run O -> forall l s w,
  (forall l, Permutation l (po_set_order O l)) -> flatten O drop pi l = Ok s w -> name_free O s -> Forall clean l ->
  Forall2 (fun d row => forall ks k y val t, at_path (JO d) (down (ks ++ [k])) = Some y -> leaf_cell O y = Some val -> keeps O (down (ks ++ [k])) = true ->
      only (main_title SO S (pre (down ks) ++ k)) t -> In t (map fst row) /\ ((forall val', record_value O d t val' -> val' = val) -> sget t row = Some val))
    (records (chosen O l)) (tb_rows (main_table s)).
Proof. exact record_titles. Qed.
Print Assumptions C60_records.
(** and the leaf of an item in the item's row *)
Theorem C60_item_rows : forall SO S O, titled_by SO S O -> named_fields SO S -> forall drop pi, json_run O -> forall l s w, worded SO S ->
  flatten O drop pi l = Ok s w -> name_free O s -> Forall clean l -> forall t, In t (sub_tables s) ->
  Forall2 (fun vx row => forall ks k y val h, at_path (JO (it_obj (snd vx))) (down (ks ++ [k])) = Some y -> leaf_cell O y = Some val -> keeps O (it_path (snd vx) ++ down (ks ++ [k])) = true ->
      only (item_title SO S (tb_name t) (pre (it_path (snd vx)) ++ pre (down ks) ++ k)) h -> In h (map fst row) /\ ((forall val', item_value O (fst vx) (snd vx) h val' -> val' = val) -> sget h row = Some val))
    (items_on O (tb_name t) (chosen O l)) (tb_rows t).
Proof. exact item_titles. Qed.
Print Assumptions C60_item_rows.
(** the paths the parser remembers for roll-up are those the schema asks for *)
Theorem C60_rollup : forall SO S st w, parse_schema SO S = Ok st w -> named_fields SO S -> forall c, In c (sp_rollup st) <-> rolled_column SO S c.
Proof. exact titles_rolled. Qed.
Print Assumptions C60_rollup.
(** the sheets made from a schema with titles are what C58 (and so the theorems above)
    asks for, unless the root id is also the heading of an id of the whole *)
Theorem C60_ready : forall SO, so_titles SO = true -> forall S st w, parse_schema SO S = Ok st w -> named_fields SO S -> worded SO S -> sheets_apart SO S ->
  ~ In 47%N (so_root_id SO) -> ~ In 58%N (so_root_id SO) -> (forall R, SchemaFields.top S R -> ~ In (so_root_id SO) (SchemaFields.ids_at SO R SchemaFields.whole)) ->
  forall P, po_schema P = Some (schema_info_of st) -> schema_ready P.
Proof. exact titled_parsed_ready. Qed.
Print Assumptions C60_ready.

(** ** A case *)
Local Open Scope string_scope.
Local Open Scope list_scope.
Definition text60 (title : string) : sv := VO None [(u "type", VS (SStr (u "string"))); (u "title", VS (SStr (u title)))].
Definition object60 (title : string) (ps : list (str * sv)) : sv := VO None [(u "type", VS (SStr (u "object"))); (u "title", VS (SStr (u title))); (u "properties", VO None ps)].
Definition array60 (title : string) (up : list sv) (ps : list (str * sv)) : sv :=
  VO None [(u "type", VS (SStr (u "array"))); (u "title", VS (SStr (u title))); (u "rollUp", VA up);
    (u "items", VO None [(u "type", VS (SStr (u "object"))); (u "properties", VO None ps)])].
Definition schema60 : sv := VO None [(u "properties", VO None
  [(u "id", text60 "Number"); (u "ocid", text60 "Process"); (u "buyer", object60 "Buyer" [(u "name", text60 "Name")]);
   (u "bids", array60 "Bids" [VS (SStr (u "value"))] [(u "id", text60 "Number"); (u "value", text60 "Value");
      (u "docs", array60 "Documents" [] [(u "id", text60 "Number"); (u "url", text60 "Link")])])])].
Definition sopts60 : sopts := {| so_rollup := true; so_root_id := u "ocid"; so_titles := true; so_trunc := 3; so_nodep := false; so_wkt := false; so_lower := lower |}.
Definition fold60 : sps := match parse_schema sopts60 schema60 with Ok st _ => st | Raise _ _ => sps_start end.
Definition opts60 : popts :=
  {| po_str := test_env; po_titles := true; po_schema := Some (schema_info_of fold60); po_root_id := u "ocid"; po_id_name := u "id"; po_xml := false;
     po_filter := None; po_preserve := []; po_rollup := sp_rollup fold60; po_trunc := 3; po_wkt := false; po_shape := None; po_set_order := fun l => l |}.
Definition t60 (x : string) : jv := JS (SStr (u x)).
Definition data60 : list jv :=
  [JO [(u "id", t60 "1"); (u "ocid", t60 "a"); (u "buyer", JO [(u "name", t60 "B"); (u "note", t60 "N")]);
       (u "bids", JA [JO [(u "id", t60 "x"); (u "value", t60 "7"); (u "docs", JA [JO [(u "id", t60 "d"); (u "url", t60 "L")]])]; JO [(u "value", t60 "8")]])];
   JO [(u "id", t60 "2"); (u "ocid", t60 "b"); (u "bids", JA [JO [(u "id", t60 "y"); (u "value", t60 "9")]])]].
Definition state60 : pst := match flatten opts60 false [] data60 with Ok s _ => s | Raise _ _ => start opts60 false end.
Definition warned60 : list fwarning := match flatten opts60 false [] data60 with Ok _ w => w | Raise _ w => w end.
Lemma done60 : flatten opts60 false [] data60 = Ok state60 warned60.
Proof.
  unfold state60, warned60. assert (H : match flatten opts60 false [] data60 with Ok _ _ => true | Raise _ _ => false end = true) by (vm_compute; reflexivity).
  destruct (flatten opts60 false [] data60); [reflexivity|discriminate H].
Qed.
Lemma by60 : titled_by sopts60 schema60 opts60.
Proof.
  assert (E : exists w, parse_schema sopts60 schema60 = Ok fold60 w).
  { unfold fold60. assert (H : match parse_schema sopts60 schema60 with Ok _ _ => true | Raise _ _ => false end = true) by (vm_compute; reflexivity).
    destruct (parse_schema sopts60 schema60) as [st w|e w]; [exists w; reflexivity|discriminate H]. }
  destruct E as (w & E). exists fold60, w. split; [exact E|]. repeat split.
Qed.
Example C60_meets : titled_by sopts60 schema60 opts60 /\ named_fields sopts60 schema60 /\ keys_once sopts60 schema60 /\ worded sopts60 schema60 /\ sheets_apart sopts60 schema60 /\
  (forall o, ~ alternatives schema60 o) /\
  (heading opts60 None (u "buyer/name"), heading opts60 None (u "buyer/note"), heading opts60 (Some (u "Bid_Documents")) (u "bids/0/docs/0/url"), array_sheet opts60 [(u "bids", Some 0%nat)] (u "docs")) =
    (u "Buyer:Name", u "buyer/note", u "Bids:Documents:Link", u "Bid_Documents") /\
  sp_rollup fold60 = [u "bids/0/value"] /\
  map tb_rows (tables state60) =
  [ [ [(u "Number", t60 "1"); (u "Process", t60 "a"); (u "Buyer:Name", t60 "B"); (u "buyer/note", t60 "N")];
      [(u "Number", t60 "2"); (u "Process", t60 "b"); (u "Bids:Value", t60 "9")] ];
    [ [(u "Process", t60 "a"); (u "Number", t60 "1"); (u "Bids:Number", t60 "x"); (u "Bids:Value", t60 "7")];
      [(u "Process", t60 "a"); (u "Number", t60 "1"); (u "Bids:Value", t60 "8")];
      [(u "Process", t60 "b"); (u "Number", t60 "2"); (u "Bids:Number", t60 "y"); (u "Bids:Value", t60 "9")] ];
    [ [(u "Process", t60 "a"); (u "Number", t60 "1"); (u "Bids:Number", t60 "x"); (u "Bids:Documents:Number", t60 "d"); (u "Bids:Documents:Link", t60 "L")] ] ].
Proof.
  split; [exact by60|]. split; [apply named_ok; vm_compute; reflexivity|]. split; [apply keys_ok; vm_compute; reflexivity|]. split; [apply worded_ok; vm_compute; reflexivity|].
  split; [apply apart_ok; vm_compute; reflexivity|]. split; [apply noaltb_ok; vm_compute; reflexivity|]. split; [vm_compute; reflexivity|]. split; vm_compute; reflexivity.
Qed.

(** The schema asks to roll up the value of a bid only.  A record with one bid that
    has documents cannot be flattened: the run fails although nothing that is not
    a basic value would be rolled up.  (With two such bids it succeeds.) *)
Definition bid60 : jv := JO [(u "value", t60 "7"); (u "docs", JA [JO [(u "url", t60 "L")]])].
Theorem C60_roll_fails_refuted : exists SO S O e, titled_by SO S O /\ json_run O /\
  flatten O false [] [JO [(u "bids", JA [e])]] = Raise (EFlattenToolValueError []) [] /\
  (forall f y, (exists d, e = JO d /\ sget f d = Some y) -> rolled_heading O (u "bids") f <> None -> exists x, y = JS x) /\
  exists s w, flatten O false [] [JO [(u "bids", JA [e; e])]] = Ok s w.
Proof.
  exists sopts60, schema60, opts60, bid60. split; [exact by60|]. split; [|split; [vm_compute; reflexivity|]].
  - split; [|split; reflexivity]. unfold schema_ready. cbn [opts60 po_schema]. split; [apply nodupb_ok; vm_compute; reflexivity|]. split; [apply nodupb_ok; vm_compute; reflexivity|].
    apply Forall_forall. intros nx H.
    assert (F : forallb (fun nx => match sh_lines (snd nx) with LMem [] => true | _ => false end && nodupb (header (snd nx))) (sci_subs (schema_info_of fold60)) = true) by (vm_compute; reflexivity).
    rewrite forallb_forall in F. apply F in H. apply andb_true_iff in H as [H1 H2]. split; [|apply nodupb_ok; exact H2]. destruct (sh_lines (snd nx)) as [[|? ?]|]; congruence.
  - split.
    + intros f y (d & [= <-] & H) R. unfold sget in H. cbn [aget] in H. destruct (str_eqb_spec f (u "value")) as [_|_]; [injection H as <-; eexists; reflexivity|].
      destruct (str_eqb_spec f (u "docs")) as [-> |_]; [|discriminate H]. exfalso. apply R. vm_compute. reflexivity.
    + assert (H : match flatten opts60 false [] [JO [(u "bids", JA [bid60; bid60])]] with Ok _ _ => true | Raise _ _ => false end = true) by (vm_compute; reflexivity).
      destruct (flatten opts60 false [] [JO [(u "bids", JA [bid60; bid60])]]) as [s w|e w]; [exists s, w; reflexivity|discriminate H].
Qed.
Print Assumptions C60_roll_fails_refuted.

(** the case meets C60_ready *)
Example C60_ready_meets : schema_ready opts60.
Proof.
  destruct by60 as (st & w & E & _ & _ & Hsc). apply (C60_ready sopts60 eq_refl schema60 st w E); [apply named_ok; vm_compute; reflexivity|apply worded_ok; vm_compute; reflexivity|apply apart_ok; vm_compute; reflexivity| | | |exact Hsc].
  - intros X. vm_compute in X. repeat (destruct X as [X|X]; [discriminate X|]). exact X.
  - intros X. vm_compute in X. repeat (destruct X as [X|X]; [discriminate X|]). exact X.
  - intros R [(l & Al & _)|[_ ->]]; [destruct (noaltb_ok schema60 ltac:(vm_compute; reflexivity) _ Al)|]. assert (X : str_mem (so_root_id sopts60) (SchemaFields.ids_at sopts60 schema60 SchemaFields.whole) = false) by (vm_compute; reflexivity). apply str_mem_false. exact X.
Qed.
(** A schema whose id has the root id as its title: the sheet of an array starts with
    that heading twice. *)
Definition schema60r : sv := VO None [(u "properties", VO None
  [(u "id", text60 "ocid"); (u "bids", array60 "Bids" [] [(u "id", text60 "Number")])])].
Theorem C60_root_twice_refuted : exists SO S st w, parse_schema SO S = Ok st w /\ so_titles SO = true /\ named_fields SO S /\ worded SO S /\ sheets_apart SO S /\
  map (fun x => (fst x, header (snd x))) (sci_subs (schema_info_of st)) = [(u "Bids", [u "ocid"; u "ocid"; u "Bids:Number"])].
Proof.
  exists sopts60, schema60r. assert (H : match parse_schema sopts60 schema60r with Ok st _ => map (fun x => (fst x, header (snd x))) (sci_subs (schema_info_of st)) | Raise _ _ => [] end = [(u "Bids", [u "ocid"; u "ocid"; u "Bids:Number"])]) by (vm_compute; reflexivity).
  destruct (parse_schema sopts60 schema60r) as [st w|e w]; [|discriminate H]. exists st, w. split; [reflexivity|]. split; [reflexivity|]. split; [apply named_ok; vm_compute; reflexivity|].
  split; [apply worded_ok; vm_compute; reflexivity|]. split; [apply apart_ok; vm_compute; reflexivity|exact H].
Qed.
Print Assumptions C60_root_twice_refuted.
