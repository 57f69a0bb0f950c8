(** C37-C40: what is read off a JSON schema.  What a schema says is defined in
    Spec/SchemaFields.v; lines under titles and references in Spec/SchemaLines.v;
    paths in headings in Spec/Headings.v. *)
From Coq Require Import String.
From Verif.Base Require Import PyStr PyNum PyVal PyDict Outcome.
From Verif.Model Require Import Warn Lib Convert Input Flatten Titles Schema TitleLines.
From Verif.Spec Require Import Headings Conversion Flat SchemaFields SchemaLines.
From Verif.Tests Require Import TestLib FlattenLib SchemaLib.
From Verif.Proofs Require Import SchemaState SchemaTypes SchemaTitles SchemaTotal SchemaReady SchemaLines SchemaCheck.

(** ** A schema used to show that the hypotheses are met *)
Definition s_text (t : string) : sv := VS (SStr (u t)).
Definition s_prop (title type : string) (more : list (str * sv)) : sv := VO None ([(u "title", s_text title); (u "type", s_text type)] ++ more).
Definition s_props (ps : list (str * sv)) : list (str * sv) := [(u "properties", VO None ps)].
Definition ex_part : sv := VO None ([(u "type", s_text "object")] ++ s_props [
  (u "no", s_prop "Number" "integer" []);
  (u "made", s_prop "Made" "object" (s_props [(u "by", s_prop "By" "string" [])]))]).
Definition ex_parts : sv := s_prop "Parts" "array" [(u "items", ex_part)].
Definition ex_item : sv := VO None ([(u "type", s_text "object")] ++ s_props [
  (u "id", s_prop "Item Identifier" "string" []);
  (u "cost", s_prop "Cost" "number" []);
  (u "parts", ex_parts)]).
Definition ex_items : sv := s_prop "Items" "array" [(u "rollUp", VA [s_text "cost"]); (u "items", ex_item)].
Definition ex_schema : sv :=
  VO None [(u "type", s_text "object");
    (u "properties", VO None [
      (u "id", s_prop "Identifier" "string" []);
      (u "name", VO (Some [(u "title", s_text "Full Name")]) [(u "title", s_text "Name"); (u "type", VA [s_text "string"; s_text "null"])]);
      (u "age", VO (Some [(u "deprecated", s_text "yes")]) [(u "title", s_text "Age"); (u "type", s_text "integer")]);
      (u "address", s_prop "Address" "object" (s_props [
        (u "street", s_prop "Street" "string" []);
        (u "since", s_prop "Since" "string" [(u "format", s_text "date")])]));
      (u "tags", s_prop "Tags" "array" [(u "items", VO None [(u "type", s_text "string")])]);
      (u "items", ex_items)])].
(** the same options, with deprecated fields left out *)
Definition ex_sopts (rollup titles : bool) : sopts :=
  {| so_rollup := rollup; so_root_id := u "ocid"; so_titles := titles; so_trunc := 3; so_nodep := true; so_wkt := true; so_lower := lower |}.

(** ** C37 *)
(** a heading of titles is looked up as the path it stands for; every heading
    stands for one *)
Theorem C37_lookup : forall O S st w, parse_schema O S = Ok st w -> clear_titles O S ->
  forall l o, l <> [] -> (forall x, In x l -> ~ In 58%N x) -> resolved O S l o ->
    lookup_header (so_lower O) (sp_table st) 0 (join (u ":") l) = join (u "/") o.
Proof. exact heading_found. Qed.
Print Assumptions C37_lookup.
Theorem C37_total : forall O S st w, parse_schema O S = Ok st w -> clear_titles O S -> forall l, exists o, resolved O S l o.
Proof. exact heading_read. Qed.
Print Assumptions C37_total.
(** sheets under titles are read as the same cells under the paths *)
Theorem C37_sheets : forall O S st w, parse_schema O S = Ok st w -> clear_titles O S -> some_title O S ->
  forall U sheets sheets', Forall2 (retitled_sheet O S) sheets sheets' ->
    unflatten_titled (so_lower O) U (Some (sp_table st)) sheets = unflatten U sheets'.
Proof. exact sheets_retitled. Qed.
Print Assumptions C37_sheets.
(** a schema without titles changes nothing *)
Theorem C37_untitled : forall O S st w, parse_schema O S = Ok st w -> clear_titles O S -> ~ some_title O S ->
  forall U sheets, unflatten_titled (so_lower O) U (Some (sp_table st)) sheets = unflatten U sheets.
Proof. exact sheets_untitled. Qed.
Print Assumptions C37_untitled.
Example C37_untitled_meets : exists S st w, parse_schema (ex_sopts false false) S = Ok st w /\ clear_titles (ex_sopts false false) S /\ ~ some_title (ex_sopts false false) S /\ length (sp_flat st) = 2%nat.
Proof.
  exists (VO None [(u "type", s_text "object"); (u "properties", VO None [(u "id", VO None [(u "type", s_text "string")]); (u "n", VO None [(u "type", s_text "integer")])])]).
  do 2 eexists. split; [vm_compute; reflexivity|]. split; [apply clear_ok; vm_compute; reflexivity|]. split; [|reflexivity].
  intros (n & v & t & (r & d & (r' & d' & E & Es) & Hi & _) & Ht). injection E as <- <-. vm_compute in Es. injection Es as <- <-. destruct Hi as [[= <- <-]|[[= <- <-]|[]]]; vm_compute in Ht; discriminate Ht.
Qed.

Lemma ex_clear rollup titles : clear_titles (ex_sopts rollup titles) ex_schema.
Proof. apply clear_ok; vm_compute; reflexivity. Qed.
Example C37_meets : exists st w, parse_schema (ex_sopts false false) ex_schema = Ok st w /\ clear_titles (ex_sopts false false) ex_schema /\
  some_title (ex_sopts false false) ex_schema /\
  resolved (ex_sopts false false) ex_schema [u "items"; u "3"; u " PARTS "; u "0"; u "num ber"] [u "items"; u "3"; u "parts"; u "0"; u "no"] /\
  lookup_header lower (sp_table st) 0 (u "items:3: PARTS :0:num ber") = u "items/3/parts/0/no".
Proof.
  do 2 eexists. split; [vm_compute; reflexivity|]. split; [apply ex_clear|].
  split; [exists (u "id"), (s_prop "Identifier" "string" []), (u "Identifier"); split; [|reflexivity]; do 2 eexists; split; [do 2 eexists; split; reflexivity|split; [left; reflexivity|]]|].
  { intros _ (x & T & [E|(r & d & E & _)]); [|discriminate E]. destruct E as (r & d & E & Q). injection E as <- <-. discriminate Q. }
  split; [|vm_compute; reflexivity].
  assert (Nd : forall x, so_nodep x = true -> forall d, (sget (u "deprecated") d = None) -> ~ is_deprecated (VO None d)).
  { intros x _ d E (y & _ & [(r' & d' & E' & Q)|(r' & d' & E' & _)]); [|discriminate E']. injection E' as <- <-. congruence. }
  eapply (res_title _ _ _ (u "items") ex_items (u "Items") ex_item); [reflexivity| |reflexivity|reflexivity| |].
  - do 2 eexists. split; [do 2 eexists; split; reflexivity|]. split; [do 5 right; left; reflexivity|]. intros H. apply (Nd _ H). reflexivity.
  - right. split; [split; [|split; [left; reflexivity|do 2 eexists; split; reflexivity]]|]; [intros [Q|[]]; discriminate Q|].
    split; [left; reflexivity|]. repeat split; intros [Q|[]]; discriminate Q.
  - eapply res_number; [reflexivity|]. eapply (res_title _ _ _ (u "parts") ex_parts (u "Parts") ex_part); [reflexivity| |reflexivity|reflexivity| |].
    + do 2 eexists. split; [do 2 eexists; split; reflexivity|]. split; [do 2 right; left; reflexivity|]. intros H. apply (Nd _ H). reflexivity.
    + right. split; [split; [|split; [left; reflexivity|do 2 eexists; split; reflexivity]]|]; [intros [Q|[]]; discriminate Q|].
      split; [left; reflexivity|]. repeat split; intros [Q|[]]; discriminate Q.
    + eapply res_number; [reflexivity|]. apply (res_leaf _ _ _ (u "no") (s_prop "Number" "integer" []) (u "Number") [] []); [reflexivity| |reflexivity|reflexivity| |intros ? []|exact I].
      * do 2 eexists. split; [do 2 eexists; split; reflexivity|]. split; [left; reflexivity|]. intros H. apply (Nd _ H). reflexivity.
      * intros c [[[T _] _]|[(_ & T & _) _]]; [destruct T as [Q|[]]|destruct T as [Q|[]]]; discriminate Q.
Qed.
Example C37_sheets_meets : retitled_sheet (ex_sopts false false) ex_schema
  {| si_name := u "s"; si_headings := Some [SStr (u "FULLNAME")]; si_lines := [[(SStr (u "FULLNAME"), SStr (u "x"))]; [(SStr (u "FULLNAME"), SInt 3)]] |}
  {| si_name := u "s"; si_headings := Some [SStr (u "FULLNAME")]; si_lines := [[(SStr (u "name"), SStr (u "x"))]; [(SStr (u "name"), SInt 3)]] |}.
Proof.
  assert (H : titled_heading (ex_sopts false false) ex_schema (SStr (u "FULLNAME")) (SStr (u "name"))).
  { left. exists [u "FULLNAME"], [u "name"]. split; [reflexivity|]. split; [discriminate|]. split; [intros x [<-|[]] Hx; vm_compute in Hx; decompose [or] Hx; congruence|]. split; [|reflexivity].
    apply (res_leaf _ _ _ (u "name") (VO (Some [(u "title", s_text "Full Name")]) [(u "title", s_text "Name"); (u "type", VA [s_text "string"; s_text "null"])]) (u "Full Name") [] []); try reflexivity.
    - do 2 eexists. split; [do 2 eexists; split; reflexivity|]. split; [right; left; reflexivity|]. intros _ (y & _ & [(r' & d' & E' & Q)|(r' & d' & E' & Q)]); injection E' as <- <-; vm_compute in Q; discriminate Q.
    - intros c [[[T _] _]|[(_ & T & _) _]]; destruct T as [Q|[Q|[]]]; discriminate Q.
    - intros ? []. }
  split; [reflexivity|]. split; [reflexivity|]. cbn [si_lines]. repeat (apply Forall2_cons || apply Forall2_nil || apply conj || exact H || reflexivity || (apply FOP_cons; [constructor|]) || apply FOP_nil).
Qed.
(** as the property was first put it is false: a title that reads as a number, or
    contains ":", is never found *)
Theorem C37_any_title_refuted : exists O S st w n v t, parse_schema O S = Ok st w /\ clear_titles O S /\ property O S n v /\ title_of v = Some t /\
  lookup_header (so_lower O) (sp_table st) 0 t <> n.
Proof.
  exists (ex_sopts false false), (VO None (s_props [(u "year", s_prop "2020" "string" [])])). do 2 eexists. exists (u "year"), (s_prop "2020" "string" []), (u "2020").
  split; [vm_compute; reflexivity|]. split; [apply clear_ok; vm_compute; reflexivity|].
  split; [|split; [reflexivity|vm_compute; discriminate]]. do 2 eexists. split; [do 2 eexists; split; reflexivity|]. split; [left; reflexivity|].
  intros _ (y & _ & [(r' & d' & E' & Q)|(r' & d' & E' & Q)]); [|discriminate E']. injection E' as <- <-. vm_compute in Q. discriminate Q.
Qed.
Print Assumptions C37_any_title_refuted.
Theorem C37_colon_refuted : exists O S st w n v t, parse_schema O S = Ok st w /\ clear_titles O S /\ property O S n v /\ title_of v = Some t /\
  parse_int t = None /\ lookup_header (so_lower O) (sp_table st) 0 t <> n.
Proof.
  exists (ex_sopts false false), (VO None (s_props [(u "year", s_prop "Year: first" "string" [])])). do 2 eexists. exists (u "year"), (s_prop "Year: first" "string" []), (u "Year: first").
  split; [vm_compute; reflexivity|]. split; [apply clear_ok; vm_compute; reflexivity|].
  split; [|split; [reflexivity|split; [reflexivity|vm_compute; discriminate]]]. do 2 eexists. split; [do 2 eexists; split; reflexivity|]. split; [left; reflexivity|].
  intros _ (y & _ & [(r' & d' & E' & Q)|(r' & d' & E' & Q)]); [|discriminate E']. injection E' as <- <-. vm_compute in Q. discriminate Q.
Qed.
Print Assumptions C37_colon_refuted.
(** without a title on an object the titles of its fields are taken for those of
    the whole: "Name" is found as "name" although no such field exists there *)
Theorem C37_untitled_object_refuted : exists O S st w t, parse_schema O S = Ok st w /\
  resolved O S [t] [t] /\ lookup_header (so_lower O) (sp_table st) 0 t <> t.
Proof.
  exists (ex_sopts false false), (VO None (s_props [(u "who", VO None ([(u "type", s_text "object")] ++ s_props [(u "name", s_prop "Title" "string" [])]))])).
  do 2 eexists. exists (u "Title"). split; [vm_compute; reflexivity|]. split; [|vm_compute; discriminate].
  change [u "Title"] with (map trim [u "Title"]) at 2. apply res_unknown; [reflexivity|].
  intros n v t (r & d & (r1 & d1 & E1 & E2) & Hin & _) Et. injection E1 as <- <-. vm_compute in E2. injection E2 as <- <-. destruct Hin as [E|[]]. injection E as <- <-. vm_compute in Et. discriminate Et.
Qed.
Print Assumptions C37_untitled_object_refuted.
(** two headings for one field: the earlier cell is lost without a warning *)
Theorem C37_same_field_refuted : exists O S st w a b U r, parse_schema O S = Ok st w /\ clear_titles O S /\
  unflatten_titled (so_lower O) U (Some (sp_table st)) [{| si_name := []; si_headings := Some [a; b]; si_lines := [[(a, SStr (u "x")); (b, SStr (u "y"))]] |}] = Ok [r] [] /\
  r = [(u "name", VLeaf (CV (SStr (u "y"))))].
Proof.
  exists (ex_sopts false false), ex_schema. do 2 eexists. exists (SStr (u "Full Name")), (SStr (u "fullname")), (test_opts []). eexists.
  split; [vm_compute; reflexivity|]. split; [apply ex_clear|]. split; [vm_compute; reflexivity|reflexivity].
Qed.
Print Assumptions C37_same_field_refuted.
(** titles without a schema: an AttributeError *)
Theorem C37_no_schema_refuted : exists O sheets, unflatten_titled lower O None sheets = Raise EAttributeError [].
Proof. exists (test_opts []), [{| si_name := []; si_headings := None; si_lines := [] |}]. reflexivity. Qed.
Print Assumptions C37_no_schema_refuted.

(** ** C38 *)
(** the columns of the main sheet are the fields that are not below an array of
    objects (or are rolled up); there is a sheet for every array of objects, with
    the fields of its objects, and the id columns of the objects around it *)
Theorem C38_columns : forall O S st w, parse_schema O S = Ok st w -> named_fields O S ->
  (forall c, In c (header (sp_main st)) <-> exists R f t, top S R /\ gives O R f t /\ (if so_titles O then t = Some c else c = f)) /\
  (forall sn, In sn (map fst (sp_subs st)) <-> exists q ids n v i, array_in O S q ids n v i /\ sn = sheet_of O q n v) /\
  (forall sn s, sget sn (sp_subs st) = Some s -> exists ids cols, header s = (match so_root_id O with [] => [] | r => [r] end) ++ ids ++ cols /\
     (forall c, In c cols <-> exists q ids n v i f t, array_in O S q ids n v i /\ sn = sheet_of O q n v /\ gives O i f t /\ sub_heading O q n v f t c) /\
     (forall c, In c ids <-> exists q ids' n v i, array_in O S q ids' n v i /\ sn = sheet_of O q n v /\ In c ids')).
Proof. exact schema_columns. Qed.
Print Assumptions C38_columns.
(** a schema in which everything is as it should be is read *)
Theorem C38_total : forall O S, fine_schema O S -> exists st w, parse_schema O S = Ok st w.
Proof. exact schema_fine. Qed.
Print Assumptions C38_total.
(** the sheets made from a schema are what C22 and C23 ask for *)
Theorem C38_ready : forall O S st w, parse_schema O S = Ok st w -> named_fields O S -> sheets_apart O S -> so_titles O = false ->
  ~ In 47%N (so_root_id O) -> so_root_id O <> u "id" -> forall P, po_schema P = Some (schema_info_of st) -> schema_ready P.
Proof. exact parsed_ready. Qed.
Print Assumptions C38_ready.
Example C38_meets : named_fields (ex_sopts true false) ex_schema /\ fine_schema (ex_sopts true false) ex_schema /\ sheets_apart (ex_sopts true false) ex_schema /\
  exists st w, parse_schema (ex_sopts true false) ex_schema = Ok st w /\ w = [] /\
    header (sp_main st) = [u "id"; u "name"; u "address/street"; u "address/since"; u "tags"; u "items/0/cost"] /\
    map (fun x => (fst x, header (snd x))) (sp_subs st) =
      [(u "items", [u "ocid"; u "id"; u "items/0/id"; u "items/0/cost"]);
       (u "ite_parts", [u "ocid"; u "id"; u "items/0/id"; u "items/0/parts/0/no"; u "items/0/parts/0/made/by"])].
Proof.
  split; [apply named_ok; vm_compute; reflexivity|]. split; [apply (fine_ok _ _ 9); vm_compute; reflexivity|]. split; [apply apart_ok; vm_compute; reflexivity|].
  do 2 eexists. split; [vm_compute; reflexivity|]. repeat split.
Qed.
(** an array of integers is not read *)
Theorem C38_integers_refuted : exists O S e w, parse_schema O S = Raise e w /\
  S = VO None (s_props [(u "years", s_prop "Years" "array" [(u "items", VO None [(u "type", s_text "integer")])])]).
Proof. do 4 eexists. split; [|reflexivity]. instantiate (3 := ex_sopts false false). vm_compute. reflexivity. Qed.
Print Assumptions C38_integers_refuted.
(** a heading can be there twice: an array whose sheet has the name of the sheet of
    an array in it *)
Definition clash_schema : sv :=
  VO None (s_props [(u "id", s_prop "Id" "string" []);
    (u "abc_d", s_prop "One" "array" [(u "items", VO None ([(u "type", s_text "object")] ++ s_props [(u "id", s_prop "Id" "string" [])]))]);
    (u "abc", s_prop "Two" "object" (s_props [(u "d", s_prop "Three" "array" [(u "items", VO None ([(u "type", s_text "object")] ++ s_props [(u "x", s_prop "X" "string" [])]))])]))]).
Theorem C38_sheets_refuted : exists O S st w q ids n v i q' ids' n' v' i', parse_schema O S = Ok st w /\ w = [] /\
  array_in O S q ids n v i /\ array_in O S q' ids' n' v' i' /\ n <> n' /\ sheet_of O q n v = sheet_of O q' n' v'.
Proof.
  exists (ex_sopts false false), clash_schema. do 2 eexists.
  assert (P : forall r e d, sget (u "properties") e = Some (VO None d) -> forall n v, In (n, v) d ->
     sget (u "deprecated") (match v with VO None e => e | _ => [(u "deprecated", VA [])] end) = None -> property (ex_sopts false false) (VO r e) n v).
  { intros r e d He n v Hin Hd. exists None, d. split; [exists r, e; auto|]. split; [exact Hin|]. intros _ (y & _ & [(r' & d' & E' & Q)|(r' & d' & E' & Q)]); subst v; [destruct r'; [discriminate Hd|congruence]|discriminate Hd]. }
  do 10 eexists. split; [vm_compute; reflexivity|]. split; [reflexivity|].
  split; [exists clash_schema, clash_schema; split; [right; split; [apply noaltb_ok; reflexivity|reflexivity]|]; split; [apply oa_here|]; split;
    [eapply P with (n := u "abc_d"); [reflexivity|right; left; reflexivity|reflexivity]|split; [|reflexivity]]|].
  { split; [split; [|split; [left; reflexivity|do 2 eexists; split; reflexivity]]|]; [intros [Q|[]]; discriminate Q|]. split; [left; reflexivity|]. repeat split; intros [Q|[]]; discriminate Q. }
  split; [exists clash_schema; eexists; split; [right; split; [apply noaltb_ok; reflexivity|reflexivity]|]; split; [|split; [|split; [|reflexivity]]]|].
  - eapply (oa_object _ _ _ (u "abc")); [eapply P; [reflexivity|do 2 right; left; reflexivity|reflexivity]| |apply oa_here].
    split; [left; reflexivity|]. intros (_ & p & (r & d & E & Q) & M & _). injection E as <- <-. vm_compute in Q. injection Q as <-. destruct M as (x & M). vm_compute in M. discriminate M.
  - eapply P with (n := u "d"); [reflexivity|left; reflexivity|reflexivity].
  - split; [split; [|split; [left; reflexivity|do 2 eexists; split; reflexivity]]|]; [intros [Q|[]]; discriminate Q|]. split; [left; reflexivity|]. repeat split; intros [Q|[]]; discriminate Q.
  - split; [discriminate|vm_compute; reflexivity].
Qed.
Print Assumptions C38_sheets_refuted.
Theorem C38_root_id_refuted : exists O S st w s sn, parse_schema O S = Ok st w /\ named_fields O S /\ sheets_apart O S /\
  In (sn, s) (sp_subs st) /\ ~ NoDup (header s).
Proof.
  exists (sopts_of false false (u "id")), ex_schema. do 4 eexists. split; [vm_compute; reflexivity|]. split; [apply named_ok; vm_compute; reflexivity|]. split; [apply apart_ok; vm_compute; reflexivity|].
  split; [left; reflexivity|]. intros H. inversion H as [|? ? Q _]. apply Q. left. reflexivity.
Qed.
Print Assumptions C38_root_id_refuted.

(** ** C39 *)
(** the type of a field is found under its path, whatever the positions in it *)
Theorem C39_found : forall O S st w, parse_schema O S = Ok st w -> plain_names O S -> keys_once O S -> (forall o, ~ alternatives S o) ->
  forall p v t, along O S p v -> kind O v t -> (t = u "object" -> no_position p) -> types_of st (path_text p) = t.
Proof. exact types_found. Qed.
Print Assumptions C39_found.
(** with alternatives: if they agree *)
Theorem C39_alternatives : forall O S st w, parse_schema O S = Ok st w -> plain_names O S ->
  forall R p v t, top S R -> along O R p v -> kind O v t -> (t = u "object" -> no_position p) -> one_kind O S (path_text p) ->
  types_of st (path_text p) = t.
Proof. exact types_found_alternatives. Qed.
Print Assumptions C39_alternatives.
(** what is recorded is the type of a field, and the converter knows it *)
Theorem C39_recorded : forall O S st w, parse_schema O S = Ok st w -> plain_names O S -> forall k t, sget k (sp_flat st) = Some t ->
  (exists R p v, top S R /\ along O R p v /\ kind O v t /\ (path_text p = k \/ (t = u "object" /\ ~ no_position p))) /\
  (In t value_types \/ (t = u "geojson" /\ so_wkt O = true) \/ t = u "object").
Proof. exact types_recorded. Qed.
Print Assumptions C39_recorded.
Example C39_meets : plain_names (ex_sopts true false) ex_schema /\ keys_once (ex_sopts true false) ex_schema /\ (forall o, ~ alternatives ex_schema o) /\
  exists st w, parse_schema (ex_sopts true false) ex_schema = Ok st w /\ types_of st (u "items/parts/no") = u "integer" /\
    types_of st (u "address") = u "object" /\ types_of st (u "address/since") = u "date" /\ types_of st (u "age") = [].
Proof.
  split; [apply plain_ok; vm_compute; reflexivity|]. split; [apply keys_ok; vm_compute; reflexivity|]. split; [apply noaltb_ok; reflexivity|].
  do 2 eexists. split; [vm_compute; reflexivity|]. repeat split.
Qed.
(** an object in an array is recorded under a path with a position, where it is
    not looked for *)
Theorem C39_object_in_array_refuted : exists O S st w p v, parse_schema O S = Ok st w /\ plain_names O S /\ keys_once O S /\
  along O S p v /\ kind O v (u "object") /\ types_of st (path_text p) = [].
Proof.
  exists (ex_sopts true false), ex_schema. do 2 eexists. exists [HKey (u "items"); HPos 2; HKey (u "parts"); HPos 5; HKey (u "made")], (s_prop "Made" "object" (s_props [(u "by", s_prop "By" "string" [])])).
  split; [vm_compute; reflexivity|]. split; [apply plain_ok; vm_compute; reflexivity|]. split; [apply keys_ok; vm_compute; reflexivity|].
  assert (P : forall r e d, sget (u "properties") e = Some (VO None d) -> forall n v, In (n, v) d ->
     sget (u "deprecated") (match v with VO None e => e | _ => [(u "deprecated", VA [])] end) = None -> property (ex_sopts true false) (VO r e) n v).
  { intros r e d He n v Hin Hd. exists None, d. split; [exists r, e; auto|]. split; [exact Hin|]. intros _ (y & _ & [(r' & d' & E' & Q)|(r' & d' & E' & Q)]); subst v; [destruct r'; [discriminate Hd|congruence]|discriminate Hd]. }
  split; [|split; [apply kind_object|vm_compute; reflexivity]].
  - eapply along_array with (v := ex_items) (i := ex_item); [eapply P; [reflexivity|do 5 right; left; reflexivity|reflexivity]| |].
    { split; [split; [|split; [left; reflexivity|do 2 eexists; split; reflexivity]]|]; [intros [Q|[]]; discriminate Q|]. split; [left; reflexivity|]. repeat split; intros [Q|[]]; discriminate Q. }
    eapply along_array with (v := ex_parts) (i := ex_part); [eapply P; [reflexivity|do 2 right; left; reflexivity|reflexivity]| |].
    { split; [split; [|split; [left; reflexivity|do 2 eexists; split; reflexivity]]|]; [intros [Q|[]]; discriminate Q|]. split; [left; reflexivity|]. repeat split; intros [Q|[]]; discriminate Q. }
    apply along_here. eapply P; [reflexivity|right; left; reflexivity|reflexivity].
  - split; [left; reflexivity|]. intros (_ & p & (r & d & E & Q) & M & _). injection E as <- <-. vm_compute in Q. injection Q as <-. destruct M as (x & M). vm_compute in M. discriminate M.
Qed.
Print Assumptions C39_object_in_array_refuted.

(** ** C40 *)
(** with local references disabled a reference is followed if and only if it
    begins with http:// or https://, in any case; otherwise nothing is loaded *)
Theorem C40_remote_only : forall (A : Type) uri,
  (remote uri -> forall loader : str -> SR A, load_remote_only loader uri = loader uri) /\
  (~ remote uri -> forall loader : str -> SR A, load_remote_only loader uri = Raise EFlattenToolError []).
Proof. exact (@remote_only). Qed.
Print Assumptions C40_remote_only.
Example C40_meets : remote (u "HTTPs://example.org/x.json") /\ ~ remote (u "file:///etc/passwd") /\ ~ remote (u "http:/x").
Proof. rewrite <- !is_ref_local_spec. vm_compute. repeat split; discriminate. Qed.
