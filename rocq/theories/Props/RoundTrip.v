(** C01, C02: flattening and unflattening again.  The notions used in the statements
    are in Spec/RoundTrip.v (the documents, the sheets in between, "the same"),
    Spec/Paths.v (items of arrays) and Spec/Written.v (order of the sheets). *)
From Coq Require Import String Permutation Lia Sorted.
From Verif.Base Require Import PyStr PyNum PyVal PyDict Outcome.
From Verif.Model Require Import Warn Lib Convert Input Flatten Output.
From Verif.Spec Require Import Flat Sites Paths Headings Grids Written RoundTrip Typed.
From Verif.Tests Require Import TestLib FlattenLib.
From Verif.Proofs Require Import RtTrip RtNames RtCheck RtTyped OutputFacts.
Local Open Scope list_scope.

(** ** Documents used to show that the hypotheses are met *)
Definition t (x : string) : jv := JS (SStr (u x)).
Definition n (z : Z) : jv := JS (SInt z).
Definition OF (root : string) (trunc : nat) : popts :=
  {| po_str := test_env; po_titles := false; po_schema := None; po_root_id := u root; po_id_name := u "id"; po_xml := false;
     po_filter := None; po_preserve := []; po_rollup := []; po_trunc := trunc; po_wkt := false; po_shape := None;
     po_set_order := fun l => l |}.
Definition PF (root : string) : opts := test_opts (u root).
(** two records with one root id; nested arrays, objects in objects *)
Definition doc1 : jobj := [(u "ocid", t "r"); (u "id", n 1); (u "a", JO [(u "b", t "x"); (u "c", JA [JO [(u "id", t "p")]])]);
  (u "tests", JA [JO [(u "id", t "i1"); (u "v", n 3)]; JO [(u "x", JA [JO [(u "id", t "j1"); (u "w", t "y")]; JO [(u "id", t "j2")]]); (u "id", t "i2")]])].
Definition doc2 : jobj := [(u "id", t "1"); (u "ocid", t "r"); (u "tests", JA [JO [(u "id", t "i1")]])].
Example docs_ok : documents (OF "ocid" 5) [doc1; doc2].
Proof. apply documents_check. vm_compute. reflexivity. Qed.
Example OF_whole : whole (OF "ocid" 5).
Proof. repeat split. left. reflexivity. Qed.
Example docs_survive : survive (OF "ocid" 5) (PF "ocid") as_is [doc1; doc2].
Proof. apply survive_check. vm_compute. reflexivity. Qed.
(** a schema: numbers, truth values, arrays of texts, of numbers, of arrays *)
Definition types6 (p : str) : str :=
  match find (fun x => str_eqb (u (fst x)) p)
    [("id", "integer"); ("paid", "boolean"); ("cost/amount", "number"); ("tags", "string_array"); ("sizes", "number_array"); ("grid", "array_array"); ("cost", "object");
     ("lines", "array"); ("lines/id", "string"); ("lines/price", "number"); ("lines/notes", "string_array"); ("lines/more", "integer")]%string with Some x => u (snd x) | None => [] end.
Definition P6 : opts := {| o_conv := test_cenv; o_types := types6; o_root_id := []; o_id_name := u "id"; o_xml := false; o_vertical := false |}.
Definition doc6 : jobj := [(u "id", n 7); (u "paid", JS (SBool false)); (u "cost", JO [(u "amount", JS (SDec (DFin true 125 (-2))))]); (u "tags", JA [t "a b"; t ""; t "c"]);
  (u "sizes", JA [n 1; JS (SDec (DFin false 25 (-1)))]); (u "grid", JA [JA [t "a"; t "b"]; JA [t "c"]]);
  (u "lines", JA [JO [(u "id", t "1"); (u "price", n 3); (u "notes", JA [t "n"])]; JO [(u "id", t "2"); (u "more", n 4)]])].
Example doc6_ok : documents (OF "" 5) [doc6].
Proof. apply documents_check. vm_compute. reflexivity. Qed.
Example doc6_survives : survive (OF "" 5) P6 as_is [doc6].
Proof. apply survive_check. vm_compute. reflexivity. Qed.
(** the same written as texts *)
Example doc6_survives_text : survive (OF "" 5) P6 (fun s => SStr (py_str test_env s)) [doc6].
Proof. apply survive_check. vm_compute. reflexivity. Qed.

(** ** C01: nothing is lost.  The sheets may come in any order, the rows of a sheet
    in any order; a value that a row does not have may stand there as any blank.
    [survive] says that the cell of each value, as written, is converted to the
    value again. *)
Theorem C01_round_trip O drop pi P write docs b : whole O -> blank b = true -> documents O docs -> survive O P write docs ->
  exists s w, flatten O drop pi (map JO docs) = Ok s w /\
    forall T sheets, Permutation (tables s) T -> Forall2 (table_shuffled write b) T sheets ->
      exists out, unflatten P sheets = Ok out [] /\ same_records (@Permutation jv) docs out.
Proof.
  intros HW Hb HD HV. destruct (trip_flattens O drop pi docs HW HD) as (s & w & E). exists s, w. split; [exact E|]. intros T sheets.
  exact (trip_any O drop pi P write docs b HW HV Hb HD s w E T sheets).
Qed.
Print Assumptions C01_round_trip.
(** without a schema: documents of texts and whole numbers *)
Theorem C01_untyped O drop pi P docs b : whole O -> untyped P -> o_id_name P = po_id_name O -> o_root_id P = po_root_id O -> blank b = true -> documents O docs ->
  (forall d Q y, In d docs -> at_path (JO d) Q = Some y -> leaf y -> exists s, y = JS s /\ plain_value s) ->
  exists s w, flatten O drop pi (map JO docs) = Ok s w /\
    forall T sheets, Permutation (tables s) T -> Forall2 (table_shuffled as_is b) T sheets ->
      exists out, unflatten P sheets = Ok out [] /\ same_records (@Permutation jv) docs out.
Proof. intros HW HU Hi Hr Hb HD H. apply C01_round_trip; try assumption. apply untyped_survive; assumption. Qed.
Print Assumptions C01_untyped.
Example docs_plain : forall d Q y, In d [doc1; doc2] -> at_path (JO d) Q = Some y -> leaf y -> exists s, y = JS s /\ plain_value s.
Proof.
  intros d Q y Hd Ha Hl. apply places_all in Ha. apply leaf_check in Hl.
  assert (G : forallb (fun p => negb (leaf_b (snd p)) || value_b (Some (snd p))) (places (JO doc1) ++ places (JO doc2)) = true) by (vm_compute; reflexivity).
  rewrite forallb_forall in G. specialize (G (Q, y)). cbn [snd] in G. rewrite Hl in G. destruct (value_check _ (G ltac:(apply in_or_app; destruct Hd as [<-|[<-|[]]]; auto))) as (s & E & Hs). exists s. split; [congruence|exact Hs].
Qed.

(** with a schema: documents whose fields have the types of the schema, written as
    they are or as text, each cell in its own way *)
Theorem C01_typed O drop pi P F write docs b : whole O -> o_xml P = false -> o_id_name P = po_id_name O -> o_root_id P = po_root_id O -> blank b = true -> documents O docs ->
  Forall (has_types (o_types P)) docs ->
  (forall d Q, In d docs -> at_path (JO d) (Q ++ [(po_id_name O, None)]) <> None -> type_at (o_types P) (Q ++ [(po_id_name O, None)]) <> u "number") ->
  (forall s, s <> SNone -> write s = s \/ write s = SStr (py_str F s)) ->
  ((forall d s, In d docs -> root_key O d = Some (JS s) -> exists t, s = SStr t) \/ (forall d s, In d docs -> root_key O d = Some (JS s) -> exists z, s = SInt z)) ->
  exists s w, flatten O drop pi (map JO docs) = Ok s w /\
    forall T sheets, Permutation (tables s) T -> Forall2 (table_shuffled write b) T sheets ->
      exists out, unflatten P sheets = Ok out [] /\ same_records (@Permutation jv) docs out.
Proof. intros HW Hx Hi Hr Hb HD HT Hn Hw Hk. apply C01_round_trip; try assumption. apply (typed_survive O P F); assumption. Qed.
Print Assumptions C01_typed.
Example doc6_types : Forall (has_types types6) [doc6].
Proof.
  constructor; [|constructor]. intros Q k y Ha. apply places_all in Ha. cbv zeta. unfold type_at.
  assert (G : Forall (fun p => match snd (last (fst p) ([], Some 0%nat)) with Some _ => True | None =>
     match snd p with JO _ => type_at types6 (fst p) = [] \/ type_at types6 (fst p) = u "object" | JS _ => of_type (type_at types6 (fst p)) (snd p)
     | JA l => if forallb (fun x => match x with JO _ => true | _ => false end) l then type_at types6 (fst p) = [] \/ type_at types6 (fst p) = u "array" else of_type (type_at types6 (fst p)) (snd p) end end) (places (JO doc6))).
  { let p := eval vm_compute in (places (JO doc6)) in change (places (JO doc6)) with p.
    repeat (apply Forall_cons; [lazy [fst snd last]; try exact I|]); [..|apply Forall_nil].
    all: repeat match goal with |- context [type_at ?t ?q] => let v := eval vm_compute in (type_at t q) in change (type_at t q) with v end.
    all: try (lazy; auto; fail).
    all: try (apply of_integer || apply of_boolean || (apply of_number; exact I) || (apply of_text; [cbn; tauto|discriminate])).
    - apply (of_texts _ [u "a b"; u ""; u "c"]); [cbn; tauto|discriminate|discriminate|]. repeat constructor; cbn; intuition discriminate.
    - apply (of_numbers [SInt 1; SDec (DFin false 25 (-1))]); [discriminate|repeat constructor].
    - apply (of_rows _ [[u "a"; u "b"]; [u "c"]]); [cbn; tauto| |exists (u "a"), (u "b"), []; eexists; split; [left; reflexivity|reflexivity]]. repeat constructor; try discriminate; cbn; intuition discriminate.
    - apply (of_texts _ [u "n"]); [cbn; tauto|discriminate|discriminate|]. repeat constructor; cbn; intuition discriminate. }
  rewrite Forall_forall in G. specialize (G _ Ha). cbn [fst snd] in G. rewrite last_last in G. exact G.
Qed.
Example doc6_id_types : forall Q, at_path (JO doc6) (Q ++ [(u "id", None)]) <> None -> type_at types6 (Q ++ [(u "id", None)]) <> u "number".
Proof.
  intros Q Ha. destruct (at_path (JO doc6) (Q ++ [(u "id", None)])) as [y|] eqn:E; [|congruence]. apply places_all in E.
  assert (G : forallb (fun p => negb (str_eqb (fst (last (fst p) ([], None))) (u "id") && str_eqb (type_at types6 (fst p)) (u "number"))) (places (JO doc6)) = true) by (vm_compute; reflexivity).
  rewrite forallb_forall in G. specialize (G _ E). cbn [fst] in G. rewrite last_last in G. cbn [fst] in G. rewrite str_eqb_refl in G. cbn [andb] in G. intros X. rewrite X in G. discriminate G.
Qed.
(** an array of arrays with one element each is not told from an array of texts *)
Definition P7 : opts := {| o_conv := test_cenv; o_types := fun p => if str_eqb p (u "grid") then u "array_array" else []; o_root_id := []; o_id_name := u "id"; o_xml := false; o_vertical := false |}.
Theorem C01_single_elements_refuted : exists s, flatten (OF "" 3) false [] [JO [(u "id", n 1); (u "grid", JA [JA [t "a"]; JA [t "b"]])]] = Ok s [] /\
  forall T, Forall2 (table_shown as_is SNone) (tables s) T -> unflatten P7 T = Ok [[(u "id", VLeaf (CV (SInt 1))); (u "grid", VLeaf (CList [SStr (u "a"); SStr (u "b")]))]] [].
Proof.
  eexists. split; [vm_compute; reflexivity|]. intros T H. vm_compute in H. inversion H as [|? x ? T' H1 H2]; subst. inversion H2; subst. destruct x as [nm hs ls], H1 as (Hh & Hl). cbn in Hl. subst ls.
  destruct Hh as [Hh|Hh]; cbn in Hh; subst hs; vm_compute; reflexivity.
Qed.
Print Assumptions C01_single_elements_refuted.

(** ** C02: nor the order, when the main table comes first, no table comes before the
    one with the items around its own, and records with the same root id are next
    to each other *)
Theorem C02_order O drop pi P write docs b : whole O -> blank b = true -> documents O docs -> survive O P write docs -> roots_together O docs ->
  exists s w, flatten O drop pi (map JO docs) = Ok s w /\
    forall T sheets, Permutation (sub_tables s) T -> outer_first O docs (map tb_name T) -> Forall2 (table_shown write b) (main_table s :: T) sheets ->
      exists out, unflatten P sheets = Ok out [] /\ same_records eq docs out.
Proof.
  intros HW Hb HD HV Hrt. destruct (trip_flattens O drop pi docs HW HD) as (s & w & E). exists s, w. split; [exact E|]. intros T sheets H1 H2 H3.
  exact (trip_ordered O drop pi P write docs b HW HV Hb HD s w E T sheets H1 H3 H2 Hrt).
Qed.
Print Assumptions C02_order.
(** which is so in the order in which the sheets are written, when names of arrays
    are not cut *)
Theorem C02_written O drop pi P write docs b : whole O -> blank b = true -> documents O docs -> survive O P write docs -> roots_together O docs -> short_names O docs ->
  exists s w, flatten O drop pi (map JO docs) = Ok s w /\
    forall T sheets, sheets_in_order (main_table s) (sub_tables s) T -> Forall2 (table_shown write b) T sheets ->
      exists out, unflatten P sheets = Ok out [] /\ same_records eq docs out.
Proof.
  intros HW Hb HD HV Hrt Hsh. destruct (trip_flattens O drop pi docs HW HD) as (s & w & E). exists s, w. split; [exact E|]. intros T sheets (T' & -> & H1 & H2) H3.
  exact (trip_ordered O drop pi P write docs b HW HV Hb HD s w E T' sheets H1 H3 (sorted_outer_first O drop pi docs s w HW HD E T' H1 H2 Hsh) Hrt).
Qed.
Print Assumptions C02_written.

Example docs_together : roots_together (OF "ocid" 5) [doc1; doc2].
Proof.
  intros a d b e c E _. destruct a as [|x a]; [|destruct a as [|y a]; [|destruct a]]; cbn in E; try discriminate.
  - injection E as <- E. destruct b as [|z b]; [constructor|]. cbn in E. injection E as _ E. destruct b; discriminate E.
  - injection E as _ _ E. destruct b; discriminate E.
Qed.
Example docs_short : short_names (OF "ocid" 5) [doc1; doc2].
Proof.
  intros d x y r Hd Hx _ _ _. cbn [po_trunc OF]. destruct Hd as [<-|[<-|[]]]; cbn in Hx; repeat (destruct Hx as [<-|Hx]; [cbn; lia|]); destruct Hx.
Qed.

(** ** What the conditions are for *)
Definition shown_as (x : table) : sheet_in :=
  {| si_name := tb_name x; si_headings := Some (map SStr (tb_header x)); si_lines := map (table_line as_is (SStr []) (tb_header x)) (tb_rows x) |}.
Lemma shown_as_shows l : Forall2 (table_shown as_is (SStr [])) l (map shown_as l).
Proof. induction l as [|x l IH]; constructor; [|exact IH]. split; [right; reflexivity|reflexivity]. Qed.
Definition run (O : popts) (docs : list jobj) : option pst := match flatten O false [] (map JO docs) with Ok s _ => Some s | _ => None end.
Lemma run_is O docs s w s' : flatten O false [] (map JO docs) = Ok s w -> run O docs = Some s' -> s = s'.
Proof. unfold run. intros -> E. injection E as ->. reflexivity. Qed.
(** with names of arrays cut to three characters (the default), "tes_x" is written
    before "tests": the second item of "tests" comes first *)
Definition doc3 : jobj := [(u "id", n 1); (u "tests", JA [JO [(u "id", t "i1")]; JO [(u "id", t "i2"); (u "x", JA [JO [(u "id", t "j")]])]])].
Lemma r3_run : exists s, run (OF "" 3) [doc3] = Some s.
Proof. vm_compute. eexists. reflexivity. Qed.
Theorem C02_written_refuted : ~ forall O drop pi P docs b, whole O -> blank b = true -> documents O docs -> survive O P as_is docs -> roots_together O docs ->
  exists s w, flatten O drop pi (map JO docs) = Ok s w /\
    forall T sheets, sheets_in_order (main_table s) (sub_tables s) T -> Forall2 (table_shown as_is b) T sheets ->
      exists out, unflatten P sheets = Ok out [] /\ same_records eq docs out.
Proof.
  intros H. destruct (H (OF "" 3) false [] (PF "") [doc3] (SStr [])) as (s & w & E & G); try reflexivity.
  - repeat split. left. reflexivity.
  - apply documents_check. vm_compute. reflexivity.
  - apply survive_check. vm_compute. reflexivity.
  - intros a d b e c Q _. destruct a as [|x a]; [|destruct a; discriminate]. injection Q as _ Q. destruct b; discriminate Q.
  - destruct r3_run as (s' & E'). rewrite (run_is _ _ _ _ _ E E') in G. clear E s.
    destruct (G (main_table s' :: sort_tables (sub_tables s')) _ ltac:(exists (sort_tables (sub_tables s')); split; [reflexivity|split; [apply sort_tables_perm|apply sort_tables_sorted]]) (shown_as_shows _)) as (out & Eo & S).
    vm_compute in E'. injection E' as <-. vm_compute in Eo. injection Eo as <-.
    inversion S as [| |? ? ? Q F]; subst. inversion F as [|? ? ? ? S1 _]; subst. inversion S1 as [|? ? _ _ S2|]; subst. specialize (S2 (u "tests") _ _ eq_refl eq_refl).
    inversion S2 as [| |? ? ? Q' F']; subst. inversion F' as [|? ? ? ? S3 _]; subst. inversion S3 as [|? ? _ _ S4|]; subst. specialize (S4 (u "id") _ _ eq_refl eq_refl). inversion S4 as [? ? L| |]; subst. cbn in L. first [discriminate L|destruct L as (_ & _ & L); discriminate L].
Qed.
Print Assumptions C02_written_refuted.
(** records with the same root id come back together *)
Definition recs (l : list (string * string)) : list jobj := map (fun p => [(u "ocid", t (fst p)); (u "id", t (snd p))]) l.
Lemma r4_run : exists s, run (OF "ocid" 3) (recs [("r", "1"); ("s", "2"); ("r", "3")])%string = Some s.
Proof. vm_compute. eexists. reflexivity. Qed.
Theorem C02_roots_refuted : ~ forall O drop pi P docs b, whole O -> blank b = true -> documents O docs -> survive O P as_is docs -> short_names O docs ->
  exists s w, flatten O drop pi (map JO docs) = Ok s w /\
    forall T sheets, sheets_in_order (main_table s) (sub_tables s) T -> Forall2 (table_shown as_is b) T sheets ->
      exists out, unflatten P sheets = Ok out [] /\ same_records eq docs out.
Proof.
  intros H. destruct (H (OF "ocid" 3) false [] (PF "ocid") (recs [("r", "1"); ("s", "2"); ("r", "3")])%string (SStr [])) as (s & w & E & G); try reflexivity.
  - repeat split. left. reflexivity.
  - apply documents_check. vm_compute. reflexivity.
  - apply survive_check. vm_compute. reflexivity.
  - intros d x y r Hd Hx. exfalso. destruct Hd as [<-|[<-|[<-|[]]]]; destruct Hx.
  - destruct r4_run as (s' & E'). rewrite (run_is _ _ _ _ _ E E') in G. clear E s.
    destruct (G (main_table s' :: sort_tables (sub_tables s')) _ ltac:(exists (sort_tables (sub_tables s')); split; [reflexivity|split; [apply sort_tables_perm|apply sort_tables_sorted]]) (shown_as_shows _)) as (out & Eo & S).
    vm_compute in E'. injection E' as <-. vm_compute in Eo. injection Eo as <-.
    inversion S as [| |? ? ? Q F]; subst. inversion F as [|? ? ? ? _ F1]; subst. inversion F1 as [|? ? ? ? S1 _]; subst. inversion S1 as [|? ? _ _ S2|]; subst. specialize (S2 (u "id") _ _ eq_refl eq_refl). inversion S2 as [? ? L| |]; subst. cbn in L. first [discriminate L|destruct L as (_ & _ & L); discriminate L].
Qed.
Print Assumptions C02_roots_refuted.
(** CSV files are read by name, and that of the main table is then not the first *)
Definition docs5 : list jobj := [[(u "id", n 1)]; [(u "id", n 2); (u "a", JA [JO [(u "id", t "i")]])]].
Lemma r5_run : exists s, run (OF "" 3) docs5 = Some s.
Proof. vm_compute. eexists. reflexivity. Qed.
Theorem C02_csv_refuted : ~ forall O drop pi P docs b, whole O -> blank b = true -> documents O docs -> survive O P as_is docs -> roots_together O docs -> short_names O docs ->
  exists s w, flatten O drop pi (map JO docs) = Ok s w /\
    forall T sheets, Permutation (named (u "main") (main_table s) :: sub_tables s) T -> StronglySorted (fun x y => not_after (tb_name x) (tb_name y)) T -> Forall2 (table_shown as_is b) T sheets ->
      exists out, unflatten P sheets = Ok out [] /\ same_records eq docs out.
Proof.
  intros H. destruct (H (OF "" 3) false [] (PF "") docs5 (SStr [])) as (s & w & E & G); try reflexivity.
  - repeat split. left. reflexivity.
  - apply documents_check. vm_compute. reflexivity.
  - apply survive_check. vm_compute. reflexivity.
  - intros a d b e c Q _. destruct a as [|x a]; [|destruct a as [|y a]; [|destruct a]]; cbn in Q; try discriminate.
    + injection Q as <- Q. destruct b as [|z b]; [constructor|]. cbn in Q. injection Q as _ Q. destruct b; discriminate Q.
    + injection Q as _ _ Q. destruct b; discriminate Q.
  - intros d x y r Hd Hx _ _ _. destruct Hd as [<-|[<-|[]]]; cbn in Hx; repeat (destruct Hx as [<-|Hx]; [cbn; lia|]); destruct Hx.
  - destruct r5_run as (s' & E'). rewrite (run_is _ _ _ _ _ E E') in G. clear E s.
    destruct (G (sort_tables (named (u "main") (main_table s') :: sub_tables s')) _ (sort_tables_perm _) (sort_tables_sorted _) (shown_as_shows _)) as (out & Eo & S).
    vm_compute in E'. injection E' as <-. vm_compute in Eo. injection Eo as <-.
    inversion S as [| |? ? ? Q F]; subst. inversion F as [|? ? ? ? S1 _]; subst. inversion S1 as [|? ? _ _ S2|]; subst. specialize (S2 (u "id") _ _ eq_refl eq_refl). inversion S2 as [? ? L| |]; subst. cbn in L. first [discriminate L|destruct L as (_ & _ & L); discriminate L].
Qed.
Print Assumptions C02_csv_refuted.
