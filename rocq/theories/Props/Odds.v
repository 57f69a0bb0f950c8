(** C53: headings at odds with the schema.  The notions used in the statements are in
    Spec/Odds.v. *)
From Coq Require Import String.
From Verif.Base Require Import PyStr PyNum PyVal PyDict Outcome.
From Verif.Model Require Import Warn Lib Convert Input Schema.
From Verif.Spec Require Import Conversion Plain SchemaFields Odds.
From Verif.Tests Require Import TestLib.
From Verif.Proofs Require Import Odds OddsSchema.
Local Open Scope list_scope.

(** unflatten succeeds, or raises the schema error, naming a field that the heading of a
    cell treats against the schema; there is no other way to fail *)
Theorem C53_fails : forall O, known_types (o_types O) -> ids_single (o_types O) (o_id_name O) -> o_xml O = false ->
  forall sheets, (forall s, In s sheets -> acceptable O s) ->
  (exists r w, unflatten O sheets = Ok r w) \/
  (exists till w h v, unflatten O sheets = Raise (EFlattenToolValueError till) w /\ has_cell sheets h v /\ at_odds (o_types O) (path_items (o_conv O) h) till).
Proof. exact unflatten_outcome. Qed.
Print Assumptions C53_fails.
(** and if it succeeds, no such heading was taken: each is reported as ignored *)
Theorem C53_heard : forall O, o_xml O = false -> forall sheets r w h v till, unflatten O sheets = Ok r w -> has_cell sheets h v ->
  at_odds (o_types O) (path_items (o_conv O) h) till -> exists t, In (WColumnArray h t) w \/ In (WColumnObject h t) w.
Proof. exact unflatten_heard. Qed.
Print Assumptions C53_heard.
(** the types a parsed schema gives are known types *)
Theorem C53_parsed : forall O S st w, parse_schema O S = Ok st w -> plain_names O S -> known_types (types_of st).
Proof. exact parsed_known. Qed.
Print Assumptions C53_parsed.

(** ** cases *)
Definition o_types3 (p : str) : str :=
  match find (fun x => str_eqb (u (fst x)) p) [("id", "integer"); ("n", "number"); ("b", "object"); ("b/t", "string_array"); ("a", "array"); ("a/id", "string"); ("z/n", "number")]%string with
  | Some x => u (snd x) | None => [] end.
Definition O4 : opts := {| o_conv := test_cenv; o_types := o_types3; o_root_id := []; o_id_name := u "id"; o_xml := false; o_vertical := false |}.
Definition row (l : list (string * scalar)) : sheet_in :=
  {| si_name := u "s"; si_headings := None; si_lines := [map (fun x => (SStr (u (fst x)), snd x)) l] |}.
Definition good_row := row [("id", SStr (u "12")); ("a/0/id", SStr (u "x")); ("a/c", SInt 2); ("b/t", SStr (u "x;y")); ("n/0/q", SNone)]%string.
Definition bad_row := row [("id", SStr (u "13")); ("n/0/q", SInt 3)]%string.
Definition ignored_row := row [("b/t", SStr (u "x")); ("z", SInt 3); ("z/n/q", SInt 3)]%string.
Example O4_known : known_types (o_types O4) /\ ids_single (o_types O4) (o_id_name O4) /\ o_xml O4 = false.
Proof.
  split; [|split; [|reflexivity]].
  - intros p. cbn [o_types O4]. unfold o_types3, find. repeat (destruct (str_eqb _ p); [cbn; tauto|]). left. left. reflexivity.
  - intros items. cbn [o_types O4 o_id_name]. set (p := join [slash] (items ++ [u "id"])).
    assert (H : exists q, p = q ++ u "id").
    { unfold p. clear p. induction items as [|x items (q & IH)]; [exists []; reflexivity|]. destruct items as [|y items].
      - exists (x ++ [slash]). cbn [app join]. rewrite <- app_assoc. reflexivity.
      - exists (x ++ [slash] ++ q). cbn [app] in *. cbn [join]. cbn [join] in IH. rewrite IH, <- !app_assoc. reflexivity. }
    destruct H as (q & ->). unfold o_types3, find.
    assert (N : forall a, firstn 2 (rev (u a)) <> firstn 2 (rev (u "id")) -> str_eqb (u a) (q ++ u "id") = false).
    { intros a Ha. destruct (str_eqb_spec (u a) (q ++ u "id")) as [Q|Q]; [|reflexivity]. exfalso. apply Ha. rewrite Q, rev_app_distr. reflexivity. }
    cbn [fst]. rewrite (N "n"%string), (N "b"%string), (N "b/t"%string), (N "a"%string), (N "z/n"%string) by (vm_compute; discriminate).
    destruct (str_eqb (u "id") (q ++ u "id")); [cbn; tauto|]. destruct (str_eqb (u "a/id") (q ++ u "id")); cbn; tauto.
Qed.
Example C53_meets : acceptable O4 good_row /\ acceptable O4 bad_row.
Proof.
  assert (T : forall s, ordinary s -> (forall n p, s <> SDec (DNan n true p)) -> (forall t n p, s = SStr t -> parse_dec t <> Some (DNan n true p)) -> tame (o_conv O4) (o_types O4) s).
  { intros s H1 H2 H3. split; [exact H1|]. split; [exact H2|]. split; [exact H3|]. intros (p & Hp). exfalso. cbn [o_types O4] in Hp. unfold o_types3, find in Hp.
    repeat (destruct (str_eqb _ p); [discriminate Hp|]). discriminate Hp. }
  assert (G : forall l, (forall x, In x l -> blank (snd x) = false -> tame (o_conv O4) (o_types O4) (snd x) /\
     id_is_leaf (u "id") (path_items test_cenv (SStr (u (fst x)))) /\ no_empty_parts (path_items test_cenv (SStr (u (fst x))))) -> acceptable O4 (row l)).
  { intros l H line [<-|[]]. split; [discriminate|]. intros h v Hin Hb. apply in_map_iff in Hin as (x & Q & Hin). injection Q as <- <-. exact (H x Hin Hb). }
  assert (NE : forall items, forallb (fun x => negb (is_empty x)) (List.tl items) = true -> no_empty_parts items).
  { intros items H b x y l ->. rewrite forallb_forall in H. intros ->.
    assert (In [] (List.tl (b ++ x :: [] :: l))) by (destruct b; [left; reflexivity|simpl; apply in_or_app; right; right; left; reflexivity]).
    specialize (H _ H0). discriminate H. }
  split; apply G; intros x Hin Hb; cbn [In] in Hin; repeat (destruct Hin as [<-|Hin]); try destruct Hin; cbn [fst snd] in *; try discriminate Hb;
    (split; [apply T; [exact I|intros; discriminate|intros t n p [= <-]; vm_compute; discriminate]|split; [vm_compute; repeat split; intros Q; discriminate Q|apply NE; vm_compute; reflexivity]]).
Qed.
Example C53_case : (exists r w, unflatten O4 [good_row] = Ok r w /\ w = []) /\
  unflatten O4 [good_row; bad_row] = Raise (EFlattenToolValueError (u "n")) [] /\
  at_odds (o_types O4) (path_items (o_conv O4) (SStr (u "n/0/q"))) (u "n").
Proof.
  split; [do 2 eexists; split; vm_compute; reflexivity|]. split; [vm_compute; reflexivity|].
  exists [], (u "n"), (u "0"), [u "q"]. repeat split; try reflexivity; try (vm_compute; discriminate).
Qed.
Example C53_heard_case : at_odds (o_types O4) (path_items (o_conv O4) (SStr (u "z/n/q"))) (u "z/n") /\
  exists r w, unflatten O4 [ignored_row] = Ok r w /\ w = [WColumnObject (SStr (u "z/n/q")) (u "z")].
Proof.
  split; [|do 2 eexists; split; vm_compute; reflexivity].
  exists [u "z"], (u "n"), (u "q"), []. repeat split; try reflexivity; try (vm_compute; discriminate).
Qed.
(** an id that is an array for the schema: another error *)
Definition O5 : opts := {| o_conv := test_cenv; o_types := fun p => if str_eqb p (u "id") then u "string_array" else []; o_root_id := []; o_id_name := u "id"; o_xml := false; o_vertical := false |}.
Theorem C53_id_array_refuted : exists O sheets e w, known_types (o_types O) /\ o_xml O = false /\ (forall s, In s sheets -> acceptable O s) /\
  unflatten O sheets = Raise e w /\ (forall t, e <> EFlattenToolValueError t).
Proof.
  exists O5, [row [("id", SStr (u "x"))]%string], ETypeError, []. split; [|split; [reflexivity|split; [|split; [vm_compute; reflexivity|discriminate]]]].
  - intros p. cbn [o_types O5]. destruct (str_eqb p (u "id")); left; cbn; tauto.
  - intros s [<-|[]] line [<-|[]]. split; [discriminate|]. intros h v [Q|[]] _. injection Q as <- <-. split; [|split].
    + split; [exact I|]. split; [intros; discriminate|]. split; [intros t n p [= <-]; vm_compute; discriminate|].
      intros (p & Hp). exfalso. cbn [o_types O5] in Hp. destruct (str_eqb p (u "id")); discriminate Hp.
    + vm_compute. exact I.
    + intros [|a b] x y l Q; [vm_compute in Q; discriminate Q|]. vm_compute in Q. destruct b; discriminate Q.
Qed.
Print Assumptions C53_id_array_refuted.
