(** C58: flattening with any mix of schema, titles, roll-up, filter and preserved
    fields: the rows say what is in the records and items, under the headings the
    options ask for.  The notions used are in Spec/Titled.v (places, items and
    columns in Spec/Paths.v). *)
From Coq Require Import String Permutation.
From Verif.Base Require Import PyStr PyNum PyVal PyDict Outcome.
From Verif.Model Require Import Flatten Schema.
From Verif.Tests Require Import TestLib FlattenLib.
From Verif.Spec Require Import Flat Sites Paths Titled.
From Verif.Proofs Require Import RtCheck TitledItems TitledUsed.

(** the main sheet has one row for each record that is an object and passes the
    filter, in their order; it says the record's leaves and what is rolled up *)
Theorem C58_records : forall O drop pi, json_run O -> (forall l, Permutation l (po_set_order O l)) -> forall l s w, flatten O drop pi l = Ok s w -> name_free O s -> Forall clean l ->
  Forall2 (fun d => tells (record_value O d)) (records (chosen O l)) (tb_rows (main_table s)).
Proof. intros O drop pi P HP l s w. exact (chosen_main O drop pi P l s w HP). Qed.
Print Assumptions C58_records.
(** a sub-sheet has one row for each item that belongs there; it says the item's
    leaves and the ids of the objects around it *)
Theorem C58_items : forall O drop pi, json_run O -> forall l s w, flatten O drop pi l = Ok s w -> name_free O s -> Forall clean l ->
  forall t, In t (sub_tables s) -> Forall2 (fun vx => tells (item_value O (fst vx) (snd vx))) (items_on O (tb_name t) (chosen O l)) (tb_rows t).
Proof. exact chosen_sub. Qed.
Print Assumptions C58_items.
(** the sub-sheets are those of the items, and otherwise sheets of the schema *)
Theorem C58_sheets : forall O drop pi, json_run O -> forall l s w, flatten O drop pi l = Ok s w -> name_free O s -> Forall clean l ->
  forall n, (In n (map tb_name (sub_tables s)) -> schema_sheet O n \/ items_on O n (chosen O l) <> []) /\
            (items_on O n (chosen O l) <> [] -> In n (map tb_name (sub_tables s))).
Proof. exact chosen_names. Qed.
Print Assumptions C58_sheets.

(** a sheet has the columns of its sheet in the schema, and those its rows use *)
Theorem C58_columns : forall O drop pi, json_run O -> po_preserve O = [] -> forall docs s w, flatten O drop pi (map JO docs) = Ok s w -> name_free O s ->
  Forall (fun d => clean (JO d) /\ RoundTrip.ids_are_values O (JO d)) docs ->
  let used (t : table) (k : str) := exists row, In row (tb_rows t) /\ In k (map fst row) in
  (forall k, In k (tb_header (main_table s)) -> used (main_table s) k \/ exists sc, po_schema O = Some sc /\ In k (header (sci_main sc))) /\
  (forall t k, In t (sub_tables s) -> In k (tb_header t) -> used t k \/ exists sc x, po_schema O = Some sc /\ In (tb_name t, x) (sci_subs sc) /\ In k (header x)).
Proof. exact columns_told. Qed.
Print Assumptions C58_columns.

(** ** A case *)
Local Open Scope string_scope.
Local Open Scope list_scope.
Definition text58 (title : string) : sv := VO None [(u "type", VS (SStr (u "string"))); (u "title", VS (SStr (u title)))].
Definition schema58 : sv :=
  VO None [(u "properties", VO None
    [(u "id", text58 "Number"); (u "ocid", text58 "Process");
     (u "buyer", VO None [(u "type", VS (SStr (u "object"))); (u "title", VS (SStr (u "Buyer"))); (u "properties", VO None [(u "name", text58 "Name")])]);
     (u "bids", VO None [(u "type", VS (SStr (u "array"))); (u "title", VS (SStr (u "Bids"))); (u "rollUp", VA [VS (SStr (u "value"))]);
        (u "items", VO None [(u "type", VS (SStr (u "object"))); (u "properties", VO None [(u "id", text58 "Number"); (u "value", text58 "Value")])])])])].
Definition fold58 : sps := match parse_schema {| so_rollup := true; so_root_id := u "ocid"; so_titles := true; so_trunc := 3; so_nodep := false; so_wkt := false; so_lower := lower |} schema58 with
  | Ok st _ => st
  | Raise _ _ => sps_start
  end.
Definition opts58 : popts :=
  {| po_str := test_env; po_titles := true; po_schema := Some (schema_info_of fold58); po_root_id := u "ocid"; po_id_name := u "id"; po_xml := false;
     po_filter := None; po_preserve := []; po_rollup := sp_rollup fold58; po_trunc := 3; po_wkt := false; po_shape := None; po_set_order := fun l => l |}.
Definition t58 (x : string) : jv := JS (SStr (u x)).
Definition data58 : list jv :=
  [JO [(u "id", t58 "1"); (u "ocid", t58 "a"); (u "buyer", JO [(u "name", t58 "B")]); (u "bids", JA [JO [(u "id", t58 "x"); (u "value", t58 "7")]])];
   JO [(u "id", t58 "2"); (u "ocid", t58 "b"); (u "bids", JA [JO [(u "id", t58 "y"); (u "value", t58 "8")]; JO [(u "value", t58 "9")]])]].

Definition docs58 : list jobj := flat_map (fun v => match v with JO d => [d] | _ => [] end) data58.

Definition state58 : pst := match flatten opts58 false [] data58 with Ok s _ => s | Raise _ _ => start opts58 false end.
Definition warned58 : list fwarning := match flatten opts58 false [] data58 with Ok _ w => w | Raise _ w => w end.
Lemma warned58_none : warned58 = [].
Proof. vm_compute. reflexivity. Qed.
Lemma done58 : flatten opts58 false [] data58 = Ok state58 [].
Proof.
  rewrite <- warned58_none. unfold state58, warned58. assert (H : match flatten opts58 false [] data58 with Ok _ _ => true | Raise _ _ => false end = true) by (vm_compute; reflexivity).
  destruct (flatten opts58 false [] data58); [reflexivity|discriminate H].
Qed.
Lemma free58 : name_free opts58 state58.
Proof. intros Q. discriminate Q. Qed.
Lemma dup_ok (l : list str) : (fix go (l : list str) := match l with [] => true | x :: l' => negb (str_mem x l') && go l' end) l = true -> NoDup l.
Proof.
  induction l as [|x l IH]; intros H; constructor; apply andb_true_iff in H as [H1 H2].
  - intros Q. apply (proj2 (str_mem_In x l)) in Q. rewrite Q in H1. discriminate H1.
  - exact (IH H2).
Qed.
Lemma run58 : json_run opts58.
Proof.
  split; [|split; reflexivity]. unfold schema_ready. cbn [opts58 po_schema]. split; [apply dup_ok; vm_compute; reflexivity|]. split; [apply dup_ok; vm_compute; reflexivity|].
  apply Forall_forall. intros nx H.
  assert (F : forallb (fun nx => match sh_lines (snd nx) with LMem [] => true | _ => false end &&
    (fix go (l : list str) := match l with [] => true | x :: l' => negb (str_mem x l') && go l' end) (header (snd nx))) (sci_subs (schema_info_of fold58)) = true) by (vm_compute; reflexivity).
  rewrite forallb_forall in F. apply F in H. apply andb_true_iff in H as [H1 H2]. split; [|apply dup_ok; exact H2]. destruct (sh_lines (snd nx)) as [[|? ?]|]; congruence.
Qed.
Lemma clean58 : Forall clean data58.
Proof. repeat (constructor || (intros [H|H]; [discriminate H|revert H])); try (intros []); simpl; intuition discriminate. Qed.
Example C58_meets : json_run opts58 /\ (forall l, Permutation l (po_set_order opts58 l)) /\ Forall clean data58 /\
  (exists s, flatten opts58 false [] data58 = Ok s [] /\ name_free opts58 s) /\
  map tb_rows (tables state58) =
  [ [ [(u "Number", t58 "1"); (u "Process", t58 "a"); (u "Buyer:Name", t58 "B"); (u "Bids:Value", t58 "7")]; [(u "Number", t58 "2"); (u "Process", t58 "b")] ];
    [ [(u "Process", t58 "a"); (u "Number", t58 "1"); (u "Bids:Number", t58 "x"); (u "Bids:Value", t58 "7")];
      [(u "Process", t58 "b"); (u "Number", t58 "2"); (u "Bids:Number", t58 "y"); (u "Bids:Value", t58 "8")];
      [(u "Process", t58 "b"); (u "Number", t58 "2"); (u "Bids:Value", t58 "9")] ] ] /\
  map (fun vx => (it_path (snd vx))) (items_on opts58 (u "Bids") data58) = [[(u "bids", Some 0%nat)]; [(u "bids", Some 0%nat)]; [(u "bids", Some 1%nat)]].
Proof.
  split; [exact run58|]. split; [intros l; apply Permutation_refl|]. split; [exact clean58|]. split; [exists state58; split; [exact done58|exact free58]|].
  split; vm_compute; reflexivity.
Qed.
Example C58_columns_meets : po_preserve opts58 = [] /\ data58 = map JO docs58 /\ Forall (fun d => clean (JO d) /\ RoundTrip.ids_are_values opts58 (JO d)) docs58 /\
  map tb_header (tables state58) = [[u "Number"; u "Process"; u "Buyer:Name"; u "Bids:Value"]; [u "ocid"; u "Number"; u "Bids:Number"; u "Bids:Value"; u "Process"]].
Proof.
  split; [reflexivity|]. split; [reflexivity|]. split; [|vm_compute; reflexivity]. pose proof clean58 as C. inversion C as [|? ? C1 C']; subst. inversion C' as [|? ? C2 _]; subst.
  assert (G : forall v, In v data58 -> RoundTrip.ids_are_values opts58 v).
  { intros v Hv Q d Ha. apply places_all in Ha.
    set (ok := fun x => match leaf_cell opts58 x with Some _ => true | None => false end).
    assert (B : forallb (fun p => match snd p with
        | JO e => match sget (u "id") e with Some x => ok x | None => true end && match sget (u "ocid") e with Some x => Nat.eqb (List.length (fst p)) 0 && ok x | None => true end
        | _ => true end) (flat_map places data58) = true) by (vm_compute; reflexivity).
    rewrite forallb_forall in B. specialize (B (Q, JO d) (proj2 (in_flat_map _ _ _) (ex_intro _ v (conj Hv Ha)))). cbn [fst snd] in B. apply andb_prop in B as [B1 B2].
    assert (L : forall x, ok x = true -> leaf_cell opts58 x <> None) by (intros x; unfold ok; destruct (leaf_cell opts58 x); discriminate).
    split; [intros x Hx; change (po_id_name opts58) with (u "id") in Hx; rewrite Hx in B1; apply L, B1|]. intros _ x Hx. change (po_root_id opts58) with (u "ocid") in Hx. rewrite Hx in B2.
    apply andb_prop in B2 as [B2 B3]. split; [destruct Q; [reflexivity|discriminate]|apply L, B3]. }
  constructor; [split; [exact C1|apply G; left; reflexivity]|]. constructor; [split; [exact C2|apply G; right; left; reflexivity]|constructor].
Qed.

(** With titles, several items leave no note in the main sheet where a single one
    would be rolled up: the schema asks for the value of a bid, the record has two
    bids with a value, and its row says nothing about them.  There is no warning. *)
Theorem C58_several_unsaid_refuted : exists O l s d row, json_run O /\ Forall clean l /\ flatten O false [] l = Ok s [] /\
  nth_error (records l) 1 = Some d /\ nth_error (tb_rows (main_table s)) 1 = Some row /\
  (exists items, sget (u "bids") d = Some (JA items) /\ (2 <= length items)%nat) /\
  rolled_heading O (u "bids") (u "value") = Some (u "Bids:Value") /\ sget (u "Bids:Value") row = None.
Proof.
  exists opts58, data58, state58, (match data58 with [_; JO d] => d | _ => [] end), [(u "Number", t58 "2"); (u "Process", t58 "b")].
  split; [exact run58|]. split; [exact clean58|]. split; [exact done58|]. split; [reflexivity|]. split; [vm_compute; reflexivity|].
  split; [eexists; split; [reflexivity|cbn [length]; auto]|]. split; vm_compute; reflexivity.
Qed.
Print Assumptions C58_several_unsaid_refuted.
(** With titles, a sub-sheet has a column for the root id that is always empty (the
    root id is under its title). *)
Theorem C58_empty_root_column_refuted : exists O l s t, json_run O /\ Forall clean l /\ flatten O false [] l = Ok s [] /\ In t (sub_tables s) /\
  In (po_root_id O) (tb_header t) /\ (forall v, In v l -> exists d x, v = JO d /\ sget (po_root_id O) d = Some x) /\
  tb_rows t <> [] /\ forall row, In row (tb_rows t) -> sget (po_root_id O) row = None.
Proof.
  assert (H : exists t, nth_error (sub_tables state58) 0 = Some t /\ str_mem (u "ocid") (tb_header t) = true /\ negb (Nat.eqb (length (tb_rows t)) 0) = true /\
    forallb (fun row => negb (shas (u "ocid") row)) (tb_rows t) = true).
  { exists (nth 0 (sub_tables state58) {| tb_name := []; tb_header := []; tb_rows := [] |}). split; [vm_compute; reflexivity|]. split; [vm_compute; reflexivity|]. split; vm_compute; reflexivity. }
  destruct H as (t & Ht & Hh & Hr & Hn). exists opts58, data58, state58, t. split; [exact run58|]. split; [exact clean58|]. split; [exact done58|].
  split; [eapply nth_error_In; exact Ht|]. split; [apply str_mem_In; exact Hh|].
  split; [intros v [<-|[<-|[]]]; eexists; eexists; split; reflexivity|]. split; [intros Q; rewrite Q in Hr; discriminate Hr|].
  intros row H. rewrite forallb_forall in Hn. apply Hn in H. change (po_root_id opts58) with (u "ocid"). unfold shas, ahas in H. unfold sget. destruct (aget str_eqb (u "ocid") row); [discriminate H|reflexivity].
Qed.
Print Assumptions C58_empty_root_column_refuted.
