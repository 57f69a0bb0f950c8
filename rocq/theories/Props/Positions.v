(** C61: the number in a heading like "bids/2/value" only keeps the items of one row
    apart.  Rows that differ in these numbers only, and headings without them, are
    defined in Spec/Positions.v. *)
From Coq Require Import ZArith.
From Verif.Base Require Import PyStr PyNum PyVal PyDict Outcome.
From Verif.Model Require Import Warn Lib Convert Input.
From Verif.Spec Require Import Filled Positions.
From Verif.Tests Require Import TestLib.
From Verif.Proofs Require Import PositionFacts.

(** Two spreadsheets whose rows differ in the positions only, with one position per
    array in every row, give the same result, and the same warnings but for the
    headings that these name. *)
Theorem C61_positions : forall O A B, o_xml O = false -> Forall fits A -> Forall fits B ->
  Forall2 (same_but_positions O) (flat_map (filled_rows O) A) (flat_map (filled_rows O) B) ->
  seen_as unheaded (unflatten O A) = seen_as unheaded (unflatten O B).
Proof. intros O A B Hx. exact (positions_only_separate O Hx A B). Qed.
Print Assumptions C61_positions.

(** Where the schema says that there is an array, the position can be left out. *)
Theorem C61_left_out : forall O sheets, o_xml O = false -> Forall fits sheets -> Forall (keeps_root O) sheets ->
  Forall (droppable O) (flat_map (filled_rows O) sheets) ->
  seen_as unheaded (unflatten O (map (bare_sheet (o_conv O)) sheets)) = seen_as unheaded (unflatten O sheets).
Proof. exact positions_left_out. Qed.
Print Assumptions C61_left_out.

(** ** Examples: two rows with a bid each, one with a nested array *)
Definition types61 (t : str) : str := if str_eqb t (u "bids") || str_eqb t (u "bids/items") then u "array" else [].
Definition opts61 (types : str -> str) : opts :=
  {| o_conv := test_cenv; o_types := types; o_root_id := u "ocid"; o_id_name := u "id"; o_xml := false; o_vertical := false |}.
Definition sheet61 (heads : list str) (rows : list (list str)) : sheet_in :=
  {| si_name := u "main"; si_headings := Some (map SStr heads); si_lines := map (fun r => combine (map SStr heads) (map SStr r)) rows |}.
Definition rows61 : list (list str) := [[u "p1"; u "r1"; u "b1"; u "10"; u "pen"]; [u "p1"; u "r1"; u "b2"; u "20"; u "ink"]; [u "p2"; u "r2"; u "b1"; u "30"; []]].
Definition book61 (bid item : str) : list sheet_in :=
  [sheet61 [u "ocid"; u "id"; u "bids" ++ bid ++ u "/id"; u "bids" ++ bid ++ u "/value"; u "bids" ++ bid ++ u "/items" ++ item ++ u "/name"] rows61].
Definition value61 (m : R (list vdict)) : list vdict := match m with Ok r _ => r | Raise _ _ => [] end.
Definition bid61 (i v : str) (items : list (str * vnode)) : vdict := [(u "id", VLeaf (CV (SStr i))); (u "value", VLeaf (CV (SStr v)))] ++ items.
Definition item61 (n : str) : list (str * vnode) := [(u "items", VList [[(u "name", VLeaf (CV (SStr n)))]])].
Definition record61 (o i : str) (bids : list vdict) : vdict := [(u "ocid", VLeaf (CV (SStr o))); (u "id", VLeaf (CV (SStr i))); (u "bids", VList bids)].

Definition at61 (i j : option Z) (a : list str) : option Z :=
  match a with [_] => if str_eqb (hd [] a) (u "bids") then i else None | [_; _] => if str_eqb (join [slash] a) (u "bids/items") then j else None | _ => None end.
Ltac one61 := intros c a n Hc Hs; apply stands_standings in Hs;
  repeat (destruct Hc as [<-|Hc]; [vm_compute in Hs; repeat (destruct Hs as [Hs|Hs]; [injection Hs as <- <-; reflexivity|]); destruct Hs|]); destruct Hc.
(** with a schema: "bids/0/items/4/name" or "bids/items/name" *)
Example C61_meets_left_out :
  Forall fits (book61 (u "/0") (u "/4")) /\ Forall (keeps_root (opts61 types61)) (book61 (u "/0") (u "/4")) /\
  Forall (droppable (opts61 types61)) (flat_map (filled_rows (opts61 types61)) (book61 (u "/0") (u "/4"))) /\
  map (bare_sheet test_cenv) (book61 (u "/0") (u "/4")) = book61 [] [] /\
  value61 (unflatten (opts61 types61) (book61 [] [])) =
    [record61 (u "p1") (u "r1") [bid61 (u "b1") (u "10") (item61 (u "pen")); bid61 (u "b2") (u "20") (item61 (u "ink"))];
     record61 (u "p2") (u "r2") [bid61 (u "b1") (u "30") []]].
Proof.
  split; [|split; [|split; [|split; vm_compute; reflexivity]]].
  - constructor; [|constructor]. intros line Hin. repeat (destruct Hin as [<-|Hin]; [vm_compute; repeat constructor|]). destruct Hin.
  - constructor; [|constructor]. right. split; [vm_compute; reflexivity|]. intros line kv Hl Hk Hb.
    repeat (destruct Hl as [<-|Hl]; [repeat (destruct Hk as [<-|Hk]; [vm_compute in Hb; first [reflexivity|discriminate Hb]|]); destruct Hk|]). destruct Hl.
  - assert (D : forall r, one_position test_cenv (at61 (Some 0%Z) (Some 4%Z)) r ->
      (forall c, In c (fr_cells r) -> In (fc_key c) (map SStr [u "ocid"; u "id"; u "bids/0/id"; u "bids/0/value"; u "bids/0/items/4/name"])) -> droppable (opts61 types61) r).
    { intros r Ho Hk. split; [|split; [exists (at61 (Some 0%Z) (Some 4%Z)); exact Ho|]].
      - intros c Hc. specialize (Hk c Hc). repeat (destruct Hk as [<-|Hk]; [split; [vm_compute; intuition discriminate|vm_compute; discriminate]|]). destruct Hk.
      - intros c a n Hc Hs. apply stands_standings in Hs. specialize (Hk c Hc). 
        repeat (destruct Hk as [Hk0|Hk]; [rewrite <- Hk0 in Hs; vm_compute in Hs; repeat (destruct Hs as [Hs|Hs]; [first [discriminate Hs|injection Hs as <- <-; vm_compute; reflexivity]|]); destruct Hs|]). destruct Hk. }
    repeat (apply Forall_cons; [apply D; [one61|intros c Hc; repeat (destruct Hc as [<-|Hc]; [vm_compute; tauto|]); destruct Hc]|]). apply Forall_nil.
Qed.

(** without one: other numbers *)
Definition no_types61 (_ : str) : str := [].
Example C61_meets :
  Forall2 (same_but_positions (opts61 no_types61)) (flat_map (filled_rows (opts61 no_types61)) (book61 (u "/0") (u "/0"))) (flat_map (filled_rows (opts61 no_types61)) (book61 (u "/7") (u "/2"))) /\
  value61 (unflatten (opts61 no_types61) (book61 (u "/7") (u "/2"))) = value61 (unflatten (opts61 types61) (book61 [] [])).
Proof.
  split; [|vm_compute; reflexivity].
  assert (D : forall r r', fr_root r = fr_root r' -> one_position test_cenv (at61 (Some 0%Z) (Some 0%Z)) r -> one_position test_cenv (at61 (Some 7%Z) (Some 2%Z)) r' ->
    Forall2 (fun c c' => fc_value c = fc_value c' /\ ~ In [] (path_items test_cenv (fc_key c)) /\ names (path_items test_cenv (fc_key c)) = names (path_items test_cenv (fc_key c'))) (fr_cells r) (fr_cells r') ->
    same_but_positions (opts61 no_types61) r r').
  { intros r r' Hr Ho Ho' Hc. split; [exact Hr|]. split; [exact Hc|]. exists (at61 (Some 0%Z) (Some 0%Z)), (at61 (Some 7%Z) (Some 2%Z)). split; [exact Ho|]. split; [exact Ho'|].
    intros a. right. destruct a as [|x [|y [|z a]]]; cbn [at61]; try (split; intros; reflexivity); (match goal with |- context [if ?b then _ else _] => destruct b end); split; intros Q; first [reflexivity|discriminate Q]. }
  repeat (apply Forall2_cons; [apply D; [reflexivity|one61|one61|repeat (apply Forall2_cons; [split; [reflexivity|split; [vm_compute; intuition discriminate|vm_compute; reflexivity]]|]); apply Forall2_nil]|]). apply Forall2_nil.
Qed.

(** Positions cannot be left out of some headings of a row only: the item falls
    apart ("bids/0/id" next to "bids/value"). *)
Theorem C61_mixed_refuted : exists A B, Forall fits A /\ Forall fits B /\
  (exists bids, value61 (unflatten (opts61 types61) A) = [record61 (u "p1") (u "r1") [bids]]) /\
  (exists b1 b2, value61 (unflatten (opts61 types61) B) = [record61 (u "p1") (u "r1") [b1; b2]]) /\
  map (bare_sheet test_cenv) A = map (bare_sheet test_cenv) B.
Proof.
  exists [sheet61 [u "ocid"; u "id"; u "bids/id"; u "bids/value"] [[u "p1"; u "r1"; u "b1"; u "10"]]],
         [sheet61 [u "ocid"; u "id"; u "bids/0/id"; u "bids/value"] [[u "p1"; u "r1"; u "b1"; u "10"]]].
  split; [constructor; [intros line [<-|[]]; vm_compute; repeat constructor|constructor]|].
  split; [constructor; [intros line [<-|[]]; vm_compute; repeat constructor|constructor]|].
  split; [exists (bid61 (u "b1") (u "10") []); vm_compute; reflexivity|].
  split; [exists [(u "id", VLeaf (CV (SStr (u "b1"))))], [(u "value", VLeaf (CV (SStr (u "10"))))]; vm_compute; reflexivity|vm_compute; reflexivity].
Qed.
Print Assumptions C61_mixed_refuted.
