(** The statements of FlattenItems and RollupFacts, for runs with a filter too. *)
From Coq Require Import Permutation.
From Verif.Base Require Import PyStr PyNum PyVal PyDict Outcome.
From Verif.Model Require Import Flatten.
From Verif.Spec Require Import Flat Sites Paths Rollup.
From Verif.Proofs Require Import FlattenTrace FlattenRows FlattenRun FlattenPlain FlattenPaths FlattenItems RollupFacts FlattenTotal.

Section Chosen.
  Variables (O : popts) (drop : bool) (pi : list str).
  Hypothesis P : simple O.

  Lemma unfiltered l s w : flatten O drop pi l = Ok s w -> exists w', flatten (without_filter O) drop pi (chosen O l) = Ok s w'.
  Proof.
    intros H. unfold chosen. destruct (po_filter O) as [[f v]|] eqn:E.
    - pose proof (flatten_filter O (proj2 (proj2 (proj2 P))) f v drop pi l E) as Q. rewrite H in Q. simpl in Q.
      destruct (flatten (without_filter O) drop pi (filter (passes f v) l)) as [s' w'|]; simpl in Q; [|discriminate]. injection Q as ->. eauto.
    - exists w. rewrite <- H. f_equal. unfold without_filter. destruct O; simpl in *; subst; reflexivity.
  Qed.
  Lemma simple_unfiltered : simple (without_filter O).
  Proof. exact P. Qed.
  Lemma chosen_clean l : Forall clean l -> Forall clean (chosen O l).
  Proof.
    intros H. unfold chosen. destruct (po_filter O) as [[f v]|]; [|exact H]. rewrite Forall_forall in *. intros x Hx. apply filter_In in Hx as [Hx _]. exact (H x Hx).
  Qed.

  Theorem count_main l s w : flatten O drop pi l = Ok s w -> name_free O s -> length (tb_rows (main_table s)) = length (records (chosen O l)).
  Proof.
    intros H HF. destruct (unfiltered l s w H) as (w' & H'). rewrite (main_rows _ drop pi simple_unfiltered eq_refl _ s w' H' HF), map_length. reflexivity.
  Qed.
  Theorem shown_main l s w : flatten O drop pi l = Ok s w -> name_free O s -> Forall clean l -> po_rollup O = [] ->
    Forall2 (record_shown O) (records (chosen O l)) (tb_rows (main_table s)).
  Proof.
    intros H HF Hc RL. destruct (unfiltered l s w H) as (w' & H').
    exact (main_rows_show (without_filter O) drop pi simple_unfiltered eq_refl _ s w' H' HF (chosen_clean l Hc) RL).
  Qed.
  Theorem shown_rolled l s w : (forall l, Permutation l (po_set_order O l)) -> flatten O drop pi l = Ok s w -> name_free O s -> Forall clean l ->
    Forall2 (roll_shown O) (records (chosen O l)) (tb_rows (main_table s)).
  Proof.
    intros HP H HF Hc. destruct (unfiltered l s w H) as (w' & H').
    exact (roll_main (without_filter O) drop pi simple_unfiltered eq_refl HP _ s w' H' HF (chosen_clean l Hc)).
  Qed.
  Theorem shown_subs l s w : flatten O drop pi l = Ok s w -> name_free O s -> Forall clean l -> key_ok (po_id_name O) -> key_ok (po_root_id O) ->
    forall t, In t (sub_tables s) -> Forall2 (item_shown O) (sheet_items O (tb_name t) (chosen O l)) (tb_rows t).
  Proof.
    intros H HF Hc KI KR t Ht. destruct (unfiltered l s w H) as (w' & H').
    exact (sub_rows (without_filter O) drop pi simple_unfiltered eq_refl _ s w' H' HF (chosen_clean l Hc) KI KR t Ht).
  Qed.
  Theorem names_subs l s w : flatten O drop pi l = Ok s w -> name_free O s -> Forall clean l ->
    forall n, (In n (map tb_name (sub_tables s)) -> schema_sheet O n \/ sheet_items O n (chosen O l) <> []) /\ (sheet_items O n (chosen O l) <> [] -> In n (map tb_name (sub_tables s))).
  Proof.
    intros H HF Hc. destruct (unfiltered l s w H) as (w' & H').
    exact (sub_names (without_filter O) drop pi simple_unfiltered eq_refl _ s w' H' HF (chosen_clean l Hc)).
  Qed.
  (** each item has its row *)
  Theorem item_has_row l s w v x : flatten O drop pi l = Ok s w -> name_free O s -> Forall clean l -> key_ok (po_id_name O) -> key_ok (po_root_id O) ->
    In v (chosen O l) -> at_path v (it_path x) = Some (JO (it_obj x)) -> keeps O (it_path x) = true ->
    exists t row, In t (sub_tables s) /\ tb_name t = item_sheet O (v, x) /\ In row (tb_rows t) /\ item_shown O (v, x) row.
  Proof.
    intros H HF Hc KI KR Hv Hx HK.
    assert (Hin : In (v, x) (sheet_items O (item_sheet O (v, x)) (chosen O l))).
    { apply filter_In. split; [|destruct (str_eqb_spec (item_sheet O (v, x)) (item_sheet O (v, x))); congruence]. apply filter_In. split; [|exact HK].
      apply in_flat_map. exists v. split; [exact Hv|]. apply in_map. destruct x as [q k i e]. apply items_all; [|exact Hx].
      pose proof (chosen_clean l Hc) as Q. rewrite Forall_forall in Q. exact (Q v Hv). }
    assert (Ht : In (item_sheet O (v, x)) (map tb_name (sub_tables s))) by (apply (names_subs l s w H HF Hc); intros E; rewrite E in Hin; destruct Hin).
    apply in_map_iff in Ht as (t & En & Ht). pose proof (shown_subs l s w H HF Hc KI KR t Ht) as F. rewrite En in F.
    assert (G : exists row, In row (tb_rows t) /\ item_shown O (v, x) row).
    { clear - F Hin. induction F as [|a b la lb Hab F IH]; [destruct Hin|]. destruct Hin as [-> |Hin]; [exists b; split; [left; reflexivity|exact Hab]|].
      destruct (IH Hin) as (row & Hr & Q). exists row. split; [right; exact Hr|exact Q]. }
    destruct G as (row & Hr & Q). exists t, row. auto.
  Qed.
End Chosen.

(** a check for [root_id_once] *)
Fixpoint lacks (rid : str) (v : jv) : bool :=
  match v with
  | JS _ => true
  | JA l => forallb (lacks rid) l
  | JO d => negb (shas rid d) && forallb (fun kx => lacks rid (snd kx)) d
  end.
Lemma lacks_path rid q : forall v d, lacks rid v = true -> at_path v q = Some (JO d) -> sget rid d = None.
Proof.
  induction q as [|[k o] q IH]; intros v d HL H.
  - simpl in H. injection H as ->. cbn [lacks] in HL. apply andb_true_iff in HL as [HL _]. unfold shas, ahas, sget in *. destruct (aget str_eqb rid d); [discriminate|reflexivity].
  - cbn [at_path] in H. destruct v as [| |e]; try discriminate. cbn [lacks] in HL. apply andb_true_iff in HL as [_ HL]. rewrite forallb_forall in HL.
    destruct o as [i|]; destruct (sget k e) as [x|] eqn:Ek; try discriminate; apply sget_In in Ek; specialize (HL _ Ek); cbn [snd] in HL; [|exact (IH x d HL H)].
    destruct x as [|l|]; try discriminate. destruct (nth_error l i) as [y|] eqn:Ei; [|discriminate]. cbn [lacks] in HL. rewrite forallb_forall in HL. apply (IH y d); [apply HL; eapply nth_error_In; exact Ei|exact H].
Qed.
Lemma lacks_once O d : forallb (fun kx : str * jv => lacks (po_root_id O) (snd kx)) d = true -> root_id_once O (JO d).
Proof.
  intros HL Q e HQ H _. rewrite forallb_forall in HL. destruct Q as [|[k o] Q]; [congruence|]. cbn [at_path] in H. destruct o as [i|]; destruct (sget k d) as [x|] eqn:Ek; try discriminate; apply sget_In in Ek; specialize (HL _ Ek); cbn [snd] in HL; [|exact (lacks_path _ _ x e HL H)].
  destruct x as [|l|]; try discriminate. destruct (nth_error l i) as [y|] eqn:Ei; [|discriminate]. cbn [lacks] in HL. rewrite forallb_forall in HL. apply (lacks_path _ Q y e); [apply HL; eapply nth_error_In; exact Ei|exact H].
Qed.
Lemma Forall2_weaken {A B} (P Q : A -> B -> Prop) l m : (forall a b, P a b -> Q a b) -> Forall2 P l m -> Forall2 Q l m.
Proof. intros H F. induction F; constructor; auto. Qed.
