(** Flattening with the titles of a schema. *)
From Coq Require Import Permutation.
From Verif.Base Require Import PyStr PyNum PyVal PyDict Outcome.
From Verif.Model Require Import Flatten Titles Schema.
From Verif.Spec Require Import Flat Sites Paths Titled.
From Verif.Spec Require SchemaFields SchemaTitled.
From Verif.Proofs Require SchemaState SchemaReady SchemaHeadings.
From Verif.Proofs Require Import TitledItems.
Import SchemaTitled (says, only, given, main_title, item_title, sheet_title, worded, titled_by).

Section TitledSchema.
  Variable (SO : sopts) (S : sv) (O : popts).
  Hypothesis (B : titled_by SO S O) (N : SchemaFields.named_fields SO S).

  Theorem main_heading c : given (main_title SO S c) (heading O None c) c.
  Proof.
    destruct B as (st & w & E & Ht & Hp & Hs). unfold heading, titles_of. rewrite Hp, Hs. cbn [sci_main schema_info_of].
    pose proof (SchemaHeadings.titles_main SO S st w E N Ht c) as H. unfold says in H. destruct (sget c (sh_titles (sp_main st))); [left; exact H|right; auto].
  Qed.
  Theorem item_heading sn a f : worded SO S -> (exists t, item_title SO S sn (a ++ u "/0/" ++ f) t) \/ (exists q ids n v i, SchemaFields.array_in SO S q ids n v i /\ sn = SchemaFields.sheet_of SO q n v) ->
    given (item_title SO S sn (a ++ u "/0/" ++ f)) (heading O (Some sn) (a ++ u "/0/" ++ f)) (a ++ u "/0/" ++ f).
  Proof.
    intros W Hn. destruct B as (st & w & E & Ht & Hp & Hs). unfold heading, titles_of. rewrite Hp, Hs. cbn [sci_subs schema_info_of].
    assert (M : In sn (map fst (sp_subs st))).
    { apply (SchemaState.sub_sheets SO S st w E (SchemaReady.named_fields_named SO S N)). destruct Hn as [(t & q & ids & n & v & i & f0 & x & A1 & A2 & _)|H]; [exists q, ids, n, v, i; auto|exact H]. }
    destruct (sget sn (sp_subs st)) as [s|] eqn:Es; [|apply sget_None in Es; contradiction].
    pose proof (SchemaHeadings.titles_items SO S st w E N Ht W sn s Es a f) as H. unfold says in H. destruct (sget (a ++ u "/0/" ++ f) (sh_titles s)); [left; exact H|right; auto].
  Qed.
  Theorem sheet_heading q k : given (sheet_title SO S (pre q) k) (array_sheet O q k) (short_name O q k).
  Proof.
    destruct B as (st & w & E & Ht & Hp & Hs). unfold array_sheet. rewrite Hp, Hs. cbn [sci_sub_titles schema_info_of]. change Flatten.pair_eqb with pair_eqb.
    pose proof (SchemaHeadings.titles_sheets SO S st w E N Ht (pre q) k) as H. unfold says in H. destruct (aget pair_eqb (pre q, k) (sp_sub_titles st)); [left; exact H|right; auto].
  Qed.
  Lemma given_only {A} (rel : A -> Prop) used other x : given rel used other -> only rel x -> used = x.
  Proof. intros [H|[H _]] [X U]; [exact (U _ H)|destruct (H _ X)]. Qed.

  (** the rows *)
  Variable (drop : bool) (pi : list str).
  Hypothesis JR : json_run O.
  Theorem record_titles l s w : (forall l, Permutation l (po_set_order O l)) -> flatten O drop pi l = Ok s w -> name_free O s -> Forall clean l ->
    Forall2 (fun d row => forall ks k y val t, at_path (JO d) (down (ks ++ [k])) = Some y -> leaf_cell O y = Some val -> keeps O (down (ks ++ [k])) = true ->
      only (main_title SO S (pre (down ks) ++ k)) t -> In t (map fst row) /\ ((forall val', record_value O d t val' -> val' = val) -> sget t row = Some val))
      (records (chosen O l)) (tb_rows (main_table s)).
  Proof.
    intros HP H Nf Cl. pose proof (chosen_main O drop pi JR l s w HP H Nf Cl) as F. induction F as [|d row ds rows T F IH]; constructor; [|exact IH].
    intros ks k y val t A L K U. pose proof (given_only _ _ _ _ (main_heading (pre (down ks) ++ k)) U) as Eh. destruct T as (_ & T1 & T2).
    assert (V : record_value O d t val) by (left; exists ks, k, y; split; [exact A|]; split; [exact L|]; split; [exact K|]; rewrite <- Eh; reflexivity).
    split; [exact (T2 _ _ V)|]. intros Q. exact (T1 _ _ V Q).
  Qed.
  Lemma pre_item x ks k : pre (it_path x) ++ pre (down ks) ++ k = (pre (it_at x) ++ it_key x) ++ u "/0/" ++ (pre (down ks) ++ k).
  Proof.
    unfold it_path, pre. rewrite flat_map_app. cbn [flat_map]. rewrite app_nil_r. unfold step_text at 2. cbn [fst snd]. rewrite <- !app_assoc. reflexivity.
  Qed.
  Theorem item_titles l s w : worded SO S -> flatten O drop pi l = Ok s w -> name_free O s -> Forall clean l -> forall t, In t (sub_tables s) ->
    Forall2 (fun vx row => forall ks k y val h, at_path (JO (it_obj (snd vx))) (down (ks ++ [k])) = Some y -> leaf_cell O y = Some val -> keeps O (it_path (snd vx) ++ down (ks ++ [k])) = true ->
      only (item_title SO S (tb_name t) (pre (it_path (snd vx)) ++ pre (down ks) ++ k)) h -> In h (map fst row) /\ ((forall val', item_value O (fst vx) (snd vx) h val' -> val' = val) -> sget h row = Some val))
      (items_on O (tb_name t) (chosen O l)) (tb_rows t).
  Proof.
    intros W H Nf Cl t Ht. pose proof (chosen_sub O drop pi JR l s w H Nf Cl t Ht) as F.
    assert (On : Forall (fun vx => tb_name t = array_sheet O (it_at (snd vx)) (it_key (snd vx))) (items_on O (tb_name t) (chosen O l))).
    { apply Forall_forall. intros vx Hv. unfold items_on in Hv. apply filter_In in Hv as [_ Hv]. apply str_eqb_eq in Hv. exact Hv. }
    induction F as [|[v x] row xs rows T F IH]; constructor; [|apply IH; inversion On; assumption].
    intros ks k y val h A L K U. inversion On as [|? ? On1 _]; subst. cbn [fst snd] in *.
    assert (V : item_value O v x h val).
    { left. exists ks, k, y. split; [exact A|]. split; [exact L|]. split; [exact K|]. rewrite <- On1. rewrite pre_item in U |- *. symmetry.
      apply (given_only _ _ _ _ (item_heading (tb_name t) _ _ W (or_introl (ex_intro _ h (proj1 U)))) U). }
    destruct T as (_ & T1 & T2). split; [exact (T2 _ _ V)|]. intros Q. exact (T1 _ _ V Q).
  Qed.
End TitledSchema.
