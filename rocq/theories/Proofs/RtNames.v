(** Names of sheets in the order of the files. *)
From Coq Require Import Permutation Lia Sorted.
From Verif.Base Require Import PyStr PyNum PyVal PyDict Outcome.
From Verif.Model Require Import Warn Lib Convert Input Flatten.
From Verif.Spec Require Import Flat Sites Paths Headings Grids Written RoundTrip.
From Verif.Proofs Require Import FlattenRun FlattenPlain FlattenPaths FlattenItems RtMerge RtDoc RtState RtMain.

Definition short (n : nat) (q : jpath) : str := flat_map (fun st : jstep => firstn n (fst st) ++ [95%N]) q.
Lemma short_app n a b : short n (a ++ b) = short n a ++ short n b.
Proof. apply flat_map_app. Qed.
Lemma name_text n q k : path_ok q -> Forall (fun st : jstep => fst st <> zero_seg) q -> make_sub_sheet_name (pre q) k n slash_c = replace_c 58%N 45%N (short n q ++ k).
Proof.
  intros Hq Hz. unfold make_sub_sheet_name. f_equal. f_equal.
  assert (E : split_on slash_c (pre q) = segs q ++ [[]]).
  { rewrite <- (app_nil_r (pre q)), pre_segs. apply (split_join 47%N); [destruct (segs q); discriminate|]. intros x Hx. apply in_app_or in Hx as [Hx|[<-|[]]]; [|intros []].
    pose proof (segs_ok q Hq) as Q. rewrite Forall_forall in Q. exact (Q x Hx). }
  rewrite E. clear E Hq. rewrite filter_app, map_app. match goal with |- join _ (_ ++ ?z) = _ => set (Z := z) end. assert (HZ : Z = [[]]) by (subst Z; destruct n; reflexivity). clearbody Z. subst Z.
  induction Hz as [|[k0 o] q Hk Hz IH]; [reflexivity|]. cbn [fst] in Hk.
  assert (E0 : str_eqb k0 zero_seg = false) by (destruct (str_eqb_spec k0 zero_seg); [contradiction|reflexivity]).
  assert (Eo : filter (fun x : str => negb (str_eqb x zero_seg)) (segs ((k0, o) :: q)) = k0 :: filter (fun x => negb (str_eqb x zero_seg)) (segs q)).
  { change (segs ((k0, o) :: q)) with ((k0 :: match o with Some _ => [u "0"] | None => [] end) ++ segs q). cbn [app filter]. rewrite E0. cbn [negb]. f_equal. destruct o; reflexivity. }
  match goal with |- context[map _ ?f] => replace f with (k0 :: filter (fun x : str => negb (str_eqb x zero_seg)) (segs q)) by (symmetry; exact Eo) end.
  change (short n ((k0, o) :: q)) with ((firstn n k0 ++ [95%N]) ++ short n q). rewrite <- IH. cbn [map app].
  match goal with |- join _ (_ :: ?m) = _ ++ join _ ?m' => change m' with m; destruct m as [|z l] eqn:El end; [apply app_eq_nil in El as [_ El]; discriminate El|].
  rewrite join_cons, <- app_assoc. reflexivity.
Qed.

Section Names.
  Variables (O : popts) (drop : bool) (pi : list str) (docs : list jobj) (s : pst) (w : list fwarning).
  Hypothesis HW : whole O.
  Hypothesis HD : documents O docs.
  Hypothesis HR : flatten O drop pi (map JO docs) = Ok s w.

  Lemma not_zero v q x : tidy (po_id_name O) v -> at_path v q = Some x -> Forall (fun st : jstep => fst st <> zero_seg) q.
  Proof.
    revert v. induction q as [|[k o] q IH]; intros v Ht H; [constructor|]. cbn [at_path] in H. destruct v as [| |d]; try discriminate. destruct (tidy_JO _ d Ht) as (_ & _ & Ha & _).
    assert (Hd : forall y, sget k d = Some y -> k <> zero_seg /\ tidy (po_id_name O) y).
    { intros y Hy. apply sget_In in Hy. destruct (Ha _ _ Hy) as [((_ & Hp) & _) Ht']. split; [|exact Ht']. intros ->. discriminate Hp. }
    destruct o as [i|].
    - destruct (sget k d) as [[|l|]|] eqn:Ek; try discriminate. destruct (nth_error l i) as [y|] eqn:Ei; [|discriminate]. destruct (Hd _ eq_refl) as [Hk Hl]. constructor; [exact Hk|]. destruct q as [|st q]; [constructor|]. destruct y as [| |o]; try (destruct st; discriminate). destruct (tidy_items _ l o Hl (nth_error_In _ _ Ei)) as (_ & Hy & _). eapply IH; [apply (Hy _ (nth_error_In _ _ Ei))|exact H].
    - destruct (sget k d) as [y|] eqn:Ek; [|discriminate]. destruct (Hd _ eq_refl) as [Hk Hy]. constructor; [exact Hk|]. eapply IH; eassumption.
  Qed.
  Lemma item_name d x : In d docs -> In x (items_in (JO d)) -> item_sheet O (JO d, x) = replace_c 58%N 45%N (short (po_trunc O) (it_at x) ++ it_key x).
  Proof.
    intros Hd Hx. pose proof (proj1 (doc_ok O docs HD d Hd)) as Ht. pose proof (items_at (JO d) (tidy_clean O _ Ht) x Hx) as Ha. unfold item_sheet, sub_sheet_name. cbn [snd]. destruct HW as ((_ & HT & _) & _). rewrite HT. unfold it_path in Ha. rewrite at_path_app in Ha.
    destruct (at_path (JO d) (it_at x)) as [g|] eqn:Eg; [|discriminate]. apply name_text; [exact (proj1 (at_path_ok _ _ _ (tidy_clean O _ Ht) Eg))|eapply not_zero; eassumption].
  Qed.
  Lemma not_after_prefix a c r : ~ not_after (a ++ c :: r) a.
  Proof.
    induction a as [|x a IH]; intros H; inversion H; subst; try lia. apply IH. assumption.
  Qed.
  Theorem sorted_outer_first T : Permutation (sub_tables s) T -> StronglySorted (fun x y => not_after (tb_name x) (tb_name y)) T -> short_names O docs -> outer_first O docs (map tb_name T).
  Proof.
    intros Hp Hs Hsh d x y r Hd Hx Hy E a b c En.
    assert (Hn : NoDup (map tb_name T)). { eapply Permutation_NoDup; [apply Permutation_map; exact Hp|]. apply (flatten_names O drop pi (simple_ready O (proj1 HW)) _ _ _ HR). }
    assert (Hne : item_sheet O (JO d, y) <> item_sheet O (JO d, x)).
    { intros Q. rewrite En, Q in Hn. apply NoDup_remove_2 in Hn. apply Hn. apply in_or_app. right. apply in_elt. }
    destruct (exists_last (l := r)) as (r' & [k i] & ->). { intros ->. apply Hne. rewrite app_nil_r in E. unfold it_path in E. apply app_inj_tail in E as [E1 E2]. unfold item_sheet. cbn [snd]. injection E2 as E2 _. congruence. }
    pose proof (Hsh d x y _ Hd Hx Hy E) as Hl. specialize (Hl ltac:(destruct r'; discriminate)).
    rewrite app_assoc in E. unfold it_path in E. apply app_inj_tail in E as [E1 E2]. injection E2 as E2 _. clear i.
    assert (Ha : not_after (item_sheet O (JO d, y)) (item_sheet O (JO d, x))).
    { clear - Hs En. apply map_eq_app in En as (T1 & T2 & -> & _ & En). apply map_eq_cons in En as (ty & T3 & -> & <- & En). apply map_eq_app in En as (T4 & T5 & -> & _ & En). apply map_eq_cons in En as (tx & T6 & -> & <- & _).
      induction T1 as [|t T1 IH]; cbn [app] in Hs; inversion Hs as [|? ? Hs' Hf]; subst; [|exact (IH Hs')]. rewrite Forall_forall in Hf. apply Hf. apply in_elt. }
    rewrite (item_name d x Hd Hx), (item_name d y Hd Hy), E1, short_app in Ha. unfold it_path in Ha. rewrite short_app in Ha. cbn [short flat_map fst] in Ha. rewrite app_nil_r, firstn_all2 in Ha by exact Hl.
    unfold replace_c in Ha. rewrite <- !app_assoc in Ha. rewrite !(map_app _ (short _ (it_at x))), (map_app _ (it_key x)) in Ha. cbn [app map] in Ha. rewrite app_assoc in Ha. exact (not_after_prefix _ _ _ Ha).
  Qed.
End Names.
