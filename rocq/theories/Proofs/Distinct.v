(** Lists without equal elements, first occurrences. *)
From Verif.Base Require Import PyStr PyNum PyVal PyDict Outcome.
From Verif.Model Require Import Warn Input.
From Verif.Spec Require Import Ids Rows.
From Verif.Proofs Require Import TreeInd.

(** ** First occurrences *)
Lemma nub_In x l : In x (nub l) -> In x l.
Proof.
  induction l as [|y l IH]; simpl; [auto|]. intros [H|H]; [auto|]. apply filter_In in H as [H _]. auto.
Qed.
Lemma nub_cover x l : In x l -> not_nan x = true -> exists y, In y (nub l) /\ py_eqb y x = true.
Proof.
  induction l as [|z l IH]; simpl; [intros []|]. intros H Hn. destruct (py_eqb z x) eqn:E; [exists z; auto|].
  destruct H as [->|H]; [rewrite py_eqb_refl in E by exact Hn; discriminate|].
  destruct (IH H Hn) as (y & Hy & Hyx). exists y. split; [|exact Hyx]. right. apply filter_In. split; [exact Hy|].
  destruct (py_eqb z y) eqn:F; [|reflexivity]. rewrite (py_eqb_trans _ _ _ F Hyx) in E. discriminate.
Qed.
Lemma filter_filter_comm {A} (f g : A -> bool) l : filter f (filter g l) = filter g (filter f l).
Proof. induction l as [|x l IH]; simpl; [reflexivity|]. destruct (g x) eqn:G, (f x) eqn:F; simpl; rewrite ?F, ?G, IH; reflexivity. Qed.
Lemma filter_none {A} (f : A -> bool) l : (forall x, In x l -> f x = false) -> filter f l = [].
Proof. induction l as [|x l IH]; simpl; intros H; [reflexivity|]. rewrite (H x) by auto. apply IH. auto. Qed.
Lemma nub_snoc l y : nub (l ++ [y]) = nub l ++ (if existsb (fun x => py_eqb x y) (nub l) then [] else [y]).
Proof.
  induction l as [|x l IH]; simpl; [reflexivity|]. rewrite IH, filter_app. f_equal.
  destruct (py_eqb x y) eqn:E; simpl.
  - destruct (existsb _ (nub l)); simpl; rewrite ?E; simpl; rewrite app_nil_r; reflexivity.
  - assert (Hex : existsb (fun x0 => py_eqb x0 y) (filter (fun y0 => negb (py_eqb x y0)) (nub l)) = existsb (fun x0 => py_eqb x0 y) (nub l)).
    { clear IH. induction (nub l) as [|z m IHm]; simpl; [reflexivity|]. destruct (py_eqb x z) eqn:F; simpl; rewrite IHm; [|reflexivity].
      destruct (py_eqb z y) eqn:G; [|reflexivity]. rewrite (py_eqb_trans _ _ _ F G) in E. discriminate. }
    rewrite Hex. destruct (existsb _ (nub l)); simpl; rewrite ?E; reflexivity.
Qed.
(** distinct members of [nub] are not equal *)
Definition distinct (l : list scalar) : Prop := ForallOrdPairs (fun x y => py_eqb x y = false) l.
Lemma FOP_filter {A} (R : A -> A -> Prop) f l : ForallOrdPairs R l -> ForallOrdPairs R (filter f l).
Proof.
  induction 1 as [|x l H _ IH]; simpl; [constructor|]. destruct (f x); [|exact IH]. constructor; [|exact IH].
  apply Forall_forall. intros y Hy. apply filter_In in Hy as [Hy _]. rewrite Forall_forall in H. auto.
Qed.
Lemma nub_distinct l : distinct (nub l).
Proof.
  unfold distinct. induction l as [|x l IH]; simpl; [constructor|]. constructor; [|apply FOP_filter; exact IH].
  apply Forall_forall. intros y Hy. apply filter_In in Hy as [_ Hy]. apply Bool.negb_true_iff in Hy. exact Hy.
Qed.
Lemma distinct_split a x b : distinct (a ++ x :: b) -> forall y, In y (a ++ b) -> py_eqb y x = false.
Proof.
  unfold distinct. induction a as [|z a IH]; simpl; intros H y Hy; inversion H as [|? ? H1 H2]; subst.
  - rewrite Forall_forall in H1. rewrite py_eqb_sym. auto.
  - destruct Hy as [<-|Hy]; [rewrite Forall_forall in H1; apply H1; apply in_or_app; right; left; reflexivity|apply IH; assumption].
Qed.

