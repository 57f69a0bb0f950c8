(** What a schema says depends on few of the options it is read with. *)
From Verif.Base Require Import PyStr PyNum PyVal PyDict Outcome.
From Verif.Model Require Import Flatten Titles Schema.
From Verif.Spec Require Import Headings SchemaFields.

Section One.
  Variables (A B : sopts).
  Hypothesis Hn : so_nodep A = so_nodep B.
  Hypothesis Hw : so_wkt A = so_wkt B.
  Hypothesis Hl : so_lower A = so_lower B.
  Lemma property_same S n v : property A S n v -> property B S n v.
  Proof. intros (r & d & E & I & L). exists r, d. rewrite <- Hn. auto. Qed.
  Lemma geo_same v : geo A v <-> geo B v.
  Proof. unfold geo. rewrite Hw. tauto. Qed.
  Lemma object_same v : an_object A v <-> an_object B v.
  Proof. unfold an_object. rewrite geo_same. tauto. Qed.
  Lemma leaf_same v ty : leaf A v ty -> leaf B v ty.
  Proof. intros []; try (econstructor; eassumption). constructor; [assumption|]. apply geo_same. assumption. Qed.
  Lemma within_same S T : within A S T -> within B S T.
  Proof. induction 1; [constructor|eapply within_object|eapply within_array]; eauto; try (apply property_same; eassumption). apply object_same. assumption. Qed.
  Lemma along_same S p v : along A S p v -> along B S p v.
  Proof. induction 1; [constructor|eapply along_object|eapply along_array]; eauto; try (apply property_same; eassumption). apply object_same. assumption. Qed.
  Lemma kind_same v t : kind A v t -> kind B v t.
  Proof. intros [ty L|Ob|i Ob]; [apply kind_leaf, leaf_same, L|apply kind_object, object_same, Ob|eapply kind_array; eauto]. Qed.
  Lemma holds_same v c : holds A v c <-> holds B v c.
  Proof. unfold holds. rewrite object_same. tauto. Qed.
  Lemma title_same a b : same_title A a b <-> same_title B a b.
  Proof. unfold same_title. rewrite Hl. tauto. Qed.
End One.
Section Both.
  Variables (A B : sopts) (S : sv).
  Hypothesis Hn : so_nodep A = so_nodep B.
  Hypothesis Hw : so_wkt A = so_wkt B.
  Hypothesis Hl : so_lower A = so_lower B.
  Lemma resolved_same l o : resolved A S l o -> resolved B S l o.
  Proof.
    induction 1 as [S'|S' z i l o H R IH|S' s n v t c l o H P T Sm Ho R IH|S' s n v t z l H P T Sm Ho Hz Hl'|S' s l H Hno].
    - constructor.
    - econstructor; eauto.
    - eapply res_title; eauto; [eapply property_same; eauto|eapply title_same; [symmetry; exact Hl|exact Sm]|]. apply (holds_same B A); [symmetry; exact Hw|exact Ho].
    - eapply res_leaf; eauto; [eapply property_same; eauto|eapply title_same; [symmetry; exact Hl|exact Sm]|]. intros c Hc. apply (Ho c). apply (holds_same A B Hw). exact Hc.
    - apply res_unknown; [exact H|]. intros n v t P T Sm. apply (Hno n v t); [eapply property_same; [symmetry; exact Hn|exact P]|exact T|]. eapply title_same; [exact Hl|exact Sm].
  Qed.
  Lemma clear_same : clear_titles A S -> clear_titles B S.
  Proof.
    intros [Hno Hc]. split; [exact Hno|]. intros T W. destruct (Hc T) as [C1 C2]; [eapply within_same; [symmetry; exact Hn|symmetry; exact Hw|exact W]|]. split.
    - intros n v P H. apply (C1 n v); [eapply property_same; [symmetry; exact Hn|exact P]|]. rewrite (object_same A B Hw). exact H.
    - intros r d E. pose proof (C2 r d E) as F. clear - F Hn Hl. induction F as [|x l H F IH]; constructor; [|exact IH]. eapply Forall_impl; [|exact H]. cbn beta. intros y Hy t t' L L' T1 T2 Sm. apply (Hy t t'); try assumption; unfold left_in in *; try (rewrite Hn; assumption). eapply title_same; [exact Hl|exact Sm].
  Qed.
  Lemma plain_same : plain_names A S -> plain_names B S.
  Proof. intros H R p n v Ht Al. apply (H R p n v Ht). eapply along_same; [symmetry; exact Hn|symmetry; exact Hw|exact Al]. Qed.
  Lemma once_same : keys_once A S -> keys_once B S.
  Proof. intros H R T n v w Ht W P Q. eapply H; [exact Ht|eapply within_same; [symmetry; exact Hn|symmetry; exact Hw|exact W]|eapply property_same; [symmetry; exact Hn|exact P]|eapply property_same; [symmetry; exact Hn|exact Q]]. Qed.
End Both.
