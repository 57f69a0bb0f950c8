(** The order in which a directory lists its files does not matter. *)
From Coq Require Import Permutation Sorted Lia.
From Verif.Base Require Import PyStr PyNum PyVal PyDict Outcome.
From Verif.Model Require Import Warn Lib Input Readers Csv.
From Verif.Spec Require Import Grids.
From Verif.Proofs Require Import FormatFacts LocationFacts.

Lemma filter_perm {A} (p : A -> bool) l l' : Permutation l l' -> Permutation (filter p l) (filter p l').
Proof.
  induction 1 as [|x l l' P IH|x y l|a b c P1 IH1 P2 IH2]; cbn [filter]; [constructor| | |etransitivity; eassumption].
  - destruct (p x); [constructor; exact IH|exact IH].
  - destruct (p x), (p y); try reflexivity. apply perm_swap.
Qed.
Lemma map_res_silent {A B} (f : A -> R B) l : forall r, map_res f l = Ok r [] <-> Forall2 (fun x y => f x = Ok y []) l r.
Proof.
  induction l as [|x l IH]; intros r; cbn [map_res].
  - split; [intros [= <-]; constructor|inversion 1; reflexivity].
  - split.
    + intros H. apply bind_ok in H as (y & w1 & w2 & H1 & H & E). symmetry in E. apply app_eq_nil in E as [-> ->]. apply bind_ok in H as (r' & w1 & w2 & H2 & H & E). symmetry in E. apply app_eq_nil in E as [-> ->]. injection H as <-. constructor; [exact H1|]. apply IH. exact H2.
    + inversion 1 as [|? y ? r' H1 H2]; subst. rewrite H1. cbn [bind]. apply IH in H2. rewrite H2. reflexivity.
Qed.
Lemma Forall2_shuffled {A B} (Q : A -> B -> Prop) l l' : Permutation l l' -> forall r, Forall2 Q l r -> exists r', Permutation r r' /\ Forall2 Q l' r'.
Proof.
  induction 1 as [|x l l' P IH|x y l|a b c P1 IH1 P2 IH2]; intros r F.
  - inversion F; subst. exists []. split; constructor.
  - inversion F as [|? b ? r0 H1 H2]; subst. destruct (IH r0 H2) as (r' & P' & F'). exists (b :: r'). split; constructor; assumption.
  - inversion F as [|? b ? r0 H1 H2]; subst. inversion H2 as [|? c ? r1 H3 H4]; subst. exists (c :: b :: r1). split; [apply perm_swap|repeat constructor; assumption].
  - destruct (IH1 r F) as (r1 & Q1 & F1). destruct (IH2 r1 F1) as (r2 & Q2 & F2). exists r2. split; [etransitivity; eassumption|exact F2].
Qed.
Lemma book_listed d fs fs' b : Permutation fs fs' -> csv_book d fs = Ok b [] -> exists b', csv_book d fs' = Ok b' [] /\ Permutation b b'.
Proof.
  intros P H. unfold csv_book in *. apply map_res_silent in H.
  destruct (Forall2_shuffled _ _ _ (filter_perm (fun f => endswith (fst f) (u ".csv")) _ _ (Permutation_flat_map (fun f => match in_dir d (fst f) with Some n => [(n, snd f)] | None => [] end) P)) b H) as (b' & Pb & F).
  exists b'. split; [|exact Pb]. apply map_res_silent. exact F.
Qed.
Lemma not_after_antisym a : forall b, not_after a b -> not_after b a -> a = b.
Proof. induction a as [|x a IH]; intros b H1 H2; inversion H1; subst; inversion H2; subst; try lia; [reflexivity|f_equal; auto]. Qed.
Lemma sorted_unique l : forall l', StronglySorted not_after l -> StronglySorted not_after l' -> Permutation l l' -> l = l'.
Proof.
  induction l as [|x l IH]; intros l' S S' P; [apply Permutation_nil in P; congruence|]. destruct l' as [|y l']; [symmetry in P; apply Permutation_nil in P; discriminate|].
  inversion S as [|? ? S1 F1]; subst. inversion S' as [|? ? S2 F2]; subst. rewrite Forall_forall in F1, F2.
  assert (x = y). { pose proof (Permutation_in x P (or_introl eq_refl)) as Hx. pose proof (Permutation_in y (Permutation_sym P) (or_introl eq_refl)) as Hy.
    destruct Hx as [Hx|Hx]; [congruence|]. destruct Hy as [Hy|Hy]; [congruence|]. apply not_after_antisym; auto. }
  subst y. f_equal. apply IH; try assumption. exact (Permutation_cons_inv P).
Qed.
Lemma sget_perm {A} k (l l' : list (str * A)) : NoDup (map fst l) -> Permutation l l' -> sget k l = sget k l'.
Proof.
  intros N P. assert (N' : NoDup (map fst l')) by (eapply Permutation_NoDup; [apply Permutation_map; exact P|exact N]). destruct (sget k l) as [v|] eqn:E1.
  - symmetry. apply In_sget; [exact N'|]. apply (Permutation_in _ P). apply sget_In. exact E1.
  - symmetry. apply sget_None. apply sget_None in E1. intros H. apply E1. apply (Permutation_in k (Permutation_map fst (Permutation_sym P)) H).
Qed.
Lemma book_order rd b b' : NoDup (map fst b) -> Permutation b b' -> read_book Csv rd b = read_book Csv rd b'.
Proof.
  intros N P. unfold read_book. assert (E : available Csv b = available Csv b').
  { cbn [available]. apply sorted_unique; try apply sort_str_sorted. rewrite <- !sort_str_perm. apply Permutation_map. exact P. }
  rewrite E. f_equal. induction (select rd (available Csv b')) as [|n l IH]; [reflexivity|]. cbn [map_res]. rewrite IH. unfold configure. rewrite (sget_perm n b b' N P). reflexivity.
Qed.
Lemma read_names f rd b sheets w : read_book f rd b = Ok sheets w -> map si_name sheets = select rd (available f b).
Proof.
  unfold read_book. intros H. apply bind_ok in H as (cs & w1 & w2 & H1 & H2 & _). apply map_res_inv in H1. apply map_res_inv in H2.
  assert (E1 : map (fun x => fst (fst x)) cs = select rd (available f b)).
  { clear H2. induction H1 as [|n c l cs (w0 & Hc) _ IH]; [reflexivity|]. cbn [map]. f_equal; [|exact IH]. unfold configure in Hc. destruct (sget n b); [|discriminate]. apply bind_ok in Hc as (x & ? & ? & _ & Hc & _). apply bind_ok in Hc as (y & ? & ? & _ & Hc & _). injection Hc as <- <-. reflexivity. }
  rewrite <- E1. clear H1 E1. induction H2 as [|[[n g] c] x cs sheets (w0 & Hc) _ IH]; [reflexivity|]. cbn [map fst]. f_equal; [|exact IH]. cbn [read_sheet] in Hc. destruct (headings_of f rd c n g); [injection Hc as <- <-; reflexivity|]. apply bind_ok in Hc as (y & ? & ? & _ & Hc & _). injection Hc as <- <-. reflexivity.
Qed.
Theorem listing_any d fs fs' b rd sheets : Permutation fs fs' -> csv_book d fs = Ok b [] -> rd_include rd = [] -> rd_exclude rd = [] ->
  read_book Csv rd b = Ok sheets [] -> NoDup (map si_name sheets) -> exists b', csv_book d fs' = Ok b' [] /\ read_book Csv rd b' = Ok sheets [].
Proof.
  intros P Hb Hi He Hr N. destruct (book_listed d fs fs' b P Hb) as (b' & Hb' & Pb). exists b'. split; [exact Hb'|]. rewrite <- (book_order rd b b'); [exact Hr| |exact Pb].
  rewrite (read_names _ _ _ _ _ Hr) in N. unfold select in N. rewrite Hi, He in N. cbn [fold_left available] in N. eapply Permutation_NoDup; [symmetry; apply sort_str_perm|exact N].
Qed.
