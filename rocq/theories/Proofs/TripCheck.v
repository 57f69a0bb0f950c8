(** A check of the conditions of Spec/Trip.v, for the examples. *)
From Coq Require Import Permutation.
From Verif.Base Require Import PyStr PyNum PyVal PyDict Outcome.
From Verif.Model Require Import Lib Convert Input Json Flatten Readers Csv Output Schema Commands.
From Verif.Spec Require Import Flat Sites Paths Grids CsvText Written Commands RoundTrip Typed Trip.
From Verif.Proofs Require Import JvInd RtCheck.

Definition lacks_c (c : N) (s : str) : bool := negb (existsb (N.eqb c) s).
Lemma lacks_c_check c s : lacks_c c s = true -> ~ In c s.
Proof. unfold lacks_c. intros H Hin. rewrite (proj2 (existsb_exists (N.eqb c) s)) in H; [discriminate|]. exists c. split; [exact Hin|apply N.eqb_refl]. Qed.
Definition survives_b (s : str) : bool := lacks_c 13 s && lacks_c 0 s && (N.of_nat (length s) <=? 131072)%N.
Lemma survives_check s : survives_b s = true -> CsvText.survives s.
Proof. unfold survives_b. intros H. apply andb_prop in H as [H H3]. apply andb_prop in H as [H1 H2]. split; [exact (lacks_c_check _ _ H1)|]. split; [exact (lacks_c_check _ _ H2)|]. apply N.leb_le. exact H3. Qed.
Definition schema_headings (O : popts) : list str :=
  match po_schema O with Some sc => header (sci_main sc) ++ flat_map (fun x => header (snd x)) (sci_subs sc) | None => [] end.
Lemma schema_heading_in O h : schema_heading O h -> In h (schema_headings O).
Proof.
  intros (sc & E & H). unfold schema_headings. rewrite E. apply in_or_app. destruct H as [H|(n & x & Hi & H)]; [left; exact H|right]. apply in_flat_map. exists (n, x). auto.
Qed.
Definition schema_names (O : popts) : list str := match po_schema O with Some sc => map fst (sci_subs sc) | None => [] end.
Lemma schema_sheet_in O n : schema_sheet O n -> In n (schema_names O).
Proof. unfold schema_sheet, schema_names. destruct (po_schema O); [auto|intros []]. Qed.
Definition csv_ready_b (O : popts) (W : wopts) (E : wenv) (docs : list jobj) : bool :=
  lacks_c 47 (w_prefix W ++ w_main W) &&
  forallb (fun d => forallb (fun x => negb (str_eqb (item_sheet O (JO d, x)) (w_main W))) (items_in (JO d))) docs &&
  forallb (fun n => negb (str_eqb n (w_main W)) && lacks_c 47 n) (schema_names O) &&
  forallb (fun d => forallb (fun p => match leaf_cell O (snd p) with Some (JS c) => survives_b (text_of E (JS c)) && survives_b (pre (removelast (fst p)) ++ fst (last (fst p) ([], None))) | _ => true end) (places (JO d)) &&
                    match sget (u "#") d with None => true | _ => false end) docs &&
  forallb (fun h => survives_b h && negb (str_eqb h (u "#"))) (schema_headings O).
Theorem csv_ready_check O W E docs : (forall file, we_open E file = None) -> csv_ready_b O W E docs = true -> csv_ready O W E docs.
Proof.
  unfold csv_ready_b. intros Ho H. apply andb_prop in H as [H H5]. apply andb_prop in H as [H H4]. apply andb_prop in H as [H H3]. apply andb_prop in H as [H1 H2].
  rewrite forallb_forall in H2, H3, H4, H5. split; [exact Ho|]. split; [split; [exact (lacks_c_check _ _ H1)|split]|split; [|split]].
  - intros d x Hd Hx Q. specialize (H2 d Hd). rewrite forallb_forall in H2. specialize (H2 x Hx). rewrite Q, str_eqb_refl in H2. discriminate.
  - intros n Hn. specialize (H3 n (schema_sheet_in O n Hn)). apply andb_prop in H3 as [A B]. split; [intros ->; rewrite str_eqb_refl in A; discriminate|exact (lacks_c_check _ _ B)].
  - intros d Q k y c Hd Ha Hc. specialize (H4 d Hd). apply andb_prop in H4 as [A _]. rewrite forallb_forall in A. specialize (A _ (places_all _ _ _ Ha)). cbn [fst snd] in A. rewrite Hc, removelast_last, last_last in A.
    apply andb_prop in A as [A B]. split; apply survives_check; assumption.
  - intros d Hd. specialize (H4 d Hd). apply andb_prop in H4 as [_ A]. destruct (sget (u "#") d); [discriminate|reflexivity].
  - intros h Hh. specialize (H5 h (schema_heading_in O h Hh)). apply andb_prop in H5 as [A B]. split; [exact (survives_check _ A)|intros ->; rewrite str_eqb_refl in B; discriminate].
Qed.
Fixpoint not_after_b (a b : str) : bool :=
  match a, b with [], _ => true | _ :: _, [] => false | x :: a', y :: b' => (x <? y)%N || ((x =? y)%N && not_after_b a' b') end.
Lemma not_after_check a : forall b, not_after_b a b = true -> not_after a b.
Proof.
  induction a as [|x a IH]; intros [|y b] H; try discriminate; [apply na_nil|apply na_nil|]. cbn in H. apply orb_prop in H as [H|H]; [apply na_lt; apply N.ltb_lt; exact H|]. apply andb_prop in H as [H1 H2]. apply N.eqb_eq in H1. subst y. apply na_eq. exact (IH b H2).
Qed.
Definition main_first_b (O : popts) (W : wopts) (docs : list jobj) : bool :=
  forallb (fun d => forallb (fun x => not_after_b (w_main W) (item_sheet O (JO d, x))) (items_in (JO d))) docs && forallb (not_after_b (w_main W)) (schema_names O).
Lemma main_first_check O W docs : main_first_b O W docs = true -> main_first O W docs.
Proof.
  unfold main_first_b. intros H. apply andb_prop in H as [H1 H2]. rewrite forallb_forall in H1, H2. split.
  - intros d x Hd Hx. specialize (H1 d Hd). rewrite forallb_forall in H1. exact (not_after_check _ _ (H1 x Hx)).
  - intros n Hn. exact (not_after_check _ _ (H2 n (schema_sheet_in O n Hn))).
Qed.
Definition scalar_finite_b (s : scalar) : bool := negb (number s) || match s with SInt _ | SDec (DFin _ _ _) => true | _ => false end.
Fixpoint finite_b (v : jv) : bool :=
  match v with
  | JS s => scalar_finite_b s
  | JA l => (fix all (l : list jv) : bool := match l with [] => true | x :: l' => finite_b x && all l' end) l
  | JO d => (fix all (d : jobj) : bool := match d with [] => true | (_, x) :: d' => finite_b x && all d' end) d
  end.
Lemma finite_check v : finite_b v = true -> numbers_finite v.
Proof.
  intros H s Hs. revert H. induction Hs as [|l x Hx Hs IH|d k x Hx Hs IH]; intros H Hn.
  - cbn [finite_b] in H. unfold scalar_finite_b in H. rewrite Hn in H. destruct s as [| |z|[]| | |]; try discriminate; exact I.
  - apply IH; [|exact Hn]. clear -H Hx. induction l as [|y l IHl]; [destruct Hx|]. cbn in H. apply andb_prop in H as [H1 H2]. destruct Hx as [-> |Hx]; [exact H1|exact (IHl Hx H2)].
  - apply IH; [|exact Hn]. clear -H Hx. induction d as [|[k' y] d IHl]; [destruct Hx|]. cbn in H. apply andb_prop in H as [H1 H2]. destruct Hx as [E|Hx]; [injection E as -> ->; exact H1|exact (IHl Hx H2)].
Qed.
