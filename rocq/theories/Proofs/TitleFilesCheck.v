(** Checks of the conditions of Spec/TitledFiles.v, for the examples. *)
From Verif.Base Require Import PyStr PyNum PyVal PyDict Outcome.
From Verif.Model Require Import Lib Convert Input Flatten Readers Csv Output Schema Commands.
From Verif.Spec Require Import Flat Sites Paths Grids CsvText Written Titled RoundTrip Trip TitledFiles.
From Verif.Proofs Require Import JvInd RtCheck TripCheck.

Definition head_b (h : str) : bool := survives_b h && negb (str_eqb h (u "#")).
Lemma head_check h : head_b h = true -> CsvText.survives h /\ h <> u "#".
Proof. unfold head_b. intros H. apply andb_prop in H as [A B]. split; [exact (survives_check _ A)|]. intros ->. rewrite str_eqb_refl in B. discriminate. Qed.
Definition name_b (W : wopts) (n : str) : bool := negb (str_eqb n (w_main W)) && lacks_c 47 n.
Lemma name_check W n : name_b W n = true -> n <> w_main W /\ ~ In 47%N n.
Proof. unfold name_b. intros H. apply andb_prop in H as [A B]. split; [intros ->; rewrite str_eqb_refl in A; discriminate|exact (lacks_c_check _ _ B)]. Qed.
Definition item_name (O : popts) (x : item) : str := array_sheet O (it_at x) (it_key x).
Definition titled_ready_b (O : popts) (W : wopts) (E : wenv) (docs : list jobj) : bool :=
  lacks_c 47 (w_prefix W ++ w_main W) &&
  forallb (fun d => forallb (fun x => name_b W (item_name O x)) (items_in (JO d))) docs &&
  forallb (name_b W) (schema_names O) &&
  forallb (fun d => forallb (fun p => match leaf_cell O (snd p) with
     | Some (JS c) => survives_b (text_of E (JS c)) && head_b (heading O (sheet_of_place O (removelast (fst p))) (pre (removelast (fst p)) ++ fst (last (fst p) ([], None)))) | _ => true end) (places (JO d))) docs &&
  forallb head_b (schema_headings O).
Theorem titled_ready_check O W E docs : (forall file, we_open E file = None) -> titled_ready_b O W E docs = true -> titled_ready O W E docs.
Proof.
  unfold titled_ready_b. intros Ho H. apply andb_prop in H as [H H5]. apply andb_prop in H as [H H4]. apply andb_prop in H as [H H3]. apply andb_prop in H as [H1 H2].
  rewrite forallb_forall in H2, H3, H4, H5. split; [exact Ho|]. split; [split; [exact (lacks_c_check _ _ H1)|split]|split].
  - intros d x Hd Hx. specialize (H2 d Hd). rewrite forallb_forall in H2. exact (name_check W _ (H2 x Hx)).
  - intros n Hn. exact (name_check W _ (H3 n (schema_sheet_in O n Hn))).
  - intros d Q k y c Hd Ha Hc. specialize (H4 d Hd). rewrite forallb_forall in H4. specialize (H4 _ (places_all _ _ _ Ha)). cbn [fst snd] in H4. rewrite Hc, removelast_last, last_last in H4. cbn [fst] in H4.
    apply andb_prop in H4 as [A B]. cbv zeta. destruct (head_check _ B) as [B1 B2]. split; [exact B1|]. split; [exact B2|]. exact (survives_check _ A).
  - intros h Hh. exact (head_check h (H5 h (schema_heading_in O h Hh))).
Qed.
Definition under_b (x y : item) : bool := list_eqb str_eqb (map fst (it_path x)) (firstn (length (it_path x)) (map fst (it_path y))).
Lemma list_eqb_self l : list_eqb str_eqb l l = true.
Proof. induction l as [|x l IH]; [reflexivity|]. cbn [list_eqb]. rewrite str_eqb_refl, IH. reflexivity. Qed.
Lemma under_check x y r : it_path y = it_path x ++ r -> under_b x y = true.
Proof. intros H. unfold under_b. rewrite H, map_app. replace (length (it_path x)) with (length (map fst (it_path x))) by apply map_length. rewrite firstn_app, Nat.sub_diag, firstn_all. cbn [firstn]. rewrite app_nil_r. apply list_eqb_self. Qed.
Definition inner_later_b (O : popts) (docs : list jobj) : bool :=
  forallb (fun d => forallb (fun x => forallb (fun y => negb (under_b x y) || not_after_b (item_name O x) (item_name O y)) (items_in (JO d))) (items_in (JO d))) docs.
Lemma inner_later_check O docs : inner_later_b O docs = true -> inner_names_later O docs.
Proof.
  unfold inner_later_b. intros H d x y r Hd Hx Hy E. rewrite forallb_forall in H. specialize (H d Hd). rewrite forallb_forall in H. specialize (H x Hx). rewrite forallb_forall in H. specialize (H y Hy). rewrite (under_check x y r E) in H. exact (not_after_check _ _ H).
Qed.
Definition titled_main_first_b (O : popts) (W : wopts) (docs : list jobj) : bool :=
  forallb (fun d => forallb (fun x => not_after_b (w_main W) (item_name O x)) (items_in (JO d))) docs && forallb (not_after_b (w_main W)) (schema_names O).
Lemma titled_main_first_check O W docs : titled_main_first_b O W docs = true -> titled_main_first O W docs.
Proof.
  unfold titled_main_first_b. intros H. apply andb_prop in H as [H1 H2]. rewrite forallb_forall in H1, H2. split.
  - intros d x Hd Hx. specialize (H1 d Hd). rewrite forallb_forall in H1. exact (not_after_check _ _ (H1 x Hx)).
  - intros n Hn. exact (not_after_check _ _ (H2 n (schema_sheet_in O n Hn))).
Qed.
