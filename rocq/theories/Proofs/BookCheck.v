(** A check of the conditions of Spec/BookTrip.v, for the examples. *)
From Coq Require Import Lia.
From Verif.Base Require Import PyStr PyNum PyVal PyDict Outcome.
From Verif.Model Require Import Warn Lib Flatten Readers Ods Output Commands.
From Verif.Spec Require Import Flat Sites Paths OdsCells Written RoundTrip Trip BookTrip.
From Verif.Proofs Require Import RtCheck OutputFacts TripCheck.

Section Check.
  Variables (O : popts) (W : wopts) (E : wenv) (docs : list jobj).
  Definition used_cells : list (str * scalar) :=
    flat_map (fun d => flat_map (fun p => match leaf_cell O (snd p) with Some (JS c) => [(pre (removelast (fst p)) ++ fst (last (fst p) ([], None)), c)] | _ => [] end) (places (JO d))) docs.
  Lemma used_in h c : cell_used O docs h c -> In (h, c) used_cells.
  Proof.
    intros (d & Q & k & y & Hd & Ha & Hc & ->). apply in_flat_map. exists d. split; [exact Hd|]. apply in_flat_map. exists (Q ++ [(k, None)], y). split; [exact (places_all _ _ _ Ha)|].
    cbn [fst snd]. rewrite Hc, removelast_last, last_last. left. reflexivity.
  Qed.
  Definition used_headings : list str := map fst used_cells ++ schema_headings O.
  Lemma heading_in h : heading_used O docs h -> In h used_headings.
  Proof. intros [(c & H)|H]; apply in_or_app; [left; apply in_map_iff; exists (h, c); split; [reflexivity|exact (used_in h c H)]|right; exact (schema_heading_in O h H)]. Qed.
  Definition item_names : list str := flat_map (fun d => map (fun x => item_sheet O (JO d, x)) (items_in (JO d))) docs.
  Definition used_names : list str := w_main W :: item_names ++ schema_names O.
  Lemma item_name_in d x : In d docs -> In x (items_in (JO d)) -> In (item_sheet O (JO d, x)) item_names.
  Proof. intros Hd Hx. apply in_flat_map. exists d. split; [exact Hd|]. apply in_map_iff. exists x. auto. Qed.
  Lemma name_in n : sheet_named O W docs n -> In n used_names.
  Proof. intros [-> |[(d & x & Hd & Hx & ->)|H]]; [left; reflexivity|right; apply in_or_app; left; exact (item_name_in d x Hd Hx)|right; apply in_or_app; right; exact (schema_sheet_in O n H)]. Qed.

  (** characters removed *)
  Definition clean (v : jv) : jv := match v with JS (SStr s) => JS (SStr (remove_illegal s)) | _ => v end.
  Lemma without_fun s : forall a b, without_forbidden s a -> without_forbidden s b -> a = b.
  Proof.
    induction s as [|c s IH]; intros a b A B; inversion A; subst; inversion B; subst; try contradiction; [reflexivity|auto|]. f_equal. auto.
  Qed.
  Lemma clean_fun v v' : cleaned v v' -> v' = clean v.
  Proof. destruct v as [[]| |]; try (intros ->; reflexivity). intros (s' & A & ->). cbn [clean]. do 2 f_equal. exact (without_fun _ _ _ A (remove_illegal_spec _)). Qed.

  Theorem xlsx_ready_check read back : (forall n, we_title E n = None) -> (forall v, we_cell E v = None) -> read (JS SNone) = SNone ->
    Forall (fun h => h <> [] /\ h <> u "#" /\ read (JS (SStr h)) = SStr h) used_headings ->
    Forall (fun x => read (clean (JS (snd x))) = back (snd x)) used_cells -> xlsx_ready O W E docs read back.
  Proof.
    intros H1 H2 H3 H4 H5. rewrite Forall_forall in H4, H5. split; [auto|]. split; [auto|]. split.
    - intros h Hh. destruct (H4 h (heading_in h Hh)) as (A & B & C). auto.
    - intros h c v Hc Hv. apply clean_fun in Hv as ->. split; [apply H2|]. apply (H5 (h, c)), used_in, Hc.
  Qed.

  (** what an ODS cell shows *)
  Definition ods_read1 (RE : ods_env) (v : jv) : option scalar :=
    match make_cell E v with
    | Ok c _ => match oc_text c with [] => Some SNone | _ => match cell_value RE c with Ok x _ => Some x | Raise _ _ => None end end
    | Raise _ _ => None
    end.
  Lemma dot_in v : str_mem [46%N] (map (fun x => [x]) v) = true <-> In 46%N v.
  Proof.
    rewrite str_mem_In, in_map_iff. split; [intros (x & Q & Hx); injection Q as ->; exact Hx|intros H; exists 46%N; auto].
  Qed.
  Lemma ods_read1_ok RE v x : ods_read1 RE v = Some x -> ods_reads E RE v x.
  Proof.
    unfold ods_read1. destruct (make_cell E v) as [c w|e w] eqn:Em; [|discriminate]. intros H. exists c. split; [exact (proj2 (make_cell_ok _ _ _ _ Em))|].
    destruct (oc_text c) as [|a t] eqn:Et; [injection H as <-; apply shows_nothing, Et|]. assert (Nt : oc_text c <> []) by (rewrite Et; discriminate).
    unfold cell_value in H. destruct (oc_type c) as [ty|] eqn:Ety; [|injection H as <-; apply shows_text; [exact Nt|congruence|congruence]].
    destruct (str_eqb_spec ty (u "float")) as [-> |N1].
    - destruct (oc_value c) as [q|] eqn:Eq; [|discriminate H]. destruct (str_mem _ _) eqn:Ed.
      + apply dot_in in Ed. destruct (oe_float RE q) as [y|] eqn:Ef; [|discriminate H]. injection H as <-. exact (shows_float RE c q y Nt Ety Eq Ed Ef).
      + assert (Nd : ~ In 46%N q) by (intros Q; apply dot_in in Q; congruence). unfold int_of in H. destruct (parse_int q) as [z|] eqn:Ez; [|discriminate H]. cbn in H. injection H as <-. exact (shows_int RE c q z Nt Ety Eq Nd Ez).
    - destruct (str_eqb_spec ty (u "date")) as [-> |N2].
      + destruct (oc_date c) as [q|] eqn:Eq; [|discriminate H]. destruct (str_mem _ _) eqn:Ed.
        * apply dot_in in Ed. destruct (oe_date RE (ljust0 26 q)) as [y|] eqn:Ef; [|discriminate H]. injection H as <-. exact (shows_frac RE c q y Nt Ety Eq Ed Ef).
        * assert (Nd : ~ In 46%N q) by (intros Q; apply dot_in in Q; congruence). destruct (oe_date RE q) as [y|] eqn:Ef; [|discriminate H]. injection H as <-. exact (shows_date RE c q y Nt Ety Eq Nd Ef).
      + injection H as <-. apply shows_text; [exact Nt|congruence|congruence].
  Qed.
  Fixpoint apart (l : list str) : bool :=
    match l with [] => true | x :: l' => forallb (fun y => str_eqb x y || negb (str_eqb (sheet_title W x) (sheet_title W y))) l' && apart l' end.
  Lemma apart_check l : apart l = true -> forall n m, In n l -> In m l -> sheet_title W n = sheet_title W m -> n = m.
  Proof.
    induction l as [|x l IH]; intros H n m Hn Hm Q; [destruct Hn|]. cbn [apart] in H. apply andb_prop in H as [H1 H2]. rewrite forallb_forall in H1.
    assert (K : forall y, In y l -> sheet_title W x = sheet_title W y -> x = y).
    { intros y Hy Q'. specialize (H1 y Hy). cbv beta in H1. assert (Z : str_eqb (sheet_title W x) (sheet_title W y) = true) by (rewrite Q'; apply str_eqb_refl). rewrite Z, orb_false_r in H1. apply str_eqb_eq, H1. }
    destruct Hn as [<-|Hn], Hm as [<-|Hm]; [reflexivity|exact (K m Hm Q)|symmetry; apply K; [exact Hn|symmetry; exact Q]|exact (IH H2 n m Hn Hm Q)].
  Qed.
  Theorem ods_ready_check RE back : forallb (fun n => negb (str_eqb n (w_main W))) (item_names ++ schema_names O) = true -> apart used_names = true ->
    Forall (fun h => h <> [] /\ h <> u "#" /\ ods_read1 RE (JS (SStr h)) = Some (SStr h)) used_headings ->
    Forall (fun x => ods_read1 RE (clean (JS (snd x))) = Some (back (snd x))) used_cells -> ods_ready O W E docs RE back.
  Proof.
    intros H1 H2 H3 H4. rewrite forallb_forall in H1. rewrite Forall_forall in H3, H4. split; [split|split; [|split]].
    - intros d x Hd Hx Q. specialize (H1 _ (in_or_app _ _ _ (or_introl (item_name_in d x Hd Hx)))). rewrite Q, str_eqb_refl in H1. discriminate.
    - intros n Hn ->. specialize (H1 _ (in_or_app _ _ _ (or_intror (schema_sheet_in O _ Hn)))). rewrite str_eqb_refl in H1. discriminate.
    - intros n m Hn Hm. exact (apart_check _ H2 n m (name_in n Hn) (name_in m Hm)).
    - intros h Hh. destruct (H3 h (heading_in h Hh)) as (A & B & C). split; [exact A|]. split; [exact B|]. exact (ods_read1_ok _ _ _ C).
    - intros h c v Hc Hv. apply clean_fun in Hv as ->. apply ods_read1_ok. apply (H4 (h, c)), used_in, Hc.
  Qed.
End Check.
