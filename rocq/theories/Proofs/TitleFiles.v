(** The sheets of a run with titles, in CSV files. *)
From Coq Require Import Permutation Lia ZArith Sorted.
From Verif.Base Require Import PyStr PyNum PyVal PyDict Outcome.
From Verif.Model Require Import Warn Lib Convert Input Readers Flatten Csv Output Titles TitleLines Schema.
From Verif.Spec Require Import Flat Sites Paths Headings SchemaFields SchemaLines SchemaTitled Titled RoundTrip TitledTrip Filled Positions Grids CsvText Written Trip TitledFiles.
From Verif.Proofs Require RowRead RowFin Trip.
From Verif.Proofs Require Import JvInd FlattenTrace FlattenRows FlattenRun FlattenPlain FlattenPaths FlattenItems FlattenTitled TitledItems TitledUsed RtMerge RtRow RtLine RtDoc RtState RtOrder RtRun RtMain RtTrip OutputFacts CsvFiles CsvShown TitleChain TitlePlaces TitleRows TitleBack TitleSheets TitleTrip.

Section TFiles.
  Variables (SO : sopts) (S : sv) (O : popts) (drop : bool) (pi : list str) (docs : list jobj) (W : wopts) (E : wenv) (s : pst) (w : list fwarning).
  Notation idn := (po_id_name O).
  Notation rid := (po_root_id O).
  Hypothesis HX : titled_run SO S O.
  Hypothesis HR : readable_titles SO S.
  Hypothesis HA : all_titled SO S docs.
  Hypothesis HD : documents O docs.
  Hypothesis HC : titled_ready O W E docs.
  Hypothesis HF : flatten O drop pi (map JO docs) = Ok s w.

  Lemma free_names : name_free O s. Proof. destruct HX as (HT & _). exact (nfree SO S O s HT). Qed.
  Lemma ready : schema_ready O. Proof. destruct HX as (_ & HJ & _). exact (proj1 HJ). Qed.
  (** the cells of a row *)
  Definition row_from (r : Flatten.frow) : Prop := exists (o : jobj) (Q : jpath), In o docs /\
    (forall h (val : jv), sget h r = Some val -> exists L ts, lp O o Q L val /\ chain SO S (heading_path L) ts /\ h = joint ts) /\ r <> [].
  Lemma told_row o Q r (value : str -> jv -> Prop) : In o docs -> Titled.tells value r -> (Q = [] \/ Q <> []) ->
    (forall h val, value h val <-> exists L ts, lp O o Q L val /\ chain SO S (heading_path L) ts /\ h = joint ts) -> row_from r.
  Proof.
    intros Ho (T1 & _ & T3) HQ Hv. exists o, Q. split; [exact Ho|]. split; [intros h val H; apply Hv, T1, H|].
    destruct (doc_ok O docs HD o Ho) as (_ & (i & Hi & _) & _).
    assert (Hlp : lp O o Q [(idn, None)] (JS i)).
    { destruct HQ as [->|Hne].
      - left. exists [], idn, (JS i). split; [reflexivity|]. split; [cbn [Paths.at_path]; rewrite Hi; reflexivity|reflexivity].
      - right. exists [], Q. split; [reflexivity|]. split; [exact Hne|]. split; [cbn [Paths.at_path]; rewrite Hi; reflexivity|left; reflexivity]. }
    destruct (lp_chain SO S O docs HR HA HD o Q _ _ Ho Hlp) as (ts & C). assert (Hin : In (joint ts) (map fst r)) by (apply (T3 _ (JS i)), Hv; eauto 8). intros ->. destruct Hin.
  Qed.
  Lemma rows_from t r : In t (tables s) -> In r (tb_rows t) -> row_from r.
  Proof.
    pose proof HX as (HT & HJ & Hord & Hroll & Hfilt & Hpres & Owr & Owi). intros [<-|Ht] Hr.
    - pose proof (chosen_main O drop pi HJ _ s w Hord HF free_names (docs_clean O docs HD)) as F. rewrite (chosen_all O docs Hfilt) in F.
      assert (Er : records (map JO docs) = docs) by (clear; induction docs as [|d l IH]; [reflexivity|]; cbn [map records flat_map app]; f_equal; exact IH). rewrite Er in F.
      destruct (RowFin.Forall2_in_r _ _ _ F r Hr) as (o & Ho & Ht). apply (told_row o [] r _ Ho Ht (or_introl eq_refl)). intros h val. apply (main_told SO S O docs HT HR Hroll Hpres HA HD o h val Ho).
    - pose proof (chosen_sub O drop pi HJ _ s w HF free_names (docs_clean O docs HD) t Ht) as F. rewrite (chosen_all O docs Hfilt) in F.
      destruct (RowFin.Forall2_in_r _ _ _ F r Hr) as ([v x] & Hi & Htl). cbn [fst snd] in Htl. destruct (on_sheet_in O docs _ _ _ Hi) as (o & -> & Ho & Hx & _).
      apply (told_row o (it_path x) r _ Ho Htl); [right; unfold it_path; intros Q; apply app_eq_nil in Q as [_ Q]; discriminate|].
      intros h val. apply (item_told SO S O docs HT HR Hpres HA HD Owr Owi o x h val Ho). exact (items_at (JO o) (tidy_clean O _ (proj1 (doc_ok O docs HD o Ho))) x Hx).
  Qed.
  Lemma cell_from (r : Flatten.frow) h val : row_from r -> sget h r = Some val -> exists c, val = JS c /\ CsvText.survives h /\ h <> u "#" /\ CsvText.survives (text_of E (JS c)).
  Proof.
    intros (o & Q & Ho & H & _) Hv. destruct (H h val Hv) as (L & ts & Hlp & C & ->). destruct (lp_leaf O docs HD o Q L val Ho Hlp) as (Q' & k & y & -> & Ha & Hl & Hc).
    rewrite (leaf_has_cell O y Hl) in Hc. injection Hc as <-. exists (cell_of O y). split; [reflexivity|]. destruct HC as (_ & _ & Ht & _). specialize (Ht o Q' k y (cell_of O y) Ho Ha (leaf_has_cell O y Hl)). cbv zeta in Ht.
    destruct HX as (HT & _). rewrite (place_heading SO S O HT HR Q' k ts C) in Ht. exact Ht.
  Qed.
  Lemma row_get (r : Flatten.frow) h : In h (map fst r) -> exists v, sget h r = Some v.
  Proof. intros H. destruct (sget h r) as [v|] eqn:Ev; [eauto|apply sget_None in Ev; contradiction]. Qed.
  Lemma headings_from t h : In t (tables s) -> In h (tb_header t) -> CsvText.survives h /\ h <> u "#".
  Proof.
    pose proof HX as (HT & HJ & _ & _ & _ & Hpres & _). intros Ht Hh. destruct (columns_told O drop pi HJ Hpres docs s w HF free_names (docs_ids' O docs HD)) as [A B]. cbv zeta in A, B.
    assert (G : (exists row, In row (tb_rows t) /\ In h (map fst row)) \/ schema_heading O h).
    { destruct Ht as [<-|Ht]; [destruct (A h Hh) as [G|(sc & E1 & G)]|destruct (B t h Ht Hh) as [G|(sc & x & E1 & Hx & G)]]; [left; exact G|right; exists sc; auto|left; exact G|right; exists sc; split; [exact E1|right; eauto]]. }
    destruct G as [(row & Hr & Hk)|G]; [|destruct HC as (_ & _ & _ & Hs); exact (Hs h G)].
    destruct (row_get row h Hk) as (v & Hv). destruct (cell_from row h v (rows_from t row Ht Hr) Hv) as (c & _ & H1 & H2 & _). auto.
  Qed.
  Lemma rows_have t r : In t (tables s) -> In r (tb_rows t) -> tb_header t <> [].
  Proof.
    intros Ht Hr Q. destruct (rows_from t r Ht Hr) as (o & Q' & _ & _ & Hne). destruct r as [|[h v] r]; [congruence|].
    pose proof (flatten_covered O drop pi ready _ s w HF free_names t _ h v Ht Hr (or_introl eq_refl)) as X. rewrite Q in X. destruct X.
  Qed.
  (** names *)
  Lemma names_come n : In n (map tb_name (sub_tables s)) -> schema_sheet O n \/ exists d x, In d docs /\ In x (items_in (JO d)) /\ n = array_sheet O (it_at x) (it_key x).
  Proof.
    pose proof HX as (HT & HJ & _ & _ & Hfilt & _). intros Hn. destruct (chosen_names O drop pi HJ _ s w HF free_names (docs_clean O docs HD) n) as [A _]. destruct (A Hn) as [B|B]; [left; exact B|right].
    rewrite (chosen_all O docs Hfilt) in B. destruct (items_on O n (map JO docs)) as [|[v x] r] eqn:Es; [congruence|]. assert (Hin : In (v, x) (items_on O n (map JO docs))) by (rewrite Es; left; reflexivity).
    destruct (on_sheet_in O docs _ _ _ Hin) as (o & -> & Ho & Hx & En). exists o, x. auto.
  Qed.
  Lemma name_fits n : In n (map tb_name (sub_tables s)) -> n <> w_main W /\ ~ In 47%N n.
  Proof. destruct HC as (_ & (_ & A & B) & _). intros Hn. destruct (names_come n Hn) as [Hs|(d & x & Hd & Hx & ->)]; [exact (B n Hs)|exact (A d x Hd Hx)]. Qed.
  Lemma names_once : NoDup (w_main W :: map tb_name (sub_tables s)).
  Proof. constructor; [|apply (flatten_names O drop pi ready _ _ _ HF)]. intros Q. destruct (name_fits _ Q) as [N _]. congruence. Qed.
  Lemma each_fine t t' : In t (tables s) -> Trip.alike t t' -> ~ In 47%N (w_prefix W ++ tb_name t') -> fine W E t'.
  Proof.
    intros Ht (Eh & Er) Hs. unfold fine, covered_rows, no_hash, readable. rewrite Eh, Er.
    split; [intros row k v Hr Hk; eapply (flatten_covered O drop pi ready); [exact HF|exact free_names|exact Ht|exact Hr|exact Hk]|].
    split; [apply (flatten_distinct O drop pi ready _ s w HF t Ht)|]. split; [|split].
    - destruct (tb_header t) as [|h hs] eqn:Q; [discriminate|]. intros X. injection X as X. apply (headings_from t h Ht); [rewrite Q; left; reflexivity|exact X].
    - split; [apply Forall_forall; intros h Hh; apply (headings_from t h Ht Hh)|]. intros row h v Hr Hh Hv.
      assert (N : NoDup (map fst row)) by (eapply (flatten_keys O drop pi ready); [exact HF|exact free_names|exact Ht|exact Hr]).
      rewrite (has_value_get row h v N Hv). unfold get_value. destruct (sget h row) as [v0|] eqn:Ev; [|apply Trip.survives_nil]. destruct (cell_from row h v0 (rows_from t row Ht Hr) Ev) as (c & -> & _ & _ & Hc). exact Hc.
    - split; [exact Hs|]. apply HC.
  Qed.
  Lemma all_fine : Forall (fine W E) (named (w_main W) (main_table s) :: sub_tables s).
  Proof.
    constructor.
    - apply (each_fine (main_table s)); [left; reflexivity|split; reflexivity|]. cbn [named tb_name]. exact (proj1 (proj1 (proj2 HC))).
    - apply Forall_forall. intros t Ht. apply (each_fine t); [right; exact Ht|split; reflexivity|]. intros Q. apply in_app_or in Q as [Q|Q].
      + destruct HC as (_ & (A & _) & _). apply A. apply in_or_app. left. exact Q.
      + exact (proj2 (name_fits (tb_name t) (in_map tb_name _ _ Ht)) Q).
  Qed.
  Theorem titled_shown rd : Trip.reads W s rd ->
    exists fs b sheets T T', write_csv_files W E (main_table s) (sub_tables s) [] = Ok fs [] /\ csv_book (w_output W) fs = Ok b [] /\ read_book Csv rd b = Ok sheets [] /\ NoDup (map si_name sheets) /\
      Permutation (named (w_main W) (main_table s) :: sub_tables s) T' /\ StronglySorted (fun a b => not_after (w_prefix W ++ tb_name a) (w_prefix W ++ tb_name b)) T' /\
      Permutation (tables s) T /\ Forall2 Trip.alike T T' /\ Forall2 (table_shown (csv_cell E) (SStr [])) T sheets.
  Proof.
    apply csv_shown; [exact names_once|exact all_fine| | |exact rows_have].
    - intros t row Ht Hr. eapply (flatten_keys O drop pi ready); [exact HF|exact free_names|exact Ht|exact Hr].
    - intros t row h v Ht Hr Hv. destruct (cell_from row h v (rows_from t row Ht Hr) Hv) as (c & -> & _). eauto.
  Qed.
  Lemma shown_shuffled T sheets : Forall2 (table_shown (csv_cell E) (SStr [])) T sheets -> Forall2 (table_shuffled (csv_cell E) (SStr [])) T sheets.
  Proof. induction 1 as [|t x T sheets [A B] F IH]; constructor; [|exact IH]. split; [exact A|]. rewrite B. reflexivity. Qed.

  Section Back.
    Variables (P : opts) (T : Titles.table).
    Hypothesis HS : reads_schema SO S P T.
    Hypothesis HV : survive O P (csv_cell E) docs.
    Theorem files_any Ts sheets : Permutation (tables s) Ts -> Forall2 (table_shown (csv_cell E) (SStr [])) Ts sheets ->
      exists out w', unflatten_titled (so_lower SO) P (Some T) sheets = Ok out w' /\ same_records (@Permutation jv) docs out.
    Proof.
      intros HTs F. pose proof HX as (H1 & H2 & H3 & H4 & H5 & H6 & H7 & H8).
      destruct (titled_any SO S O drop pi docs s w P T (csv_cell E) (SStr []) H1 H2 H3 H4 H5 H6 H7 H8 HR HA HD HS HV eq_refl HF Ts sheets HTs (shown_shuffled _ _ F)) as (out & w' & R & _ & Hs). eauto.
    Qed.
    Theorem files_ordered Ts Ts' sheets : titled_main_first O W docs -> inner_names_later O docs -> roots_together O docs ->
      Permutation (named (w_main W) (main_table s) :: sub_tables s) Ts' -> StronglySorted (fun a b => not_after (w_prefix W ++ tb_name a) (w_prefix W ++ tb_name b)) Ts' ->
      Forall2 Trip.alike Ts Ts' -> Forall2 (table_shown (csv_cell E) (SStr [])) Ts sheets ->
      exists out w', unflatten_titled (so_lower SO) P (Some T) sheets = Ok out w' /\ same_records eq docs out.
    Proof.
      intros HM HI Hrt K1 K2 K3 K4. pose proof HX as (H1 & H2 & H3 & H4 & H5 & H6 & H7 & H8).
      destruct (main_shown W E s names_once Ts Ts' sheets) as (T1 & Q1 & Q2 & Q3); try assumption.
      { intros n Hn. destruct HM as [A B]. destruct (names_come n Hn) as [Q|(d & x & Hd & Hx & ->)]; [apply B; exact Q|apply (A d x); assumption]. }
      assert (Hof : outer_sheets_first O docs (map tb_name T1)).
      { intros d x y r Hd Hx Hy Er a b c En. pose proof (HI d x y r Hd Hx Hy Er) as Hle.
        assert (Hnd : NoDup (map tb_name T1)) by (eapply Permutation_NoDup; [apply Permutation_map; exact Q1|apply (flatten_names O drop pi ready _ _ _ HF)]).
        assert (Hge : not_after (array_sheet O (it_at y) (it_key y)) (array_sheet O (it_at x) (it_key x))).
        { clear - Q2 En. apply map_eq_app in En as (T0 & T2 & -> & _ & En). apply map_eq_cons in En as (ty & T3 & -> & <- & En). apply map_eq_app in En as (T4 & T5 & -> & _ & En). apply map_eq_cons in En as (tx & T6 & -> & <- & _).
          induction T0 as [|t T0 IH]; cbn [app] in Q2; inversion Q2 as [|? ? Hs' Hf]; subst; [|exact (IH Hs')]. rewrite Forall_forall in Hf. apply Hf. apply in_elt. }
        pose proof (Trip.not_after_anti _ _ Hle Hge) as Q. rewrite En, Q in Hnd. apply NoDup_remove_2 in Hnd. apply Hnd. apply in_or_app. right. apply in_elt. }
      destruct (titled_ordered SO S O drop pi docs s w P T (csv_cell E) (SStr []) H1 H2 H3 H4 H5 H6 H7 H8 HR HA HD HS HV eq_refl HF T1 sheets Q1 Q3 Hof Hrt) as (out & w' & R & _ & Hs). eauto.
    Qed.
  End Back.
End TFiles.
