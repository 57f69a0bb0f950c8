(** Flattening to CSV files and reading them. *)
From Coq Require Import Permutation Lia Sorted.
From Verif.Base Require Import PyStr PyNum PyVal PyDict Outcome.
From Verif.Model Require Import Warn Lib Convert Input Flatten Readers Csv Output.
From Verif.Spec Require Import Flat Sites Paths Headings Grids CsvText Written RoundTrip Trip.
From Verif.Proofs Require Import JvInd FlattenTrace FlattenRun FlattenPlain FlattenPaths FlattenItems FlattenMain FlattenTotal FlattenUsed RowFin RowRead RtMerge RtRow RtLine RtDoc RtState RtOrder RtRun RtMain RtTrip RtNames OutputFacts CsvFiles.
Local Open Scope res_scope.

Section Trip.
  Variables (O : popts) (drop : bool) (pi : list str) (W : wopts) (E : wenv) (docs : list jobj).
  Notation idn := (po_id_name O).
  Notation rid := (po_root_id O).
  Hypothesis HW : whole O.
  Hypothesis HD : documents O docs.
  Hypothesis HC : csv_ready O W E docs.
  Variables (s : pst) (w : list fwarning).
  Hypothesis HR : flatten O drop pi (map JO docs) = Ok s w.

  Lemma nfree : name_free O s. Proof. exact (free O drop pi docs HW HD s w HR). Qed.
  Lemma row_doc t row : In t (tables s) -> In row (tb_rows t) -> exists o Q, In o docs /\ row_shown O o Q row.
  Proof.
    destruct HW as (HS & HRl & HF & HPr). intros [<-|Ht] Hrow.
    - pose proof (shown_main O drop pi HS _ s w HR nfree (docs_clean O docs HD) HRl) as F. rewrite (records_docs O docs HW) in F. destruct (Forall2_in_r _ _ _ F row Hrow) as (o & Ho & Hs). exists o, []. split; [exact Ho|]. left. auto.
    - destruct (keys_ok2 O docs HD) as [K1 K2]. pose proof (shown_subs O drop pi HS _ s w HR nfree (docs_clean O docs HD) K1 K2 t Ht) as F. rewrite (chosen_docs O docs HW) in F. destruct (Forall2_in_r _ _ _ F row Hrow) as ([v x] & Hi & Hs).
      apply filter_In in Hi as [Hi _]. apply filter_In in Hi as [Hi _]. apply in_flat_map in Hi as (v' & Hv & Hi). apply in_map_iff in Hi as (x' & Q & Hx). injection Q as -> ->. apply in_map_iff in Hv as (o & <- & Ho).
      exists o, (it_path x). split; [exact Ho|]. right. exists x. split; [reflexivity|]. split; [|exact Hs]. exact (items_at (JO o) (tidy_clean O _ (proj1 (doc_ok O docs HD o Ho))) x Hx).
  Qed.
  (** the cells of the rows *)
  Definition placed (h : str) (c : scalar) : Prop :=
    exists d Q k y, In d docs /\ at_path (JO d) (Q ++ [(k, None)]) = Some y /\ leaf_cell O y = Some (JS c) /\ h = pre Q ++ k.
  Lemma rows_placed t row h v : In t (tables s) -> In row (tb_rows t) -> sget h row = Some v -> exists c, v = JS c /\ placed h c.
  Proof.
    intros Ht Hrow Hv. pose proof (row_doc t row Ht Hrow) as G.
    destruct G as (o & Q & Ho & Hsh). destruct (doc_ok O docs HD o Ho) as (Htd & Hid & Hr & Hone).
    assert (G : exists e, at_path (JO o) Q = Some (JO e) /\ shows_only O (leaf_cell O) (keeps O) (JO o) Q e row).
    { destruct Hsh as [(-> & _ & A)|(x & -> & A & _ & _ & B)]; [exists o|exists (it_obj x)]; split; auto. }
    destruct G as (e & He & Hso). destruct (Hso h v Hv) as [(ks & k & y & Hy & Hc & _ & ->)|(Q1 & Q2 & d & -> & Hne & Hd & [(-> & Hi)|(Nr & -> & Hi)])].
    - assert (Ha : at_path (JO o) ((Q ++ down ks) ++ [(k, None)]) = Some y).
      { replace ((Q ++ down ks) ++ [(k, None)]) with (Q ++ down (ks ++ [k])) by (unfold down; rewrite map_app, app_assoc; reflexivity). rewrite at_path_app, He. exact Hy. }
      pose proof (path_x_key _ _ _ _ Ha) as Hx. destruct (cell_leaf O y v (tidy_at idn _ _ _ Htd Hx) Hc) as (_ & ->). exists (cell_of O y). split; [reflexivity|].
      exists o, (Q ++ down ks), k, y. split; [exact Ho|]. split; [exact Ha|]. split; [exact Hc|]. rewrite pre_app, app_assoc. reflexivity.
    - pose proof (tidy_at idn _ _ _ Htd (path_x _ _ _ Hd)) as Hd'. destruct (tidy_JO idn d Hd') as (_ & _ & _ & Hids). destruct (Hids v Hi) as (c & Ec & _). injection Ec as ->. exists c. split; [reflexivity|].
      exists o, Q1, idn, (JS c). split; [exact Ho|]. split; [rewrite at_path_app, Hd; cbn [at_path]; rewrite Hi; reflexivity|]. split; reflexivity.
    - assert (Q1 = []) as ->. { destruct Q1 as [|st Q1]; [reflexivity|]. rewrite (Hone (st :: Q1) d ltac:(discriminate) Hd Nr) in Hi. discriminate. }
      cbn [at_path] in Hd. injection Hd as <-. destruct (Hr Nr) as (c & Ec & _). rewrite Ec in Hi. injection Hi as <-. exists c. split; [reflexivity|].
      exists o, [], rid, (JS c). split; [exact Ho|]. split; [cbn [app at_path]; rewrite Ec; reflexivity|]. split; reflexivity.
  Qed.
  Lemma docs_ids : Forall (fun d => clean (JO d) /\ ids_are_values O (JO d)) docs.
  Proof.
    apply Forall_forall. intros o Ho. destruct (doc_ok O docs HD o Ho) as (Htd & _ & Hr & Hone). split; [apply (tidy_clean O); exact Htd|]. intros Q d Hd. split.
    - intros x Hx. pose proof (tidy_at idn _ _ _ Htd (path_x _ _ _ Hd)) as Hd'. destruct (tidy_JO idn d Hd') as (_ & _ & _ & Hids). destruct (Hids x Hx) as (c & Ec & _). injection Ec as ->. discriminate.
    - intros Nr x Hx. assert (Q = []) as ->. { destruct Q as [|st Q]; [reflexivity|]. rewrite (Hone (st :: Q) d ltac:(discriminate) Hd Nr) in Hx. discriminate. }
      split; [reflexivity|]. cbn [at_path] in Hd. injection Hd as <-. destruct (Hr Nr) as (c & Ec & _). rewrite Ec in Hx. injection Hx as <-. discriminate.
  Qed.
  Lemma heads_placed t h : In t (tables s) -> In h (tb_header t) -> (exists c, placed h c) \/ schema_heading O h.
  Proof.
    intros Ht Hh. destruct (columns_used O HW drop pi docs s w HR nfree docs_ids t h Ht Hh) as [(row & Hrow & Hk)|Hs]; [left|right; exact Hs].
    destruct (sget h row) as [v|] eqn:Ev; [|apply sget_None in Ev; contradiction]. destruct (rows_placed t row h v Ht Hrow Ev) as (c & _ & Hp). eauto.
  Qed.
  Lemma placed_survives h c : placed h c -> CsvText.survives h /\ CsvText.survives (text_of E (JS c)).
  Proof. intros (d & Q & k & y & Hd & Ha & Hc & ->). destruct HC as (_ & _ & H & _). eapply H; eassumption. Qed.
  Lemma pre_slash Q : Q <> [] -> In 47%N (pre Q).
  Proof. destruct Q as [|[k o] Q]; [congruence|]. intros _. unfold pre, step_text. cbn [flat_map fst snd]. apply in_or_app. left. apply in_or_app. right. left. reflexivity. Qed.
  Lemma placed_no_hash h c : placed h c -> h <> u "#".
  Proof.
    intros (d & Q & k & y & Hd & Ha & Hc & ->) Eh. destruct HC as (_ & _ & _ & H & _). specialize (H d Hd). destruct Q as [|st Q].
    - cbn [app at_path] in Ha. cbn [pre flat_map app] in Eh. subst k. rewrite H in Ha. discriminate.
    - assert (In 47%N (u "#")). { rewrite <- Eh. apply in_or_app. left. apply pre_slash. discriminate. } cbn in H0. destruct H0 as [H0|[]]. discriminate.
  Qed.
  Lemma survives_nil : CsvText.survives []. Proof. split; [intros []|]. split; [intros []|]. cbn. lia. Qed.

  (** names of sheets *)
  Lemma names_from n : In n (map tb_name (sub_tables s)) -> schema_sheet O n \/ exists d x, In d docs /\ In x (items_in (JO d)) /\ n = item_sheet O (JO d, x).
  Proof.
    intros Hn. destruct HW as (HS & _). destruct (names_subs O drop pi HS _ s w HR nfree (docs_clean O docs HD) n) as [A _]. destruct (A Hn) as [B|B]; [left; exact B|right].
    rewrite (chosen_docs O docs HW) in B. destruct (sheet_items O n (map JO docs)) as [|[v x] r] eqn:Es; [congruence|]. assert (Hin : In (v, x) (sheet_items O n (map JO docs))) by (rewrite Es; left; reflexivity).
    apply filter_In in Hin as [Hin En]. apply filter_In in Hin as [Hin _]. apply in_flat_map in Hin as (v' & Hv & Hin). apply in_map_iff in Hin as (x' & Q & Hx). injection Q as -> ->. apply in_map_iff in Hv as (d & <- & Hd).
    exists d, x. split; [exact Hd|]. split; [exact Hx|]. apply str_eqb_eq. exact En.
  Qed.
  Lemma segs_no_slash c l : (forall x, In x l -> ~ In c x) -> c <> 95%N -> ~ In c (join [95%N] l).
  Proof.
    intros H Nc. induction l as [|x l IH]; [intros []|]. destruct l as [|y l]; [cbn [join]; apply H; left; reflexivity|]. rewrite join_cons by discriminate.
    intros Q. apply in_app_or in Q as [Q|Q]; [apply (H x (or_introl eq_refl) Q)|]. apply in_app_or in Q as [[Q|[]]|Q]; [congruence|]. revert Q. apply IH. intros z Hz. apply H. right. exact Hz.
  Qed.
  Lemma item_name_slash d x : In d docs -> In x (items_in (JO d)) -> ~ In 47%N (item_sheet O (JO d, x)).
  Proof.
    intros Hd Hx Q. destruct (doc_ok O docs HD d Hd) as (Htd & _). pose proof (items_at (JO d) (tidy_clean O _ Htd) x Hx) as Hat.
    unfold item_sheet, sub_sheet_name in Q. cbn [snd] in Q. destruct HW as ((_ & HT & _) & _). rewrite HT in Q. unfold make_sub_sheet_name, replace_c in Q. apply in_map_iff in Q as (c & Ec & Hc).
    assert (c = 47%N) as ->. { destruct (c =? 58)%N; [discriminate Ec|exact Ec]. } clear Ec. apply in_app_or in Hc as [Hc|Hc].
    - revert Hc. apply segs_no_slash; [|discriminate]. intros z Hz. apply in_map_iff in Hz as (z' & <- & Hz). apply filter_In in Hz as [Hz _]. intros Hin. apply (split_on_no_sep_inside slash_c _ _ Hz).
      rewrite <- (firstn_skipn (po_trunc O) z'). apply in_or_app. left. exact Hin.
    - unfold it_path in Hat. rewrite at_path_app in Hat. destruct (at_path (JO d) (it_at x)) as [g|] eqn:Eg; [|discriminate]. cbn [at_path] in Hat. destruct g as [| |g]; try discriminate.
      pose proof (tidy_at idn _ _ _ Htd (path_x _ _ _ Eg)) as Hg. destruct (sget (it_key x) g) as [z|] eqn:Ek; [|discriminate]. destruct (tidy_JO idn g Hg) as (_ & _ & Ha & _). apply sget_In in Ek. destruct (Ha _ _ Ek) as [(_ & Hk & _) _]. exact (Hk Hc).
  Qed.
  Lemma sub_slash n : In n (map tb_name (sub_tables s)) -> ~ In 47%N n /\ n <> w_main W.
  Proof.
    destruct HC as (_ & (_ & A & B) & _). intros Hn. destruct (names_from n Hn) as [Hs|(d & x & Hd & Hx & ->)]; [destruct (B n Hs); auto|]. split; [apply item_name_slash; assumption|apply A; assumption].
  Qed.
  Lemma all_names : NoDup (w_main W :: map tb_name (sub_tables s)).
  Proof.
    constructor; [|apply (flatten_names O drop pi (simple_ready O (proj1 HW)) _ _ _ HR)]. intros Q. destruct (sub_slash _ Q) as [_ N]. congruence.
  Qed.
  Definition alike (t t' : table) : Prop := tb_header t' = tb_header t /\ tb_rows t' = tb_rows t.
  Lemma table_fine t t' : In t (tables s) -> alike t t' -> ~ In 47%N (w_prefix W ++ tb_name t') -> fine W E t'.
  Proof.
    intros Ht (Eh & Er) Hs. unfold fine, covered_rows, no_hash, readable. rewrite Eh, Er. pose proof (simple_ready O (proj1 HW)) as SR.
    assert (HF : forall h, In h (tb_header t) -> CsvText.survives h /\ h <> u "#").
    { intros h Hh. destruct (heads_placed t h Ht Hh) as [(c & Hp)|Hp]; [split; [apply (placed_survives h c Hp)|apply (placed_no_hash h c Hp)]|]. destruct HC as (_ & _ & _ & _ & H). apply H. exact Hp. }
    split; [intros row k v Hr Hk; eapply flatten_covered; [exact SR|exact HR|exact nfree|exact Ht|exact Hr|exact Hk]|].
    split; [apply (flatten_distinct O drop pi SR _ s w HR t Ht)|]. split; [|split].
    - destruct (tb_header t) as [|h hs] eqn:Q; [discriminate|]. intros X. injection X as X. apply (HF h (or_introl eq_refl)). exact X.
    - split; [apply Forall_forall; intros h Hh; apply (HF h Hh)|]. intros row h v Hr Hh Hv.
      assert (N : NoDup (map fst row)) by (eapply flatten_keys; [exact SR|exact HR|exact nfree|exact Ht|exact Hr]).
      rewrite (has_value_get row h v N Hv). unfold get_value. destruct (sget h row) as [v0|] eqn:Ev; [|apply survives_nil]. destruct (rows_placed t row h v0 Ht Hr Ev) as (c & -> & Hp). apply (placed_survives h c Hp).
    - split; [exact Hs|]. apply HC.
  Qed.
  Lemma tables_fine : Forall (fine W E) (named (w_main W) (main_table s) :: sub_tables s).
  Proof.
    constructor.
    - apply (table_fine (main_table s)); [left; reflexivity|split; reflexivity|]. cbn [named tb_name]. exact (proj1 (proj1 (proj2 HC))).
    - apply Forall_forall. intros t Ht. apply (table_fine t); [right; exact Ht|split; reflexivity|]. intros Q. apply in_app_or in Q as [Q|Q].
      + destruct HC as (_ & (A & _) & _). apply A. apply in_or_app. left. exact Q.
      + exact (proj1 (sub_slash (tb_name t) (in_map tb_name _ _ Ht)) Q).
  Qed.
  (** what is read *)
  Lemma rows_headed t row : In t (tables s) -> In row (tb_rows t) -> tb_header t <> [].
  Proof.
    intros Ht Hr Q. assert (G : exists h v, sget h row = Some v).
    { pose proof (row_doc t row Ht Hr) as G.
      destruct G as (o & Q' & Ho & Hsh). destruct (doc_ok O docs HD o Ho) as (_ & (i & Hi & Hpl) & _ & Hone). exists idn.
      destruct Hsh as [(-> & A & _)|(x & -> & A & _ & B & _)].
      - exists (JS i). apply (A [] idn (JS i) (JS i)); [cbn [app down map at_path]; rewrite Hi; reflexivity|reflexivity|apply keeps_all; apply HW].
      - destruct (B Hone) as [B1 _]. exists (JS i). apply (B1 [] (it_path x) o (JS i)); [reflexivity|unfold it_path; intros X; apply app_eq_nil in X as [_ X]; discriminate|reflexivity|exact Hi]. }
    destruct G as (h & v & Hv). apply sget_In in Hv. pose proof (flatten_covered O drop pi (simple_ready O (proj1 HW)) _ s w HR nfree t row h v Ht Hr Hv) as X. rewrite Q in X. destruct X.
  Qed.
  Lemma line_same t row ls : In t (tables s) -> In row (tb_rows t) ->
    Forall2 (fun h hv => exists v, Written.has_value row h v /\ hv = (SStr h, SStr (text_of E v))) (tb_header t) ls ->
    ls = table_line (csv_cell E) (SStr []) (tb_header t) row.
  Proof.
    intros Ht Hr. assert (N : NoDup (map fst row)) by (eapply flatten_keys; [exact (simple_ready O (proj1 HW))|exact HR|exact nfree|exact Ht|exact Hr]).
    generalize (tb_header t). intros hs F. unfold table_line. induction F as [|h hv hs ls (v & Hv & ->) F IH]; [reflexivity|]. cbn [map]. f_equal; [|exact IH]. f_equal.
    rewrite (has_value_get row h v N Hv). unfold get_value. destruct (sget h row) as [v0|] eqn:Ev; [|reflexivity]. destruct (rows_placed t row h v0 Ht Hr Ev) as (c & -> & _). reflexivity.
  Qed.
  Lemma sheet_shown t t' x : In t (tables s) -> alike t t' -> si_headings x = Some (map SStr (tb_header t')) -> (tb_header t' <> [] -> same_lines E t' (si_lines x)) -> (tb_header t' = [] -> si_lines x = []) ->
    table_shown (csv_cell E) (SStr []) t x.
  Proof.
    intros Ht (Eh & Er) Hh Hl Hn. unfold same_lines in Hl. rewrite Eh, Er in *. split; [right; exact Hh|].
    assert (D : tb_header t = [] \/ tb_header t <> []) by (destruct (tb_header t); [left; reflexivity|right; discriminate]). destruct D as [D|D].
    - rewrite (Hn D). destruct (tb_rows t) as [|row rows] eqn:Q; [reflexivity|]. exfalso. apply (rows_headed t row Ht); [rewrite Q; left; reflexivity|exact D].
    - specialize (Hl D). assert (A : forall row, In row (tb_rows t) -> In row (tb_rows t)) by auto. revert A Hl. generalize (tb_rows t) at 1 3 4. generalize (si_lines x). intros ls rows A F. induction F as [|row l rows ls Hrow F IH]; [reflexivity|].
      cbn [map]. f_equal; [apply (line_same t row l Ht (A row (or_introl eq_refl)) Hrow)|apply IH; intros r' Hr'; apply A; right; exact Hr'].
  Qed.
  Lemma shown_shuffled t x : table_shown (csv_cell E) (SStr []) t x -> table_shuffled (csv_cell E) (SStr []) t x.
  Proof. intros [A B]. split; [exact A|]. rewrite B. reflexivity. Qed.

  Definition reads (rd : reader) : Prop := rd_base rd = empty_conf /\ rd_include rd = [] /\ forall n, In n (w_main W :: map tb_name (sub_tables s)) -> ~ In (w_prefix W ++ n) (rd_exclude rd).
  Theorem csv_read rd : reads rd ->
    exists fs b sheets T T', write_csv_files W E (main_table s) (sub_tables s) [] = Ok fs [] /\ csv_book (w_output W) fs = Ok b [] /\ read_book Csv rd b = Ok sheets [] /\
      Permutation (named (w_main W) (main_table s) :: sub_tables s) T' /\ StronglySorted (fun a b => not_after (w_prefix W ++ tb_name a) (w_prefix W ++ tb_name b)) T' /\
      Permutation (tables s) T /\ Forall2 alike T T' /\ Forall2 (table_shown (csv_cell E) (SStr [])) T sheets.
  Proof.
    intros (B & I & X).
    destruct (csv_tables_read W E (main_table s) (sub_tables s) rd all_names tables_fine) as (fs & b & sheets & T' & H1 & H2 & H3 & H4 & H5 & H6); [|exact B|exact I|].
    { intros x [<-|Hx]; apply X; [left; reflexivity|right; apply in_map; exact Hx]. }
    assert (F0 : Forall2 alike (named (w_main W) (main_table s) :: sub_tables s) (tables s)).
    { constructor; [split; reflexivity|]. clear. induction (sub_tables s) as [|t l IH]; [constructor|]. constructor; [split; reflexivity|exact IH]. }
    destruct (Forall2_perm _ _ _ H4 _ F0) as (T & P1 & F1).
    exists fs, b, sheets, T, T'. split; [exact H1|]. split; [exact H2|]. split; [exact H3|]. split; [exact H4|]. split; [exact H5|]. split; [exact P1|].
    assert (Hin : forall t, In t T -> In t (tables s)) by (intros t Ht; apply (Permutation_in t (Permutation_sym P1) Ht)). clear H3 H4 H5 P1 F0.
    revert T F1 Hin. induction H6 as [|t' x T' sheets (_ & Hh & Hl & Hn) F IH]; intros T F1 Hin; inversion F1 as [|? t ? T0 [A1 A2] F2]; subst; [split; constructor|].
    destruct (IH T0 F2 (fun z Hz => Hin z (or_intror Hz))) as [R1 R2]. split; constructor; auto; [split; congruence|]. apply (sheet_shown t t' x); [apply Hin; left; reflexivity|split; congruence|exact Hh|exact Hl|exact Hn].
  Qed.
  Theorem csv_any P rd : survive O P (csv_cell E) docs -> reads rd ->
    exists fs b sheets out, write_csv_files W E (main_table s) (sub_tables s) [] = Ok fs [] /\ csv_book (w_output W) fs = Ok b [] /\ read_book Csv rd b = Ok sheets [] /\
      unflatten P sheets = Ok out [] /\ same_records (@Permutation jv) docs out.
  Proof.
    intros HV Hrd. destruct (csv_read rd Hrd) as (fs & b & sheets & T & T' & H1 & H2 & H3 & _ & _ & H4 & _ & H5).
    destruct (trip_any O drop pi P (csv_cell E) docs (SStr []) HW HV eq_refl HD s w HR T sheets H4) as (out & A & C).
    { clear -H5. induction H5 as [|t x T sheets H F IH]; [constructor|]. constructor; [apply shown_shuffled; exact H|exact IH]. }
    exists fs, b, sheets, out. auto.
  Qed.
  Lemma not_after_app p a b : not_after (p ++ a) (p ++ b) -> not_after a b.
  Proof. induction p as [|c p IH]; cbn [app]; [auto|]. intros H. inversion H; subst; [lia|auto]. Qed.
  Lemma not_after_anti a : forall b, not_after a b -> not_after b a -> a = b.
  Proof. induction a as [|x a IH]; intros b H1 H2; inversion H1; subst; inversion H2; subst; try lia; [reflexivity|f_equal; auto]. Qed.
  Theorem csv_ordered P rd : survive O P (csv_cell E) docs -> reads rd -> main_first O W docs -> roots_together O docs -> short_names O docs ->
    exists fs b sheets out, write_csv_files W E (main_table s) (sub_tables s) [] = Ok fs [] /\ csv_book (w_output W) fs = Ok b [] /\ read_book Csv rd b = Ok sheets [] /\
      unflatten P sheets = Ok out [] /\ same_records eq docs out.
  Proof.
    intros HV Hrd HM Hrt Hsh. destruct (csv_read rd Hrd) as (fs & b & sheets & T & T' & H1 & H2 & H3 & HP' & HS & _ & Hal & H5).
    (* the main table is the first *)
    assert (M : forall n, In n (map tb_name (sub_tables s)) -> not_after (w_main W) n).
    { intros n Hn. destruct HM as [A B]. destruct (names_from n Hn) as [Q|(d & x & Hd & Hx & ->)]; [apply B; exact Q|apply A; assumption]. }
    assert (G : exists T1, T' = named (w_main W) (main_table s) :: T1 /\ Permutation (sub_tables s) T1).
    { destruct T' as [|x T1]; [apply Permutation_nil_cons in HP' || (apply Permutation_sym, Permutation_nil_cons in HP'); contradiction|].
      assert (x = named (w_main W) (main_table s)) as ->.
      { pose proof (Permutation_in x (Permutation_sym HP') (or_introl eq_refl)) as Hx. destruct Hx as [Hx|Hx]; [auto|]. exfalso.
        pose proof (Permutation_in (named (w_main W) (main_table s)) HP' (or_introl eq_refl)) as Hm. destruct Hm as [Hm|Hm].
        - pose proof all_names as N. inversion N as [|? ? N1 _]; subst. apply N1. replace (w_main W) with (tb_name (named (w_main W) (main_table s))) at 1 by reflexivity. apply in_map. exact Hx.
        - inversion HS as [|? ? _ F]; subst. rewrite Forall_forall in F. specialize (F _ Hm). apply not_after_app in F. pose proof (M (tb_name x) (in_map tb_name _ _ Hx)) as F'. pose proof (not_after_anti _ _ F F') as Q. cbn [named tb_name] in Q.
          pose proof all_names as N. inversion N as [|? ? N1 _]; subst. apply N1. rewrite <- Q. apply in_map. exact Hx. }
      exists T1. split; [reflexivity|]. apply Permutation_cons_inv in HP'. exact HP'. }
    destruct G as (T1 & -> & HP1).
    assert (HT : T = main_table s :: T1 \/ True) by auto. clear HT.
    assert (F : Forall2 (table_shown (csv_cell E) (SStr [])) (main_table s :: T1) sheets).
    { clear -Hal H5. 
      assert (K : forall t t' x, alike t t' -> table_shown (csv_cell E) (SStr []) t x -> table_shown (csv_cell E) (SStr []) t' x) by (intros t t' x [A1 A2] [B1 B2]; unfold table_shown, reads_headings in *; rewrite A1, A2; auto).
      inversion Hal as [|t0 ? T0 ? A0 F0]; subst. inversion H5 as [|? x ? xs X0 G0]; subst. constructor.
      - apply (K t0); [|exact X0]. destruct A0 as [A1 A2]. split; [exact A1|exact A2].
      - clear -F0 G0 K. revert xs G0. induction F0 as [|t t' T0 T1 A F IH]; intros xs G; inversion G; subst; constructor; eauto. }
    assert (S1 : StronglySorted (fun x y => not_after (tb_name x) (tb_name y)) T1).
    { inversion HS as [|? ? S F']; subst. clear -S. induction S as [|x T1 S IH F]; constructor; [exact IH|]. eapply Forall_impl; [|exact F]. intros y. apply not_after_app. }
    destruct (trip_ordered O drop pi P (csv_cell E) docs (SStr []) HW HV eq_refl HD s w HR T1 sheets HP1 F (sorted_outer_first O drop pi docs s w HW HD HR T1 HP1 S1 Hsh) Hrt) as (out & A & C).
    exists fs, b, sheets, out. auto.
  Qed.
End Trip.
