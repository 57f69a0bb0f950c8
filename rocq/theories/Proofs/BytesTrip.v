(** flatten and unflatten one after the other, from bytes to bytes. *)
From Coq Require Import Permutation Lia.
From Verif.Base Require Import PyStr PyNum PyVal PyDict Outcome.
From Verif.Model Require Import Lib Convert Input Json Flatten Readers Csv Output Schema Commands JsonText Utf8.
From Verif.Spec Require Import Flat Sites Paths Headings Grids CsvText Written Commands RoundTrip Typed Trip JsonGrammar JsonTrip Bytes.
From Verif.Proofs Require Import JvInd RtTrip FlattenRun FlattenPlain OutputFacts Trip TripRun TripEnd JsonScan JsonWrite JsonTexts TextTrip Utf8Facts BytesFacts.
Local Open Scope list_scope.

(** ** Documents of whole texts *)
Inductive whole_data : jv -> Prop :=
| wd_scalar s : match s with SStr t => whole_chars t | SFlt _ | SDt _ => False | _ => True end -> whole_data (JS s)
| wd_array l : Forall whole_data l -> whole_data (JA l)
| wd_object d : Forall (fun kx => whole_chars (fst kx) /\ whole_data (snd kx)) d -> whole_data (JO d).
Lemma texts_data v : whole_texts v -> ~ has_odd v -> whole_data (data_of v).
Proof.
  induction v as [v Hv|l IH|d IH] using jval_ind'; intros H Ho.
  - destruct v; cbn [data_of]; try (destruct Hv; fail); try (constructor; exact I).
    + exfalso. apply Ho. constructor.
    + inversion H as [? X|?|?|? X]; subst; [constructor; exact X|destruct X].
  - cbn [data_of]. constructor. apply Forall_forall. intros x Hx. apply in_map_iff in Hx as (v & <- & Hv). apply (proj1 (Forall_forall _ _) IH v Hv); [|intros X; apply Ho; exact (ho_array v l Hv X)].
    inversion H as [?|? X|?|? X]; subst; [exact (proj1 (Forall_forall _ _) X v Hv)|destruct X].
  - cbn [data_of]. constructor. apply Forall_forall. intros x Hx. apply in_map_iff in Hx as ([k v] & <- & Hv). cbn [fst snd].
    inversion H as [?|?|? X|? X]; subst; [|destruct X]. destruct (proj1 (Forall_forall _ _) X (k, v) Hv) as [X1 X2]. split; [exact X1|].
    apply (proj1 (Forall_forall _ _) IH (k, v) Hv); [exact X2|]. intros Q. apply Ho. exact (ho_object k v d Hv Q).
Qed.
Lemma whole_at v : forall Q y, whole_data v -> at_path v Q = Some y -> whole_chars (pre Q) /\ whole_data y.
Proof.
  intros Q. revert v. induction Q as [|[k o] Q IH]; intros v y H E; cbn [at_path] in E; [injection E as <-; split; [constructor|exact H]|].
  destruct v as [s|l|d]; try discriminate E. inversion H as [| |? X]; subst.
  assert (G : forall x, sget k d = Some x -> whole_chars k /\ whole_data x) by (intros x Hx; apply sget_In in Hx; exact (proj1 (Forall_forall _ _) X (k, x) Hx)).
  assert (P : whole_chars k -> whole_chars (pre Q) -> whole_chars (pre ((k, o) :: Q))).
  { intros A B. unfold pre. cbn [flat_map]. unfold step_text at 1. cbn [fst snd]. rewrite !whole_app. split; [|exact B]. split; [exact A|]. split; [lows|destruct o; [lows|constructor]]. }
  destruct o as [i|].
  - destruct (sget k d) as [[s|l|e]|] eqn:Ek; try discriminate E. destruct (nth_error l i) as [z|] eqn:Ez; [|discriminate E]. destruct (G _ eq_refl) as [G1 G2]. inversion G2 as [|? Y|]; subst.
    destruct (IH z y (proj1 (Forall_forall _ _) Y z (nth_error_In _ _ Ez)) E) as [I1 I2]. auto.
  - destruct (sget k d) as [x|] eqn:Ek; [|discriminate E]. destruct (G _ eq_refl) as [G1 G2]. destruct (IH x y G2 E) as [I1 I2]. auto.
Qed.
Lemma N_str_whole n : whole_chars (N_str n).
Proof. apply Forall_forall. intros c Hc. apply N_str_ascii in Hc. apply low_whole. lia. Qed.
Lemma Z_str_whole z : whole_chars (Z_str z).
Proof. destruct z as [|p|p]; unfold Z_str; [lows|apply N_str_whole|]. constructor; [apply low_whole; reflexivity|apply N_str_whole]. Qed.
Lemma zeros_whole n : whole_chars (zeros n).
Proof. unfold zeros. induction n as [|n IH]; cbn [repeat]; constructor; [apply low_whole; reflexivity|exact IH]. Qed.
Lemma dec_str_whole d : whole_chars (dec_str d).
Proof.
  assert (Hs : forall neg : bool, whole_chars (if neg then [45%N] else [])) by (intros []; lows).
  destruct d as [neg c e|neg|neg sig p]; unfold dec_str; cbv zeta; rewrite ?whole_app.
  - split; [apply Hs|]. split.
    + assert (A : forall n, whole_chars (firstn n (N_str c))) by (intros n; apply Forall_forall; intros x Hx; apply (proj1 (Forall_forall _ _) (N_str_whole c)); revert x Hx; intros x Hx; rewrite <- (firstn_skipn n (N_str c)); apply in_or_app; left; exact Hx).
      assert (B : forall n, whole_chars (skipn n (N_str c))) by (intros n; apply Forall_forall; intros x Hx; apply (proj1 (Forall_forall _ _) (N_str_whole c)); rewrite <- (firstn_skipn n (N_str c)); apply in_or_app; right; exact Hx).
      match goal with |- context [(?a <=? 0)%Z] => generalize a end. intros dot. destruct (dot <=? 0)%Z.
      * constructor; [apply low_whole; reflexivity|]. constructor; [apply low_whole; reflexivity|]. apply whole_app. split; [apply zeros_whole|apply N_str_whole].
      * destruct (Z.of_nat (length (N_str c)) <=? dot)%Z; [apply whole_app; split; [apply N_str_whole|apply zeros_whole]|].
        apply whole_app. split; [apply A|]. constructor; [apply low_whole; reflexivity|apply B].
    + match goal with |- whole_chars (exp_str ?a) => generalize a end. intros x. unfold exp_str. destruct (x =? 0)%Z; [constructor|]. destruct (0 <? x)%Z; repeat (constructor; [apply low_whole; reflexivity|]); apply Z_str_whole.
  - split; [apply Hs|lows].
  - split; [apply Hs|]. split; [destruct sig; lows|]. destruct (p =? 0)%N; [constructor|apply N_str_whole].
Qed.
Lemma str_whole E s : whole_data (JS s) -> whole_chars (py_str E s).
Proof.
  intros H. inversion H as [? X| |]; subst. destruct s as [|[]|z|d|f|t|d]; cbn [py_str]; try (destruct X; fail); [lows|lows|lows|apply Z_str_whole|apply dec_str_whole|exact X].
Qed.
Lemma cell_whole E O y c : whole_data y -> leaf_cell O y = Some (JS c) -> whole_chars (text_of E (JS c)).
Proof.
  intros H Hc. destruct y as [s|l|d]; cbn [leaf_cell] in Hc; [| |discriminate Hc].
  - injection Hc as <-. unfold text_of. destruct s as [|b|z|d|f|t|d]; [constructor| | | | | |]; try (apply (str_whole (we_env E)); exact H). 
    inversion H as [? X| |]; subst. exact X.
  - inversion H as [|? X|]; subst.
    assert (G : forall l, Forall whole_data l -> Forall whole_chars (texts_of O l)).
    { clear. intros l H. unfold texts_of. rewrite Forall_map. eapply Forall_impl; [|exact H]. intros [s|l'|d] Hv; [apply str_whole; exact Hv|constructor|constructor]. }
    destruct (forallb jbasic l); [injection Hc as <-; cbn [text_of]; apply join_whole; [apply low_whole; reflexivity|apply G; exact X]|].
    destruct (forallb inner_array l); [|discriminate Hc]. injection Hc as <-. cbn [text_of]. apply join_whole; [apply low_whole; reflexivity|]. rewrite Forall_map. eapply Forall_impl; [|exact X].
    intros v Hv. apply join_whole; [apply low_whole; reflexivity|]. destruct v as [s|l'|d]; [|inversion Hv; subst; apply G; assumption|constructor].
    destruct s as [| | | | |t|]; try constructor. inversion Hv as [? Y| |]; subst. rewrite Forall_map. eapply Forall_impl; [|exact Y]. intros c Hc'. constructor; [exact Hc'|constructor].
Qed.

(** ** The files *)
Section Files.
  Variables (O : popts) (drop : bool) (pi : list str) (W : wopts) (E : wenv) (docs : list jobj).
  Hypothesis HW : whole O.
  Hypothesis HD : documents O docs.
  Hypothesis HC : csv_ready O W E docs.
  Hypothesis Hd : Forall (fun d => whole_data (JO d)) docs.
  Hypothesis Hh : whole_headings O.
  Variables (s : pst) (w : list fwarning).
  Hypothesis HR : flatten O drop pi (map JO docs) = Ok s w.
  Lemma placed_whole h c : placed O docs h c -> whole_chars h /\ whole_chars (text_of E (JS c)).
  Proof.
    intros (d & Q & k & y & Hi & Ha & Hc & ->). pose proof (proj1 (Forall_forall _ _) Hd d Hi) as H. destruct (whole_at (JO d) _ y H Ha) as [H1 H2]. split; [|exact (cell_whole E O y c H2 Hc)].
    unfold pre in *. rewrite flat_map_app in H1. cbn [flat_map] in H1. unfold step_text in H1 at 2. cbn [fst snd] in H1. rewrite !whole_app in H1. apply whole_app. tauto.
  Qed.
  Lemma table_whole t t' : In t (tables s) -> alike t t' -> Forall (Forall whole_chars) (tb_header t' :: csv_rows E t').
  Proof.
    intros Ht (Eh & Er). unfold csv_rows. rewrite Eh, Er. constructor.
    - apply Forall_forall. intros h Hin. destruct (heads_placed O drop pi docs HW HD s w HR t h Ht Hin) as [(c & Hp)|Hp]; [apply (placed_whole h c Hp)|apply Hh; exact Hp].
    - rewrite Forall_map. apply Forall_forall. intros row Hr. rewrite Forall_map. apply Forall_forall. intros h Hin. unfold get_value. destruct (sget h row) as [v|] eqn:Ev; [|constructor].
      destruct (rows_placed O drop pi docs HW HD s w HR t row h v Ht Hr Ev) as (c & -> & Hp). apply (placed_whole h c Hp).
  Qed.
  Lemma written_whole fs : write_csv_files W E (main_table s) (sub_tables s) [] = Ok fs [] -> exists bs, files_bytes fs bs.
  Proof.
    intros H. apply files_have_bytes. apply (files_whole W E (in_order W (main_table s) (sub_tables s)) [] fs [] H); [|constructor].
    intros x Hx. assert (In x (named (w_main W) (main_table s) :: sub_tables s)) as Hx' by (destruct (in_order_spec W (main_table s) (sub_tables s)) as (subs' & Q & P & _); rewrite Q in Hx; destruct Hx as [<-|Hx]; [left; reflexivity|right; apply (Permutation_in x (Permutation_sym P) Hx)]). destruct Hx' as [<-|Hx'].
    - apply (table_whole (main_table s)); [left; reflexivity|split; reflexivity].
    - apply (table_whole x); [right; exact Hx'|split; reflexivity].
  Qed.
End Files.
Lemma files_perm fs bs bs' : files_bytes fs bs -> Permutation bs bs' -> exists fs', Permutation fs fs' /\ files_bytes fs' bs'.
Proof.
  intros H P. revert fs H. induction P as [|x l l' P IH|x y l|l l' l'' P1 IH1 P2 IH2]; intros fs H.
  - exists fs. split; [reflexivity|exact H].
  - inversion H as [|f ? fs0 ? Hf H0]; subst. destruct (IH fs0 H0) as (fs' & P' & H'). exists (f :: fs'). split; [constructor; exact P'|constructor; assumption].
  - inversion H as [|f ? fs0 ? Hf H0]; subst. inversion H0 as [|g ? fs1 ? Hg H1]; subst. exists (g :: f :: fs1). split; [constructor|constructor; [exact Hg|constructor; assumption]].
  - destruct (IH1 fs H) as (fs' & P' & H'). destruct (IH2 fs' H') as (fs'' & P'' & H''). exists fs''. split; [etransitivity; eassumption|exact H''].
Qed.
Theorem directory_texts Wd dir fs bs : files_bytes fs bs -> directory_holds Wd dir bs -> directory_has Wd dir fs.
Proof.
  intros H (bs' & P & E). destruct (files_perm fs bs bs' H P) as (fs' & P' & H'). exists fs'. split; [exact P'|]. rewrite E. unfold csv_book_bytes. rewrite (proj2 (files_decoded fs' bs') H'). reflexivity.
Qed.
(** ** What is written in the end *)
Lemma same_whole (arr : list jval -> list jval -> Prop) v : (forall l l', arr l l' -> incl l' l) -> forall m, same_data arr v m -> whole_texts v -> whole_texts m.
Proof.
  intros Ha. induction v as [v Hv|l IH|d IH] using jval_ind'; intros m H Hw.
  - inversion H as [s|b|a b (p & q & Q1 & Q2 & _)|l l' m' _ _|o e _ _ _]; subst; [exact Hw|exact Hw| |destruct Hv|destruct Hv].
    destruct m; cbn in Q2; try discriminate Q2; apply wt_other; exact I.
  - inversion H as [| |a b (p & q & Q1 & _)|l0 l' m' Hl Hm|]; subst; [discriminate Q1|]. inversion Hw as [?|? X|?|? X]; subst; [|destruct X]. constructor.
    assert (G : Forall (fun x => forall m, same_data arr x m -> whole_texts m) l').
    { apply Forall_forall. intros x Hx m0 Hm0. apply (Ha _ _ Hl) in Hx. apply (proj1 (Forall_forall _ _) IH x Hx m0 Hm0). exact (proj1 (Forall_forall _ _) X x Hx). }
    clear -G Hm. induction Hm as [|x y l' m' Hxy _ IHm]; constructor; inversion G; subst; auto.
  - inversion H as [| |a b (p & q & Q1 & _)| |o e N K S]; subst; [discriminate Q1|]. inversion Hw as [?|?|? X|? X]; subst; [|destruct X]. constructor. apply Forall_forall. intros [k y] Hk. cbn [fst snd].
    assert (Hy : sget k e = Some y) by (apply In_sget; assumption).
    assert (In k (map fst d)) as Hd by (apply K; apply (in_map fst) in Hk; exact Hk).
    destruct (sget k d) as [x|] eqn:Ex; [|apply sget_None in Ex; contradiction]. pose proof (S k x y Ex Hy) as Hxy. apply sget_In in Ex.
    destruct (proj1 (Forall_forall _ _) X (k, x) Ex) as [X1 X2]. split; [exact X1|]. exact (proj1 (Forall_forall _ _) IH (k, x) Ex y Hxy X2).
Qed.
Lemma texts_at v : forall ks x, value_at v ks = Some x -> whole_texts v -> whole_texts x.
Proof.
  intros ks. revert v. induction ks as [|k ks IH]; intros v x H Hv; cbn [value_at] in H; [injection H as <-; exact Hv|].
  destruct v as [| | | | | | |d]; try discriminate H. destruct (sget k d) as [y|] eqn:E; [|discriminate H]. apply sget_In in E. inversion Hv as [?|?|? X|? X]; subst; [|destruct X].
  apply (IH y x H). exact (proj2 (proj1 (Forall_forall _ _) X (k, y) E)).
Qed.

Section Bytes.
  Variables (Wd : world) (F : flopts) (schema : option sps) (T : tenv) (b0 : list byte) (t0 : str) (v0 : jval) (ks : list str) (rs : list jval) (docs : list jobj) (tm : term).
  Notation O := (flatten_opts Wd F schema).
  Hypothesis HF : to_csv F.
  Hypothesis HS : schema_read Wd (f_local_off F) (f_schema F) (flatten_schema_opts Wd F) schema.
  Hypothesis Hb0 : file_holds Wd (f_input F) b0.
  Hypothesis Ht0 : text_bytes t0 b0.
  Hypothesis Hsay : document_says false t0 v0.
  Hypothesis Hone : keys_once v0.
  Hypothesis Hnh : no_halves v0.
  Hypothesis Hpl : place_of F (data_of v0) ks.
  Hypothesis Hrs : value_at v0 ks = Some (VArr rs).
  Hypothesis Hdocs : map data_of rs = map JO docs.
  Hypothesis Ht : sget (f_term F) terminators = Some tm.
  Hypothesis HW : whole O.
  Hypothesis HD : documents O docs.
  Hypothesis HC : csv_ready O (writer_opts F tm) (wd_wenv Wd) docs.
  Hypothesis Hh : whole_headings O.
  Lemma records_whole : whole_texts (VArr rs).
  Proof.
    apply (texts_at v0 ks _ Hrs). apply (document_below false t0 v0 Hsay); [|exact Hnh]. apply bytes_exist. exists b0. exact Ht0.
  Qed.
  Lemma docs_whole : Forall (fun d => whole_data (JO d)) docs.
  Proof.
    assert (whole_data (data_of (VArr rs))) as H.
    { apply texts_data; [exact records_whole|]. intros Ho. pose proof (odd_at v0 ks (VArr rs) Hrs Ho) as Hv. destruct Hsay as (a & m & b & _ & _ & Hm & _). exact (proj1 strict_no_odd m v0 Hm Hv). }
    cbn [data_of] in H. rewrite Hdocs in H. inversion H as [|? X|]; subst. rewrite Forall_map in X. exact X.
  Qed.
  Lemma bytes_written w : flatten_file Wd F = Ok tt w -> exists bs, files_bytes (texts_written w) bs.
  Proof.
    intros Hw. destruct (trip_flattens O (f_drop F) [] docs HW HD) as (s & wf & Hs).
    destruct (csv_read O (f_drop F) [] (writer_opts F tm) (wd_wenv Wd) docs HW HD HC s wf Hs rd0 (reads_rd0 F tm s)) as (fs & b & sheets & T0 & T' & Hfs & _).
    destruct (flatten_runs Wd F schema (data_of v0) (map JO docs) tm HF HS (Hb0 t0 Ht0 v0 Hsay Hone Hnh) (there F v0 ks rs docs Hpl Hrs Hdocs) Ht s wf fs Hs Hfs) as (w1 & Hw1 & Ew).
    rewrite Hw in Hw1. injection Hw1 as <-. rewrite Ew. exact (written_whole O (f_drop F) [] (writer_opts F tm) (wd_wenv Wd) docs HW HD docs_whole Hh s wf Hs fs Hfs).
  Qed.
  Definition ends (arr : list jval -> list jval -> Prop) (Wd' : world) (U : uopts) : Prop :=
    exists w' t1 v1 ms, unflatten_file Wd' U = Ok tt w' /\ text_out T w' (u_output U) t1 /\ document_says false t1 v1 /\ loads t1 = Some v1 /\
      v1 = (if u_root_list U then VArr ms else VObj [(root_path U empty_conf, VArr ms)]) /\ same_data arr (VArr rs) (VArr ms).
  Lemma end_bytes (arr : list jval -> list jval -> Prop) Wd' U : (forall l l', arr l l' -> incl l' l) -> whole_chars (root_path U empty_conf) -> ends arr Wd' U ->
    exists w' b1 t1 v1 ms, unflatten_file Wd' U = Ok tt w' /\ text_out T w' (u_output U) t1 /\ text_bytes t1 b1 /\ document_says false t1 v1 /\ loads t1 = Some v1 /\
      v1 = (if u_root_list U then VArr ms else VObj [(root_path U empty_conf, VArr ms)]) /\ same_data arr (VArr rs) (VArr ms).
  Proof.
    intros Ha Hr (w' & t1 & v1 & ms & A & B & C & D & G & H). assert (exists b1, text_bytes t1 b1) as (b1 & Hb1).
    { apply bytes_exist. apply (document_whole false t1 v1 C). pose proof (same_whole arr (VArr rs) Ha (VArr ms) H records_whole) as Hm. rewrite G. destruct (u_root_list U); [exact Hm|].
      apply wt_object. constructor; [split; [exact Hr|exact Hm]|constructor]. }
    exists w', b1, t1, v1, ms. auto 10.
  Qed.
  Theorem bytes_any : exists w bs, flatten_file Wd F = Ok tt w /\ files_bytes (texts_written w) bs /\ forall Wd' U schema',
    from_csv U -> u_input U = output_dir F -> directory_holds Wd' (u_input U) bs ->
    schema_read Wd' (u_local_off U) (u_schema U) (unflatten_schema_opts Wd' U) schema' ->
    survive O (unflatten_opts Wd' U schema') (csv_cell (wd_wenv Wd)) docs -> all_digits_kept T (VArr rs) -> whole_chars (root_path U empty_conf) ->
    exists w' b1 t1 v1 ms, unflatten_file Wd' U = Ok tt w' /\ text_out T w' (u_output U) t1 /\ text_bytes t1 b1 /\ document_says false t1 v1 /\ loads t1 = Some v1 /\
      v1 = (if u_root_list U then VArr ms else VObj [(root_path U empty_conf, VArr ms)]) /\ same_data (@Permutation jval) (VArr rs) (VArr ms).
  Proof.
    destruct (text_any Wd F schema T t0 v0 ks rs docs tm HF HS (Hb0 t0 Ht0) Hsay Hone Hnh Hpl Hrs Hdocs Ht HW HD HC) as (w & Hw & Hback).
    destruct (bytes_written w Hw) as (bs & Hbs). exists w, bs. split; [exact Hw|]. split; [exact Hbs|]. intros Wd' U schema' HU Hi Hdir HS' Hsv Hk Hr.
    apply end_bytes; [|exact Hr|exact (Hback Wd' U schema' HU Hi (directory_texts _ _ _ _ Hbs Hdir) HS' Hsv Hk)].
    intros l l' P x Hx. eapply Permutation_in; [apply Permutation_sym; exact P|exact Hx].
  Qed.
  Theorem bytes_ordered : main_first O (writer_opts F tm) docs -> roots_together O docs -> short_names O docs -> exists w bs, flatten_file Wd F = Ok tt w /\ files_bytes (texts_written w) bs /\ forall Wd' U schema',
    from_csv U -> u_input U = output_dir F -> directory_holds Wd' (u_input U) bs ->
    schema_read Wd' (u_local_off U) (u_schema U) (unflatten_schema_opts Wd' U) schema' ->
    survive O (unflatten_opts Wd' U schema') (csv_cell (wd_wenv Wd)) docs -> all_digits_kept T (VArr rs) -> whole_chars (root_path U empty_conf) ->
    exists w' b1 t1 v1 ms, unflatten_file Wd' U = Ok tt w' /\ text_out T w' (u_output U) t1 /\ text_bytes t1 b1 /\ document_says false t1 v1 /\ loads t1 = Some v1 /\
      v1 = (if u_root_list U then VArr ms else VObj [(root_path U empty_conf, VArr ms)]) /\ same_data eq (VArr rs) (VArr ms).
  Proof.
    intros M1 M2 M3. destruct (text_ordered Wd F schema T t0 v0 ks rs docs tm HF HS (Hb0 t0 Ht0) Hsay Hone Hnh Hpl Hrs Hdocs Ht HW HD HC M1 M2 M3) as (w & Hw & Hback).
    destruct (bytes_written w Hw) as (bs & Hbs). exists w, bs. split; [exact Hw|]. split; [exact Hbs|]. intros Wd' U schema' HU Hi Hdir HS' Hsv Hk Hr.
    apply end_bytes; [|exact Hr|exact (Hback Wd' U schema' HU Hi (directory_texts _ _ _ _ Hbs Hdir) HS' Hsv Hk)].
    intros l l' -> x Hx. exact Hx.
  Qed.
End Bytes.
