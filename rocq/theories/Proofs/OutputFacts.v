(** Writing tables. *)
From Coq Require Import Lia Sorted Permutation QArith.
From Verif.Base Require Import PyStr PyNum PyVal PyDict Outcome.
From Verif.Model Require Import Warn Lib Convert Input Flatten Readers Csv Ods Output.
From Verif.Spec Require Import Grids CsvText Written.
From Verif.Proofs Require Import FormatFacts CsvFacts.

Lemma map_o_ok {A B} (f : A -> OR B) : forall l r w, map_o f l = Ok r w ->
  exists ws, Forall2 (fun x yw => f x = Ok (fst yw) (snd yw)) l (combine r ws) /\ length r = length ws /\ w = concat ws.
Proof.
  induction l as [|x l IH]; intros r w H; cbn in H.
  - injection H as <- <-. exists []. repeat split; constructor.
  - apply bind_ok in H as (y & w1 & w2 & H1 & H & ->). apply bind_ok in H as (r' & w3 & w4 & H2 & H & ->). injection H as <- <-.
    destruct (IH _ _ H2) as (ws & F & L & ->). exists (w1 :: ws). cbn. rewrite app_nil_r. split; [constructor; [exact H1|exact F]|]. split; [f_equal; exact L|reflexivity].
Qed.
Lemma map_o_F {A B} (f : A -> OR B) l r w : map_o f l = Ok r w -> Forall2 (fun x y => exists w', f x = Ok y w') l r.
Proof.
  revert r w. induction l as [|x l IH]; intros r w H; cbn in H; [injection H as <- <-; constructor|].
  apply bind_ok in H as (y & w1 & w2 & H1 & H & ->). apply bind_ok in H as (r' & w3 & w4 & H2 & H & ->). injection H as <- <-. constructor; [exists w1; exact H1|apply (IH _ _ H2)].
Qed.
(** where the warnings come from *)
Lemma map_o_warn {A B} (f : A -> OR B) l r w : map_o f l = Ok r w -> forall x, In x w <-> exists a b w', In a l /\ f a = Ok b w' /\ In x w'.
Proof.
  revert r w. induction l as [|x l IH]; intros r w H z; cbn in H; [injection H as <- <-; split; [intros []|intros (a & _ & _ & [] & _)]|].
  apply bind_ok in H as (y & w1 & w2 & H1 & H & ->). apply bind_ok in H as (r' & w3 & w4 & H2 & H & ->). injection H as <- <-. rewrite app_nil_r, in_app_iff, (IH _ _ H2 z). split.
  - intros [Q|(a & b & w' & Q)]; [exists x, y, w1; split; [left; reflexivity|auto]|exists a, b, w'; split; [right; apply Q|apply Q]].
  - intros (a & b & w' & [-> |Q] & E & Hz); [left; rewrite H1 in E; injection E as <- <-; exact Hz|right; exists a, b, w'; auto].
Qed.
Lemma refuse_ok o x (w : list owarning) : refuse o = Ok x w -> o = None /\ w = [].
Proof. destruct o; cbn; intros H; [discriminate|]. injection H as <- <-. auto. Qed.

(** ** Order *)
Lemma insert_table_perm x l : Permutation (x :: l) (insert_table x l).
Proof. induction l as [|y l IH]; cbn; [apply Permutation_refl|]. destruct (str_leb _ _); [apply Permutation_refl|]. eapply perm_trans; [apply perm_swap|]. constructor. exact IH. Qed.
Lemma sort_tables_perm l : Permutation l (sort_tables l).
Proof. induction l as [|x l IH]; cbn; [constructor|]. eapply perm_trans; [constructor; exact IH|apply insert_table_perm]. Qed.
Definition by_name (a b : table) : Prop := not_after (tb_name a) (tb_name b).
Lemma insert_table_sorted x l : StronglySorted by_name l -> StronglySorted by_name (insert_table x l).
Proof.
  induction 1 as [|y l S IH F]; cbn; [repeat constructor|]. destruct (str_leb (tb_name x) (tb_name y)) eqn:E.
  - apply str_leb_na in E. constructor; [constructor; assumption|]. constructor; [exact E|]. eapply Forall_impl; [|exact F]. intros z Hz. exact (na_trans _ _ E _ Hz).
  - constructor; [exact IH|]. apply str_leb_total in E. rewrite Forall_forall in *. intros z Hz. apply (Permutation_in z (Permutation_sym (insert_table_perm x l))) in Hz as [<-|Hz]; [exact E|apply F, Hz].
Qed.
Lemma sort_tables_sorted l : StronglySorted by_name (sort_tables l).
Proof. induction l as [|x l IH]; cbn; [constructor|apply insert_table_sorted, IH]. Qed.
Lemma in_order_spec W main subs : sheets_in_order (named (w_main W) main) subs (in_order W main subs).
Proof. exists (sort_tables subs). split; [reflexivity|]. split; [apply sort_tables_perm|apply sort_tables_sorted]. Qed.

(** ** Values *)
Lemma illegal_forbidden c : illegal c = true <-> forbidden c.
Proof.
  unfold illegal, forbidden. rewrite !orb_true_iff, !andb_true_iff, !N.leb_le. split.
  - lia.
  - intros (A & B & C & D). lia.
Qed.
Lemma remove_illegal_spec s : without_forbidden s (remove_illegal s).
Proof.
  induction s as [|c s IH]; [constructor|]. unfold remove_illegal in *. cbn [filter]. destruct (illegal c) eqn:E; cbn.
  - apply wf_gone; [apply illegal_forbidden, E|exact IH].
  - apply wf_kept; [|exact IH]. intros Q. apply illegal_forbidden in Q. congruence.
Qed.
Lemma without_length s s' : without_forbidden s s' -> (length s' <= length s)%nat.
Proof. induction 1; cbn; lia. Qed.
Lemma remove_same s : remove_illegal s = s <-> ~ exists c, In c s /\ forbidden c.
Proof.
  induction s as [|c s IH]; [split; [intros _ (c & [] & _)|reflexivity]|]. unfold remove_illegal in *. cbn [filter]. destruct (illegal c) eqn:E; cbn.
  - split; [|intros Q; exfalso; apply Q; exists c; split; [left; reflexivity|apply illegal_forbidden, E]].
    intros Q. pose proof (without_length _ _ (remove_illegal_spec s)) as L. unfold remove_illegal in L. rewrite Q in L. simpl in L. lia.
  - split.
    + intros Q (d & [<-|Hd] & F); [apply illegal_forbidden in F; congruence|]. injection Q as Q. apply IH in Q. apply Q. exists d. auto.
    + intros Q. f_equal. apply IH. intros (d & Hd & F). apply Q. exists d. split; [right; exact Hd|exact F].
Qed.
Lemma clean_value_ok v v' w : clean_value v = Ok v' w -> cleaned v v' /\ forall x, In x w <-> exists s, x = OForbidden s /\ v = JS (SStr s) /\ exists c, In c s /\ forbidden c.
Proof.
  assert (Non : forall v0, (match v0 with JS (SStr _) => False | _ => True end) -> Ok v0 [] = Ok v' w -> cleaned v0 v' /\ forall x, In x w <-> exists s, x = OForbidden s /\ v0 = JS (SStr s) /\ exists c, In c s /\ forbidden c).
  { intros v0 N Q. injection Q as <- <-. split; [destruct v0 as [[]| |]; try reflexivity; contradiction|]. intros x. split; [intros []|]. intros (s & _ & -> & _). contradiction. }
  destruct v as [[|b|z|d|f|s|d]| |]; intros H; try (refine (Non _ _ H); exact I). clear Non. cbn in H.
  destruct (str_eqb_spec (remove_illegal s) s) as [Q|Q]; cbn in H; injection H as <- <-.
  - split; [exists (remove_illegal s); split; [apply remove_illegal_spec|reflexivity]|]. intros x. split; [intros []|]. intros (s1 & _ & E & c & Hc & F). injection E as <-.
    apply remove_same in Q. exfalso. apply Q. exists c. auto.
  - split; [exists (remove_illegal s); split; [apply remove_illegal_spec|reflexivity]|]. intros x. cbn. split.
    + intros [<-|[]]. exists s. split; [reflexivity|split; [reflexivity|]].
      destruct (existsb illegal s) eqn:Ex; [apply existsb_exists in Ex as (c & Hc & F); exists c; split; [exact Hc|apply illegal_forbidden, F]|].
      exfalso. apply Q, remove_same. intros (c & Hc & F). apply illegal_forbidden in F. assert (existsb illegal s = true) by (apply existsb_exists; eauto). congruence.
    + intros (s1 & -> & E & _). injection E as <-. auto.
Qed.
Lemma get_value_has row h : has_value row h (get_value row h).
Proof.
  unfold has_value, get_value. destruct (sget h row) as [v|] eqn:E; [left; apply sget_In, E|right]. split; [|reflexivity]. apply sget_None. exact E.
Qed.
Lemma has_value_get row h v : NoDup (map fst row) -> has_value row h v -> v = get_value row h.
Proof.
  intros D [H|[H ->]]; unfold get_value.
  - rewrite (In_sget _ _ _ D H). reflexivity.
  - apply sget_None in H. rewrite H. reflexivity.
Qed.

(** ** XLSX *)
Lemma xlsx_values E l r w : map_o (xlsx_value E) l = Ok r w -> r = l /\ w = [].
Proof.
  revert r w. induction l as [|x l IH]; intros r w H; cbn in H; [injection H as <- <-; auto|].
  apply bind_ok in H as (y & w1 & w2 & H1 & H & ->). apply bind_ok in H as (r' & w3 & w4 & H2 & H & ->). injection H as <- <-. destruct (IH _ _ H2) as (-> & ->).
  unfold xlsx_value in H1. apply bind_ok in H1 as (y' & w5 & w6 & H1 & H3 & ->). apply refuse_ok in H1 as (_ & ->). injection H3 as <- <-. auto.
Qed.
Lemma xlsx_row_ok E x row cells w : xlsx_out_row E x row = Ok cells w ->
  Forall2 (fun h c => exists v, has_value row h v /\ cleaned v c) (tb_header x) cells /\
  forall z, In z w <-> exists h s, In h (tb_header x) /\ get_value row h = JS (SStr s) /\ z = OForbidden s /\ exists c, In c s /\ forbidden c.
Proof.
  unfold xlsx_out_row. intros H. apply bind_ok in H as (l & w1 & w2 & H1 & H & ->). apply xlsx_values in H as (-> & ->). rewrite app_nil_r. split.
  - apply map_o_F in H1. clear -H1. induction H1 as [|h c hs l (w & H) F IH]; constructor; [|exact IH]. exists (get_value row h). split; [apply get_value_has|apply (clean_value_ok _ _ _ H)].
  - intros z. rewrite (map_o_warn _ _ _ _ H1 z). split.
    + intros (h & b & w' & Hh & Q & Hz). apply clean_value_ok in Q as [_ Q]. apply Q in Hz as (s & -> & Ev & F). exists h, s. auto.
    + intros (h & s & Hh & Ev & -> & F). apply map_o_F in H1. clear -H1 Hh Ev F. induction H1 as [|h' c hs l (w & H) F' IH]; [destruct Hh|]. destruct Hh as [<-|Hh].
      * exists h', c, w. split; [left; reflexivity|]. split; [exact H|]. apply clean_value_ok in H as [_ Q]. apply Q. exists s. auto.
      * destruct (IH Hh) as (a & b & w' & A & B & C). exists a, b, w'. split; [right; exact A|auto].
Qed.
Definition changed (x : table) (s : str) : Prop :=
  exists row h, In row (tb_rows x) /\ In h (tb_header x) /\ get_value row h = JS (SStr s) /\ exists c, In c s /\ forbidden c.
Lemma xlsx_sheet_ok W E x sh w : xlsx_sheet W E x = Ok sh w ->
  (fst sh = firstn 31 (w_prefix W ++ tb_name x) /\ exists rows, snd sh = map (fun h => JS (SStr h)) (tb_header x) :: rows /\ holds cleaned x rows) /\
  forall z, In z w <-> exists s, z = OForbidden s /\ changed x s.
Proof.
  unfold xlsx_sheet. intros H. apply bind_ok in H as (a & w1 & w2 & H1 & H & ->). apply refuse_ok in H1 as (_ & ->). apply bind_ok in H as (hs & w3 & w4 & H1 & H & ->). apply xlsx_values in H1 as (-> & ->).
  apply bind_ok in H as (rows & w5 & w6 & H1 & H & ->). injection H as <- <-. cbn [fst snd app]. rewrite app_nil_r. split.
  - split; [reflexivity|]. exists rows. split; [reflexivity|]. apply map_o_F in H1. unfold holds. clear -H1. induction H1 as [|row cells rs l (w & H) F IH]; constructor; [|exact IH]. apply (xlsx_row_ok _ _ _ _ _ H).
  - intros z. rewrite (map_o_warn _ _ _ _ H1 z). split.
    + intros (row & b & w' & Hr & Q & Hz). apply xlsx_row_ok in Q as [_ Q]. apply Q in Hz as (h & s & Hh & Ev & -> & F). exists s. split; [reflexivity|]. exists row, h. auto.
    + intros (s & -> & row & h & Hr & Hh & Ev & F). apply map_o_F in H1. clear -H1 Hr Hh Ev F. induction H1 as [|r' c rs l (w & H) F' IH]; [destruct Hr|]. destruct Hr as [<-|Hr].
      * exists r', c, w. split; [left; reflexivity|]. split; [exact H|]. apply xlsx_row_ok in H as [_ Q]. apply Q. exists h, s. auto.
      * destruct (IH Hr) as (a & b & w' & A & B & C). exists a, b, w'. split; [right; exact A|auto].
Qed.
Lemma all_sheets {S} (f : table -> OR S) (P : table -> S -> Prop) l doc w :
  (forall x sh w, f x = Ok sh w -> P x sh /\ forall z, In z w <-> exists s, z = OForbidden s /\ changed x s) ->
  map_o f l = Ok doc w -> Forall2 P l doc /\ forall z, In z w <-> exists x s, In x l /\ z = OForbidden s /\ changed x s.
Proof.
  intros Hf H. split.
  - apply map_o_F in H. clear -H Hf. induction H as [|x sh l doc (w & H) F IH]; constructor; [apply (Hf _ _ _ H)|exact IH].
  - intros z. rewrite (map_o_warn _ _ _ _ H z). split.
    + intros (x & b & w' & Hx & Q & Hz). apply Hf in Q as [_ Q]. apply Q in Hz as (s & -> & C). exists x, s. auto.
    + intros (x & s & Hx & -> & C). apply map_o_F in H. clear -H Hf Hx C. induction H as [|x' sh l doc (w & H) F IH]; [destruct Hx|]. destruct Hx as [<-|Hx].
      * exists x', sh, w. split; [left; reflexivity|]. split; [exact H|]. apply Hf in H as [_ Q]. apply Q. exists s. auto.
      * destruct (IH Hx) as (a & b & w' & A & B & D). exists a, b, w'. split; [right; exact A|auto].
Qed.

(** a text warned about is one of the values written *)
Lemma warned_changed l w : rows_ok l -> (forall z, In z w <-> exists x s, In x l /\ z = OForbidden s /\ changed x s) -> warned l w.
Proof.
  intros R H z. rewrite H. split.
  - intros (x & s & Hx & -> & row & h & Hr & Hh & Ev & F). exists x, row, h, s. split; [exact Hx|]. split; [exact Hr|]. split; [exact Hh|]. split; [rewrite <- Ev; apply get_value_has|]. auto.
  - intros (x & row & h & s & Hx & Hr & Hh & Hv & F & ->). exists x, s. split; [exact Hx|]. split; [reflexivity|]. exists row, h. split; [exact Hr|]. split; [exact Hh|]. split; [|exact F].
    symmetry. apply has_value_get; [exact (R _ _ Hx Hr)|exact Hv].
Qed.
Lemma xlsx_written W E main subs doc w : rows_ok (main :: subs) -> write_xlsx W E main subs = Ok doc w ->
  exists l, sheets_in_order (named (w_main W) main) subs l /\ warned l w /\
    Forall2 (fun x sh => fst sh = firstn 31 (w_prefix W ++ tb_name x) /\ exists rows, snd sh = map (fun h => JS (SStr h)) (tb_header x) :: rows /\ holds cleaned x rows) l doc.
Proof.
  intros RO H. exists (in_order W main subs). split; [apply in_order_spec|]. unfold write_xlsx in H.
  destruct (all_sheets _ _ _ _ _ (fun x sh w H => xlsx_sheet_ok W E x sh w H) H) as (F & Z). split; [|exact F]. apply warned_changed; [|exact Z].
  intros x row [<-|Hx] Hr; [apply (RO main row); [left; reflexivity|exact Hr]|]. apply (RO x row); [right|exact Hr]. apply (Permutation_in x (Permutation_sym (sort_tables_perm subs)) Hx).
Qed.

(** ** ODS *)
Lemma times_zero z q : ~ (q == 0)%Q -> Qeq_bool (inject_Z z * q) (inject_Z 0) = true <-> z = 0%Z.
Proof.
  intros Hq. rewrite Qeq_bool_iff. split; [|intros ->; apply Qmult_0_l]. intros H. apply Qmult_integral in H as [H|H]; [|contradiction]. unfold Qeq in H. cbn in H. lia.
Qed.
Lemma power_nonzero (b e : Z) : (0 < b)%Z -> ~ ((if (0 <=? e)%Z then inject_Z (b ^ e) else / inject_Z (b ^ (- e))) == 0)%Q.
Proof.
  intros Hb. assert (P : forall n, (0 <= n)%Z -> ~ (inject_Z (b ^ n) == 0)%Q).
  { intros n Hn H. unfold Qeq in H. cbn in H. pose proof (Z.pow_pos_nonneg b n Hb Hn). lia. }
  destruct (0 <=? e)%Z eqn:E; [apply P; apply Z.leb_le; exact E|]. intros H. apply Z.leb_gt in E. specialize (P (- e)%Z ltac:(lia)). pose proof (Qmult_inv_r _ P) as Q. rewrite H, Qmult_0_r in Q. discriminate Q.
Qed.
Lemma pow10_nonzero e : ~ (pow10 e == 0)%Q.
Proof. apply (power_nonzero 10 e). lia. Qed.
Lemma pow2_nonzero e : ~ (pow2 e == 0)%Q.
Proof. apply (power_nonzero 2 e). lia. Qed.
Lemma falsy_nothing s : falsy s = true <-> is_nothing (JS s).
Proof.
  cbn [is_nothing].
  assert (P : forall a : scalar, a <> SNone -> a <> SStr [] -> (falsy a = true <-> py_eqb a (SInt 0) = true) -> falsy a = true <-> a = SNone \/ a = SStr [] \/ py_eqb a (SInt 0) = true) by (intros; tauto).
  assert (Sg : forall (n : bool) c, (if n then - Z.of_N c else Z.of_N c)%Z = 0%Z <-> (c =? 0)%N = true) by (intros [] c; rewrite N.eqb_eq; lia).
  destruct s as [|b|z|d|f|t|dt].
  - split; auto.
  - apply P; [discriminate|discriminate|]. destruct b; cbn; split; intros H; (reflexivity || discriminate H).
  - apply P; [discriminate|discriminate|]. cbn [falsy]. unfold py_eqb, num_val, xnum_eqb. rewrite Qeq_bool_iff, Z.eqb_eq. unfold Qeq. cbn. lia.
  - apply P; [discriminate|discriminate|]. destruct d as [n c e| |]; cbn [falsy]; [|split; intros H; discriminate H|split; intros H; discriminate H].
    unfold py_eqb, num_val, xnum_eqb, dec_Q. rewrite times_zero by apply pow10_nonzero. rewrite Sg. reflexivity.
  - apply P; [discriminate|discriminate|]. destruct f as [n c e| |]; cbn [falsy]; [|split; intros H; discriminate H|split; intros H; discriminate H].
    unfold py_eqb, num_val, xnum_eqb, flt_Q. rewrite times_zero by apply pow2_nonzero. rewrite Sg. reflexivity.
  - destruct t as [|c t]; cbn [falsy]; [split; auto|]. split; [discriminate|]. intros [Q|[Q|Q]]; discriminate Q.
  - apply P; [discriminate|discriminate|]. cbn. split; discriminate.
Qed.
Lemma jfalsy_nothing v : jfalsy v = true <-> is_nothing v.
Proof. destruct v as [s|[|]|[|]]; cbn [jfalsy]; [apply falsy_nothing| | | |]; split; intros H; (reflexivity || discriminate H). Qed.
Lemma make_cell_ok E v c w : make_cell E v = Ok c w -> w = [] /\ ods_cell_for E v c.
Proof.
  assert (T : out_text E v = text_of E v) by (destruct v as [[]| |]; reflexivity).
  unfold make_cell, ods_cell_for. pose proof (jfalsy_nothing v) as J. destruct (jfalsy v).
  - intros H; injection H as <- <-; cbn [out_cell oc_text oc_covered oc_repeat oc_spanned oc_date oc_type oc_value]. repeat (split; [first [reflexivity|exact T]|]). left. split; [apply J; reflexivity|auto].
  - assert (N : ~ is_nothing v) by (rewrite <- J; discriminate). destruct v as [s| |]; try discriminate. destruct (we_float E s) as [f| |] eqn:Ef; intros H; try discriminate; injection H as <- <-; cbn [out_cell oc_text oc_covered oc_repeat oc_spanned oc_date oc_type oc_value].
    all: repeat (split; [first [reflexivity|exact T]|]); right; (split; [exact N|]); exists s; (split; [reflexivity|]); first [left; exists f; repeat split; reflexivity || assumption|right; repeat split; reflexivity || assumption].
Qed.
Lemma ods_row_ok E x row r w : ods_out_row E x row = Ok r w ->
  Forall2 (fun h c => exists v, has_value row h v /\ ods_shows E v c) (tb_header x) (or_cells r) /\
  forall z, In z w <-> exists h s, In h (tb_header x) /\ get_value row h = JS (SStr s) /\ z = OForbidden s /\ exists c, In c s /\ forbidden c.
Proof.
  unfold ods_out_row. intros H. apply bind_ok in H as (l & w1 & w2 & H1 & H & ->). injection H as <- <-. rewrite app_nil_r. cbn [or_cells].
  assert (Cell : forall h c w, bind (clean_value (get_value row h)) (fun v => make_cell E v) = Ok c w ->
     (exists v, has_value row h v /\ ods_shows E v c) /\ forall z, In z w <-> exists s, z = OForbidden s /\ get_value row h = JS (SStr s) /\ exists c, In c s /\ forbidden c).
  { intros h c w H. apply bind_ok in H as (v & w3 & w4 & H2 & H3 & ->). apply make_cell_ok in H3 as (-> & T). rewrite app_nil_r. apply clean_value_ok in H2 as (C & Z). split; [|exact Z].
    exists (get_value row h). split; [apply get_value_has|]. exists v. split; [exact C|exact T]. }
  split.
  - apply map_o_F in H1. clear -H1 Cell. induction H1 as [|h c hs l (w & H) F IH]; constructor; [|exact IH]. apply (Cell _ _ _ H).
  - intros z. rewrite (map_o_warn _ _ _ _ H1 z). split.
    + intros (h & b & w' & Hh & Q & Hz). apply Cell in Q as [_ Q]. apply Q in Hz as (s & -> & Ev & F). exists h, s. auto.
    + intros (h & s & Hh & Ev & -> & F). apply map_o_F in H1. clear -H1 Hh Ev F Cell. induction H1 as [|h' c hs l (w & H) F' IH]; [destruct Hh|]. destruct Hh as [<-|Hh].
      * exists h', c, w. split; [left; reflexivity|]. split; [exact H|]. apply Cell in H as [_ Q]. apply Q. exists s. auto.
      * destruct (IH Hh) as (a & b & w' & A & B & C). exists a, b, w'. split; [right; exact A|auto].
Qed.
Lemma map_o_nowarn {A B} (f : A -> OR B) l r w : (forall x y w', f x = Ok y w' -> w' = []) -> map_o f l = Ok r w -> w = [].
Proof.
  intros Hf. revert r w. induction l as [|x l IH]; intros r w H; cbn in H; [injection H as <- <-; auto|].
  apply bind_ok in H as (y & w1 & w2 & H1 & H & ->). apply bind_ok in H as (r' & w3 & w4 & H2 & H & ->). injection H as <- <-. rewrite (IH _ _ H2), (Hf _ _ _ H1). reflexivity.
Qed.
Lemma ods_sheet_ok W E x sh w : ods_sheet W E x = Ok sh w ->
  (fst sh = firstn 31 (w_prefix W ++ tb_name x) /\ exists top rows, snd sh = top :: rows /\
     Forall2 (fun h c => ods_cell_for E (JS (SStr h)) c) (tb_header x) (or_cells top) /\ holds (ods_shows E) x (map or_cells rows)) /\
  forall z, In z w <-> exists s, z = OForbidden s /\ changed x s.
Proof.
  unfold ods_sheet. intros H. apply bind_ok in H as (hs & w3 & w4 & H1 & H & ->).
  apply bind_ok in H as (rows & w5 & w6 & H2 & H & ->). injection H as <- <-. cbn [fst snd]. rewrite app_nil_r.
  rewrite (map_o_nowarn _ _ _ _ (fun x y w' Q => proj1 (make_cell_ok _ _ _ _ Q)) H1). cbn [app]. split.
  - split; [reflexivity|]. exists {| or_repeat := None; or_cells := hs |}, rows. split; [reflexivity|]. cbn [or_cells]. apply map_o_F in H1, H2.
    assert (T : Forall2 (fun h c => ods_cell_for E (JS (SStr h)) c) (tb_header x) hs). { clear -H1. induction H1 as [|h c l l' (w & H) F IH]; constructor; [|exact IH]. apply make_cell_ok in H as (_ & T). exact T. }
    split; [exact T|].
    unfold holds. clear -H2. induction H2 as [|row cells rs l (w & H) F IH]; cbn [map]; constructor; [|exact IH]. apply (ods_row_ok _ _ _ _ _ H).
  - intros z. rewrite (map_o_warn _ _ _ _ H2 z). split.
    + intros (row & b & w' & Hr & Q & Hz). apply ods_row_ok in Q as [_ Q]. apply Q in Hz as (h & s & Hh & Ev & -> & F). exists s. split; [reflexivity|]. exists row, h. auto.
    + intros (s & -> & row & h & Hr & Hh & Ev & F). apply map_o_F in H2. clear -H2 Hr Hh Ev F. induction H2 as [|r' c rs l (w & H) F' IH]; [destruct Hr|]. destruct Hr as [<-|Hr].
      * exists r', c, w. split; [left; reflexivity|]. split; [exact H|]. apply ods_row_ok in H as [_ Q]. apply Q. exists h, s. auto.
      * destruct (IH Hr) as (a & b & w' & A & B & C). exists a, b, w'. split; [right; exact A|auto].
Qed.
Lemma ods_written W E main subs doc w : rows_ok (main :: subs) -> write_ods W E main subs = Ok doc w ->
  exists l, sheets_in_order (named (w_main W) main) subs l /\ warned l w /\
    Forall2 (fun x sh => fst sh = firstn 31 (w_prefix W ++ tb_name x) /\ exists top rows, snd sh = top :: rows /\
      Forall2 (fun h c => ods_cell_for E (JS (SStr h)) c) (tb_header x) (or_cells top) /\ holds (ods_shows E) x (map or_cells rows)) l doc.
Proof.
  intros RO H. exists (in_order W main subs). split; [apply in_order_spec|]. unfold write_ods in H.
  destruct (all_sheets _ _ _ _ _ (fun x sh w H => ods_sheet_ok W E x sh w H) H) as (F & Z). split.
  - apply warned_changed; [|exact Z]. intros x row [<-|Hx] Hr; [apply (RO main row); [left; reflexivity|exact Hr]|]. apply (RO x row); [right|exact Hr]. apply (Permutation_in x (Permutation_sym (sort_tables_perm subs)) Hx).
  - clear -F. induction F as [|x sh l doc (A & top & rows & B & C & D) F IH]; constructor; [|exact IH]. split; [exact A|]. exists top, rows. auto.
Qed.

(** ** CSV *)
Lemma out_text_of E v : out_text E v = text_of E v.
Proof. destruct v as [[]| |]; reflexivity. Qed.
Lemma csv_row_ok E x row cells w : csv_out_row E x row = Ok cells w -> w = [] /\ cells = map (fun h => text_of E (get_value row h)) (tb_header x) /\ forall k v, In (k, v) row -> In k (tb_header x).
Proof.
  unfold csv_out_row. destruct (forallb _ row) eqn:Q; [|discriminate]. intros H. injection H as <- <-. split; [reflexivity|]. split; [apply map_ext; intros h; apply out_text_of|].
  intros k v Hk. rewrite forallb_forall in Q. specialize (Q _ Hk). apply str_mem_In in Q. exact Q.
Qed.
Definition csv_rows (E : wenv) (x : table) : list (list str) := map (fun row => map (fun h => text_of E (get_value row h)) (tb_header x)) (tb_rows x).
Lemma csv_rows_ok E x rows w : map_o (csv_out_row E x) (tb_rows x) = Ok rows w -> w = [] /\ rows = csv_rows E x /\ covered_rows x.
Proof.
  unfold csv_rows, covered_rows. generalize (tb_rows x). intros l. revert rows w. induction l as [|row l IH]; intros rows w H; cbn in H; [injection H as <- <-; repeat split; intros ? ? ? []|].
  apply bind_ok in H as (y & w1 & w2 & H1 & H & ->). apply bind_ok in H as (r' & w3 & w4 & H2 & H & ->). injection H as <- <-. destruct (IH _ _ H2) as (-> & -> & C). apply csv_row_ok in H1 as (-> & -> & D).
  split; [reflexivity|]. split; [reflexivity|]. intros r k v [<-|Hr] Hk; [exact (D k v Hk)|exact (C r k v Hr Hk)].
Qed.
Lemma csv_rows_total E x : covered_rows x -> map_o (csv_out_row E x) (tb_rows x) = Ok (csv_rows E x) [].
Proof.
  unfold csv_rows, covered_rows. generalize (tb_rows x). intros l. induction l as [|row l IH]; intros C; [reflexivity|]. cbn [map_o map].
  unfold csv_out_row at 1. assert (Q : forallb (fun kv : str * jv => str_mem (fst kv) (tb_header x)) row = true).
  { apply forallb_forall. intros [k v] Hk. apply str_mem_In. apply (C row k v); [left; reflexivity|exact Hk]. }
  rewrite Q. rewrite bind_ret_l, IH by (intros r k v Hr; apply C; right; exact Hr). cbn. f_equal. f_equal. apply map_ext. intros h. apply out_text_of.
Qed.
Definition csv_file (W : wopts) (E : wenv) (x : table) : str * str := (csv_path W x, write_csv (w_term W) (tb_header x :: csv_rows E x)).
Lemma csv_sheets_ok W E : forall l fs fs' w, csv_sheets W E l fs = Ok fs' w ->
  w = [] /\ fs' = fold_left (fun fs x => sset (fst (csv_file W E x)) (snd (csv_file W E x)) fs) l fs /\ Forall covered_rows l.
Proof.
  induction l as [|x l IH]; intros fs fs' w H; cbn in H; [injection H as <- <-; repeat split; constructor|].
  apply bind_ok in H as (fs1 & w1 & w2 & H1 & H & ->). apply IH in H as (-> & -> & C). unfold csv_sheet in H1. apply bind_ok in H1 as (a & w3 & w4 & H1 & H2 & ->). apply refuse_ok in H1 as (_ & ->).
  apply bind_ok in H2 as (rows & w5 & w6 & H2 & H3 & ->). injection H3 as <- <-. apply csv_rows_ok in H2 as (-> & -> & D). split; [reflexivity|]. split; [reflexivity|]. constructor; assumption.
Qed.
Lemma csv_sheets_total W E : forall l fs, Forall covered_rows l -> (forall x, In x l -> we_open E (csv_path W x) = None) ->
  csv_sheets W E l fs = Ok (fold_left (fun fs x => sset (fst (csv_file W E x)) (snd (csv_file W E x)) fs) l fs) [].
Proof.
  induction l as [|x l IH]; intros fs C O; [reflexivity|]. inversion C as [|? ? Cx C']; subst. cbn [csv_sheets fold_left]. unfold csv_sheet. rewrite (O x (or_introl eq_refl)). unfold refuse. rewrite bind_ret_l, (csv_rows_total E x Cx).
  change (Ok (csv_rows E x) []) with (@ret owarning _ (csv_rows E x)). rewrite !bind_ret_l. apply IH; [exact C'|intros y Hy; apply O; right; exact Hy].
Qed.
(** the last file written under a name is the one that is there *)
Lemma fold_files W E : forall l fs p, (forall x, In x l -> csv_path W x <> p) -> sget p (fold_left (fun fs x => sset (fst (csv_file W E x)) (snd (csv_file W E x)) fs) l fs) = sget p fs.
Proof.
  induction l as [|x l IH]; intros fs p H; [reflexivity|]. cbn [fold_left]. rewrite IH by (intros y Hy; apply H; right; exact Hy). apply sget_sset_neq. cbn. intros Q. apply (H x (or_introl eq_refl)). auto.
Qed.
Lemma fold_files_in W E : forall l fs x, NoDup (map (csv_path W) l) -> In x l -> sget (csv_path W x) (fold_left (fun fs x => sset (fst (csv_file W E x)) (snd (csv_file W E x)) fs) l fs) = Some (snd (csv_file W E x)).
Proof.
  induction l as [|y l IH]; intros fs x D Hx; [destruct Hx|]. inversion D as [|? ? N D']; subst. cbn [fold_left]. destruct Hx as [<-|Hx]; [|apply IH; assumption].
  rewrite fold_files; [apply sget_sset_eq|]. intros z Hz Q. apply N. rewrite <- Q. apply in_map. exact Hz.
Qed.
