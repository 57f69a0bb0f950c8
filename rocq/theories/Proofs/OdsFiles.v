(** ODS files: written and read back. *)
From Coq Require Import Lia Sorted Permutation.
From Verif.Base Require Import PyStr PyNum PyVal PyDict Outcome.
From Verif.Model Require Import Warn Lib Convert Input Flatten Readers Csv Ods Output.
From Verif.Spec Require Import Grids OdsCells CsvText Written.
From Verif.Proofs Require Import FormatFacts CsvFacts OutputFacts OdsFacts.

Lemma Forall2_length {A B} {P : A -> B -> Prop} {l} {l'} : Forall2 P l l' -> length l = length l'.
Proof. induction 1; cbn; congruence. Qed.
(** a cell as this program writes it *)
Definition own_cell (c : ods_cell) : Prop := oc_covered c = false /\ oc_repeat c = None /\ oc_spanned c = None.
Lemma own_columns cs : Forall own_cell cs -> columns cs (length cs).
Proof.
  induction 1 as [|c cs (_ & A & B) F IH]; [constructor|]. cbn [length]. change (S (length cs)) with (1 + length cs)%nat. constructor; [|exact IH]. apply takes_one; [left; exact A|left; exact B].
Qed.
Lemma own_row RE r : Forall own_cell (or_cells r) -> (forall c, In c (or_cells r) -> exists v, shows RE c v) ->
  exists row, read_row RE false r = Ok row [] /\ (length row <= length (or_cells r))%nat /\
    forall j c, nth_error (or_cells r) j = Some c -> shows RE c (nth j row SNone).
Proof.
  intros O V. destruct (ods_row_read RE r (length (or_cells r)) (own_columns _ O)) as (row & H & L & N).
  - intros c Hc. rewrite Forall_forall in O. split; [apply O, Hc|apply V, Hc].
  - exists row. split; [exact H|]. split; [exact L|]. intros j c Hj. apply nth_error_split in Hj as (pre & post & Ec & Lj).
    assert (O' : Forall own_cell pre) by (rewrite Ec in O; apply Forall_app in O; apply O).
    assert (Oc : own_cell c) by (rewrite Ec in O; apply Forall_app in O as [_ O]; inversion O; assumption).
    specialize (N pre c post (length pre) 1%nat 0%nat Ec (own_columns _ O')). rewrite Nat.add_0_r, Lj in N. apply N; [apply takes_one; [left; apply Oc|left; apply Oc]|lia].
Qed.
Lemma shows_text_fun RE c v s : shows RE c v -> oc_text c = s -> (s <> [] -> oc_type c = Some (u "string")) -> v = text_cell_value s.
Proof.
  intros H <- T. destruct H; try reflexivity.
  - rewrite H. reflexivity.
  - specialize (T H). rewrite T in H0. discriminate.
  - specialize (T H). rewrite T in H0. discriminate.
  - specialize (T H). rewrite T in H0. discriminate.
  - specialize (T H). rewrite T in H0. discriminate.
  - destruct (oc_text c); [contradiction|reflexivity].
Qed.
(** a cell for a text that stays a text *)
Definition ods_text (s : str) (c : ods_cell) : Prop := own_cell c /\ oc_text c = s /\ (s <> [] -> oc_type c = Some (u "string")).
Lemma ods_text_shows RE s c : ods_text s c -> exists v, shows RE c v.
Proof.
  intros (_ & <- & T). destruct (oc_text c) as [|a s] eqn:E; [exists SNone; apply shows_nothing, E|]. assert (T' : oc_type c = Some (u "string")) by (apply T; discriminate).
  eexists. apply shows_text; [rewrite E; discriminate|rewrite T'; discriminate|rewrite T'; discriminate].
Qed.
Lemma make_text E s c w : stays_text E s -> make_cell E (JS (SStr s)) = Ok c w -> ods_text s c.
Proof.
  intros H M. pose proof (make_cell_ok _ _ _ _ M) as (_ & T & A & B & C & _). split; [repeat split; assumption|]. split; [exact T|]. intros N. destruct H as [-> |H]; [contradiction|].
  unfold make_cell in M. destruct s as [|a s]; [contradiction|]. cbn [jfalsy falsy] in M. rewrite H in M. injection M as <- <-. reflexivity.
Qed.
Lemma make_none E c w : make_cell E (JS SNone) = Ok c w -> ods_text [] c.
Proof. intros M. injection M as <- <-. split; [repeat split|]. split; [reflexivity|]. intros Q. contradiction. Qed.
Definition own_text (v : jv) : str := match v with JS (SStr s) => s | _ => [] end.
Lemma row_texts E x row r w : ods_plain E x -> In row (tb_rows x) -> ods_out_row E x row = Ok r w ->
  Forall2 (fun h c => ods_text (remove_illegal (own_text (get_value row h))) c) (tb_header x) (or_cells r).
Proof.
  intros (_ & P) Hr H. unfold ods_out_row in H. apply bind_ok in H as (l & w1 & w2 & H1 & H & ->). injection H as <- <-. cbn [or_cells]. apply map_o_F in H1.
  assert (P' : forall h, In h (tb_header x) -> get_value row h = JS SNone \/ exists s, get_value row h = JS (SStr s) /\ forall s', without_forbidden s s' -> stays_text E s') by (intros h Hh; apply (P row h _ Hr Hh (get_value_has row h))).
  clear P Hr. induction H1 as [|h c hs l (w & H) F IH]; constructor; [|apply IH; intros k Hk; apply P'; right; exact Hk].
  apply bind_ok in H as (v & w3 & w4 & C & M & ->). destruct (P' h (or_introl eq_refl)) as [Q|(s & Q & S)]; rewrite Q in *.
  - injection C as <- <-. apply (make_none E c w4 M).
  - cbn in C. apply bind_ok in C as (t & w5 & w6 & _ & C & ->). injection C as <- <-. apply (make_text E _ c w4); [apply S, remove_illegal_spec|exact M].
Qed.
Lemma heading_texts E x hs w : ods_plain E x -> map_o (fun h => make_cell E (JS (SStr h))) (tb_header x) = Ok hs w -> Forall2 ods_text (tb_header x) hs.
Proof.
  intros (P & _) H. apply map_o_F in H. induction H as [|h c l l' (w' & H) F IH]; constructor; [apply (make_text E h c w'); [apply P; left; reflexivity|exact H]|apply IH; intros k Hk; apply P; right; exact Hk].
Qed.
Lemma texts_row RE ts r : Forall2 ods_text ts (or_cells r) -> exists row, read_row RE false r = Ok row [] /\ forall j, nth j row SNone = text_cell_value (nth j ts []).
Proof.
  intros F. destruct (own_row RE r) as (row & H & L & N).
  - clear -F. induction F as [|s c l l' H F IH]; constructor; [apply H|exact IH].
  - intros c Hc. clear -F Hc. induction F as [|s c' l l' H F IH]; [destruct Hc|]. destruct Hc as [<-|Hc]; [exact (ods_text_shows RE s _ H)|apply IH, Hc].
  - exists row. split; [exact H|]. intros j. destruct (nth_error (or_cells r) j) as [c|] eqn:Ej.
    + specialize (N j c Ej). assert (T : ods_text (nth j ts []) c). { clear -F Ej. revert j Ej. induction F as [|s c' l l' H F IH]; intros [|j] Ej; cbn in *; try discriminate; [injection Ej as <-; exact H|apply IH, Ej]. }
      destruct T as (_ & T1 & T2). exact (shows_text_fun RE c _ _ N T1 T2).
    + apply nth_error_None in Ej. rewrite (nth_overflow row) by lia. rewrite nth_overflow; [reflexivity|]. rewrite (Forall2_length F). exact Ej.
Qed.
Lemma map_res_F2 {A B} (f : A -> R B) l r : Forall2 (fun x y => f x = Ok y []) l r -> map_res f l = Ok r [].
Proof. induction 1 as [|x y l r H F IH]; [reflexivity|]. cbn [map_res]. rewrite H. change (Ok y []) with (@ret warning _ y). rewrite bind_ret_l, IH. reflexivity. Qed.
Lemma ods_sheet_back W E RE x sh w : ods_plain E x -> (forall row, In row (tb_rows x) -> NoDup (map fst row)) -> ods_sheet W E x = Ok sh w ->
  fst sh = firstn 31 (w_prefix W ++ tb_name x) /\ exists g, read_ods_sheet RE false (snd sh) = Ok g [] /\ comes_back x g.
Proof.
  intros P D H. unfold ods_sheet in H. apply bind_ok in H as (hs & w3 & w4 & H1 & H & ->). apply bind_ok in H as (rows & w5 & w6 & H2 & H & ->). injection H as <- <-. cbn [fst snd]. split; [reflexivity|].
  pose proof (heading_texts E x hs w3 P H1) as T. destruct (texts_row RE (tb_header x) {| or_repeat := None; or_cells := hs |} T) as (top & Et & Nt).
  apply map_o_F in H2.
  assert (R : exists g, Forall2 (fun r g => read_row RE false r = Ok g []) rows g /\ Forall2 (fun row g => forall j, nth j g SNone = text_cell_value (nth j (map (fun h => remove_illegal (own_text (get_value row h))) (tb_header x)) [])) (tb_rows x) g).
  { assert (Sub : forall row, In row (tb_rows x) -> In row (tb_rows x)) by auto. revert Sub H2. generalize (tb_rows x) at 1 3 4. intros l Sub H2. clear H1 Et Nt T. induction H2 as [|row r l l' (w & H) F IH]; [exists []; split; constructor|].
    destruct IH as (g & A & B); [intros z Hz; apply Sub; right; exact Hz|]. pose proof (row_texts E x row r w P (Sub row (or_introl eq_refl)) H) as Q.
    assert (Q' : Forall2 ods_text (map (fun h => remove_illegal (own_text (get_value row h))) (tb_header x)) (or_cells r)) by (clear -Q; induction Q; cbn [map]; constructor; assumption).
    destruct (texts_row RE _ _ Q') as (g1 & E1 & N1). exists (g1 :: g). split; constructor; assumption. }
  destruct R as (g & A & B). exists (top :: g). split; [apply map_res_F2; constructor; assumption|]. split; [cbn; f_equal; symmetry; apply (Forall2_length B)|]. split; [exact Nt|].
  intros i row j h v Hi Hj Hv.
  assert (G : exists gr, nth_error g i = Some gr /\ forall j, nth j gr SNone = text_cell_value (nth j (map (fun h => remove_illegal (own_text (get_value row h))) (tb_header x)) [])).
  { clear -B Hi. revert i Hi. induction B as [|row' gr l l' H F IH]; intros [|i] Hi; cbn in *; try discriminate; [injection Hi as <-; exists gr; auto|apply IH, Hi]. }
  destruct G as (gr & Eg & Ng). exists (remove_illegal (own_text v)). unfold cell_at. cbn [nth_error]. rewrite Eg, Ng.
  rewrite (has_value_get row h v (D row (nth_error_In _ _ Hi)) Hv).
  split.
  - f_equal. rewrite (nth_indep _ [] (remove_illegal (own_text (get_value row [])))) by (rewrite map_length; apply nth_error_Some; rewrite Hj; discriminate).
    rewrite (map_nth (fun h => remove_illegal (own_text (get_value row h)))). rewrite (nth_error_nth (tb_header x) j [] Hj). reflexivity.
  - destruct P as (_ & P). destruct (P row h _ (nth_error_In _ _ Hi) (nth_error_In _ _ Hj) (get_value_has row h)) as [Q|(s & Q & _)]; rewrite Q; [left; auto|right].
    exists s. split; [reflexivity|apply remove_illegal_spec].
Qed.
Lemma read_ods_all RE : forall doc b0 b, NoDup (map fst doc) -> (forall n, In n (map fst doc) -> ~ In n (map fst b0)) ->
  Forall2 (fun d s => fst d = fst s /\ read_ods_sheet RE false (snd d) = Ok (snd s) []) doc b -> read_ods RE false doc b0 = Ok (b0 ++ b) [].
Proof.
  induction doc as [|[n rows] doc IH]; intros b0 b D N F; inversion F as [|? [n' g] ? b' (E1 & E2) F']; subst; cbn [read_ods]; [rewrite app_nil_r; reflexivity|]. cbn [fst snd] in *. subst n'.
  rewrite E2. change (Ok g []) with (@ret warning _ g). rewrite bind_ret_l. inversion D as [|? ? Nn D']; subst. rewrite sset_new by (apply sget_None, N; left; reflexivity). rewrite (IH (b0 ++ [(n, g)]) b'); [rewrite <- app_assoc; reflexivity|exact D'| |exact F'].
  intros m Hm. rewrite map_app, in_app_iff. intros [Q|[Q|[]]]; [apply (N m); [right; exact Hm|exact Q]|cbn in Q; subst m; contradiction].
Qed.
Lemma ods_back_order W E RE main subs doc w l : l = in_order W main subs -> rows_ok (main :: subs) -> (forall x, In x l -> ods_plain E x) ->
  NoDup (map (fun x => firstn 31 (w_prefix W ++ tb_name x)) l) -> write_ods W E main subs = Ok doc w ->
  exists b, read_ods RE false doc [] = Ok b [] /\ Forall2 (fun x s => fst s = firstn 31 (w_prefix W ++ tb_name x) /\ comes_back x (snd s)) l b.
Proof.
  intros -> RO P D H. unfold write_ods in H. apply map_o_F in H.
  assert (RO' : forall x, In x (in_order W main subs) -> forall row, In row (tb_rows x) -> NoDup (map fst row)).
  { intros x [<-|Hx] row Hr; [apply (RO main row); [left; reflexivity|exact Hr]|]. apply (RO x row); [right|exact Hr]. apply (Permutation_in x (Permutation_sym (sort_tables_perm subs)) Hx). }
  revert H P D RO'. generalize (in_order W main subs). intros l H P D RO'.
  assert (R : exists b, Forall2 (fun d s => fst d = fst s /\ read_ods_sheet RE false (snd d) = Ok (snd s) []) doc b /\ Forall2 (fun x s => fst s = firstn 31 (w_prefix W ++ tb_name x) /\ comes_back x (snd s)) l b).
  { clear D. induction H as [|x sh l doc (w' & H) F IH]; [exists []; split; constructor|]. destruct IH as (b & A & B); [intros y Hy; apply P; right; exact Hy|intros y Hy; apply RO'; right; exact Hy|].
    destruct (ods_sheet_back W E RE x sh w' (P x (or_introl eq_refl)) (RO' x (or_introl eq_refl)) H) as (N & g & G & C). exists ((fst sh, g) :: b). split; constructor; cbn; auto. }
  destruct R as (b & A & B). exists b. split; [|exact B]. rewrite (read_ods_all RE doc [] b); [reflexivity| |intros n _ []|exact A].
  assert (Q : map fst doc = map (fun x => firstn 31 (w_prefix W ++ tb_name x)) l). { clear -A B. revert doc A. induction B as [|x s l b (H & _) F IH]; intros doc A; inversion A as [|d ? doc' ? (A1 & _) A']; subst; [reflexivity|]. cbn [map]. f_equal; [etransitivity; [exact A1|exact H]|apply IH, A']. }
  rewrite Q. exact D.
Qed.
Theorem ods_back W E RE main subs doc w : rows_ok (main :: subs) -> Forall (ods_plain E) (main :: subs) ->
  NoDup (map (fun x => firstn 31 (w_prefix W ++ tb_name x)) (named (w_main W) main :: subs)) -> write_ods W E main subs = Ok doc w ->
  exists b l, read_ods RE false doc [] = Ok b [] /\ sheets_in_order (named (w_main W) main) subs l /\
    Forall2 (fun x s => fst s = firstn 31 (w_prefix W ++ tb_name x) /\ comes_back x (snd s)) l b.
Proof.
  intros RO P D H. assert (P0 : Permutation (named (w_main W) main :: subs) (in_order W main subs)) by (constructor; apply sort_tables_perm). rewrite Forall_forall in P.
  destruct (ods_back_order W E RE main subs doc w _ eq_refl RO) with (2 := Permutation_NoDup (Permutation_map _ P0) D) (3 := H) as (b & R & F).
  - intros x Hx. apply (Permutation_in x (Permutation_sym P0)) in Hx as [<-|Hx]; [exact (P main (or_introl eq_refl))|apply P; right; exact Hx].
  - exists b, (in_order W main subs). split; [exact R|]. split; [apply in_order_spec|exact F].
Qed.
