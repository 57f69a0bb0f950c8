(** Locations: which cell of the grid a cell of a line is. *)
From Coq Require Import Sorted Permutation Lia.
From Verif.Base Require Import PyStr PyNum PyVal PyDict Outcome.
From Verif.Model Require Import Warn Lib Convert Input Readers SourceMap.
From Verif.Spec Require Import Columns Filled Source Maps Grids.
From Verif.Proofs Require Import EraseRun ReaderFacts MapSound.

Lemma kset_none_nth (d : line) : forall k key v, nth_error (kset SNone SNone d) k = Some (key, v) -> blank v = false -> nth_error d k = Some (key, v).
Proof.
  unfold kset. induction d as [|[a b] d IH]; intros k key v H Hb; cbn [aset] in H.
  - destruct k as [|k]; cbn in H; [injection H as <- <-; discriminate|destruct k; discriminate].
  - destruct (py_eqb SNone a).
    + destruct k as [|k]; cbn [nth_error] in *; [injection H as <- <-; discriminate|exact H].
    + destruct k as [|k]; cbn [nth_error] in *; [exact H|apply IH; assumption].
Qed.
Lemma fold_none_nth n : forall (d : line) k key v, nth_error (fold_left step (repeat (SNone, SNone) n) d) k = Some (key, v) -> blank v = false -> nth_error d k = Some (key, v).
Proof.
  induction n as [|n IH]; intros d k key v H Hb; cbn [repeat fold_left] in H; [exact H|]. apply IH in H; [|exact Hb]. unfold step in H. cbn [fst snd] in H. apply kset_none_nth; assumption.
Qed.
Lemma combine_nth_error {A B} (a : list A) : forall (b : list B) k x y, nth_error (combine a b) k = Some (x, y) -> nth_error a k = Some x /\ nth_error b k = Some y.
Proof.
  induction a as [|p a IH]; intros b k x y H; [destruct k; discriminate|]. destruct b as [|q b]; [destruct k; discriminate|].
  destruct k as [|k]; cbn [combine nth_error] in *; [injection H as -> ->; auto|apply IH; exact H].
Qed.
Lemma nth_of_error {A} (l : list A) k x d : nth_error l k = Some x -> nth k l d = x.
Proof. revert k. induction l as [|y l IH]; intros [|k] H; try discriminate; [injection H as ->; reflexivity|apply IH; exact H]. Qed.
Lemma nth_error_firstn {A} (l : list A) : forall n k x, nth_error (firstn n l) k = Some x -> nth_error l k = Some x.
Proof. induction l as [|y l IH]; intros [|n] [|k] x H; try discriminate; [exact H|]. cbn in *. eapply IH. exact H. Qed.
Lemma nth_error_skipn {A} (l : list A) : forall n k, nth_error (skipn n l) k = nth_error l (n + k).
Proof. induction l as [|y l IH]; intros [|n] k; cbn [skipn Nat.add nth_error]; try reflexivity; [destruct k; reflexivity|apply IH]. Qed.
Lemma repeat_app_firstn_pad (w : nat) (r : list scalar) k v : nth_error (pad w r) k = Some v -> blank v = false -> nth_error r k = Some v.
Proof.
  unfold pad. intros H Hb. destruct (Nat.lt_ge_cases k (length r)) as [Hk|Hk]; [rewrite nth_error_app1 in H by exact Hk; exact H|].
  rewrite nth_error_app2 in H by exact Hk. apply nth_error_In in H. apply repeat_spec in H. subst. discriminate.
Qed.

Lemma csv_line_nth hs row k key v : ForallOrdPairs (fun a b => py_eqb b a = false) hs ->
  nth_error (make_line (csv_cells hs row)) k = Some (key, v) -> blank v = false -> nth_error row k = Some v.
Proof.
  intros H Hn Hb. rewrite csv_cells_pad in Hn. rewrite make_line_once in Hn by (apply (FOP_combine (fun a b => py_eqb b a = false)); exact H).
  apply combine_nth_error in Hn as [_ Hn]. apply repeat_app_firstn_pad in Hn; [|exact Hb]. eapply nth_error_firstn. exact Hn.
Qed.
Lemma masked_once f e hs row : ForallOrdPairs (fun a b => py_eqb b a = false) hs ->
  keys_once (map (fun hv : scalar * scalar => (fst hv, if heading_counts f e (fst hv) then snd hv else SNone)) (combine hs row)).
Proof. intros H. apply (FOP_map (fun hv : scalar * scalar => (fst hv, if heading_counts f e (fst hv) then snd hv else SNone))). cbn [fst]. apply (FOP_combine (fun a b => py_eqb b a = false)). exact H. Qed.
Lemma masked_nth f e hs row k key v : nth_error (map (fun hv : scalar * scalar => (fst hv, if heading_counts f e (fst hv) then snd hv else SNone)) (combine hs row)) k = Some (key, v) ->
  blank v = false -> nth_error row k = Some v.
Proof.
  intros H Hb. rewrite nth_error_map in H. destruct (nth_error (combine hs row) k) as [[a b]|] eqn:E; [|discriminate]. cbn [option_map fst snd] in H. injection H as <- Hv.
  destruct (heading_counts f e a); [|subst; discriminate]. subst. apply combine_nth_error in E as [_ E]. exact E.
Qed.
Lemma combine_app_l {A B} (a a' : list A) : forall b : list B, combine (a ++ a') b = combine a b ++ combine a' (skipn (length a) b).
Proof. induction a as [|x a IH]; intros b; [reflexivity|]. destruct b as [|y b]; cbn [app combine length skipn]; [destruct a'; reflexivity|]. rewrite IH. reflexivity. Qed.
Lemma xlsx_line_nth e hs n row k key v : ForallOrdPairs (fun a b => py_eqb b a = false) hs ->
  nth_error (make_line (xlsx_cells e (hs ++ repeat SNone n) row)) k = Some (key, v) -> blank v = false -> nth_error row k = Some v.
Proof.
  intros H Hn Hb. rewrite xlsx_cells_counts, combine_app_l, map_app in Hn. unfold make_line in Hn. fold step in Hn. rewrite fold_left_app in Hn.
  assert (E : exists m, map (fun hv => (fst hv, if heading_counts Xlsx e (fst hv) then snd hv else SNone)) (combine (repeat SNone n) (skipn (length hs) row)) = repeat (SNone, SNone) m).
  { clear. generalize (skipn (length hs) row). induction n as [|n IH]; intros l; [exists 0%nat; reflexivity|]. destruct l as [|v l]; [exists 0%nat; reflexivity|].
    destruct (IH l) as [m Em]. exists (S m). cbn [repeat combine map fst snd]. rewrite Em. reflexivity. }
  destruct E as [m E]. rewrite E in Hn. apply fold_none_nth in Hn; [|exact Hb].
  change (nth_error (make_line (map (fun hv => (fst hv, if heading_counts Xlsx e (fst hv) then snd hv else SNone)) (combine hs row))) k = Some (key, v)) in Hn.
  rewrite make_line_once in Hn by (apply masked_once; exact H). eapply masked_nth; eassumption.
Qed.
Lemma ods_rows_nth e hs : (sc_hash e = true -> forall h, In h hs -> falsy h = true \/ exists s, h = SStr s) ->
  ForallOrdPairs (fun a b => py_eqb b a = false) hs -> forall rows, (forall row, In row rows -> row_values Ods e hs row <> []) ->
  forall ls w, ods_rows e hs rows = Ok ls w -> forall j l, nth_error ls j = Some l -> exists row, nth_error rows j = Some row /\
    forall k key v, nth_error l k = Some (key, v) -> blank v = false -> nth_error row k = Some v.
Proof.
  intros Hh Ho. induction rows as [|row rows IH]; intros Hr ls w H; cbn [ods_rows] in H; [injection H as <- <-; intros [|j] l Hl; discriminate|].
  rewrite (ods_cells_counts e hs Hh row) in H. cbn [bind ret app] in H. destruct (ods_rows e hs rows) as [r wr|] eqn:Er; [|discriminate]. cbn [bind ret app] in H.
  set (l0 := make_line _) in H.
  destruct (forallb (fun kv => is_none (snd kv)) l0) eqn:En.
  - exfalso. apply (Hr row (or_introl eq_refl)). apply none_blank in En. unfold l0 in En. rewrite ods_line_values in En; [exact En|].
    eapply FOP_imp; [|exact Ho]. intros a b _ _ Ha Hb. congruence.
  - injection H as <- _. intros [|j] l Hl; cbn [nth_error] in *.
    + injection Hl as <-. exists row. split; [reflexivity|]. intros k key v Hn Hb. unfold l0 in Hn. rewrite make_line_once in Hn by (apply masked_once; exact Ho). eapply masked_nth; eassumption.
    + eapply IH; [intros r0 Hi; apply Hr; right; exact Hi|reflexivity|exact Hl].
Qed.

Lemma lines_located f rd c g L ls w : rd_vertical rd = false -> laid_out rd c L -> locatable f g L -> lines_in f rd c g = Ok ls w ->
  forall j l k key v, nth_error ls j = Some l -> nth_error l k = Some (key, v) -> blank v = false -> cell_at g (ly_first L + j) k = v.
Proof.
  intros Hv HL (H1 & H2 & Ho & Hh & Hr) Hls j l k key v Hl Hk Hb.
  pose proof (laid_out_conf _ _ _ HL) as Hc. destruct (laid_out_rows _ _ _ HL) as [H3 H4].
  assert (Hrow : nth_error g (ly_heading L) = Some (row_at g (ly_heading L))).
  { unfold row_at. destruct (nth_error g (ly_heading L)) eqn:E; [reflexivity|]. apply nth_error_None in E. lia. }
  set (hs := row_at g (ly_heading L)) in *. set (e := ly_conf L) in *.
  assert (G : exists row, nth_error g (ly_first L + j) = Some row /\ nth_error row k = Some v).
  { destruct f; cbn [lines_in] in Hls.
    - unfold csv_lines in Hls. rewrite Hc in Hls. cbv zeta in Hls. rewrite H3 in Hls.
      assert (Hx : (length g <? ly_heading L)%nat = false) by (apply Nat.ltb_ge; lia). rewrite Hx in Hls. rewrite (skipn_S_tl _ _ _ Hrow) in Hls.
      assert (Hy : (length (skipn (S (ly_heading L)) g) <? header_of e - 1)%nat = false) by (apply Nat.ltb_ge; rewrite skipn_length; lia). rewrite Hy in Hls.
      apply (f_equal (fun r => match r with Ok x _ => x | Raise _ _ => [] end)) in Hls. unfold ret in Hls. cbv beta iota in Hls. rewrite <- Hls in Hl. rewrite skipn_skipn in Hl. replace (header_of e - 1 + S (ly_heading L))%nat with (ly_first L) in Hl by lia.
      assert (Ef : filter (fun row => negb (is_nil row)) (skipn (ly_first L) g) = skipn (ly_first L) g).
      { assert (Ha : forall row, In row (skipn (ly_first L) g) -> row <> []).
        { intros row Hi. apply In_nth_error in Hi as [i Hi]. rewrite nth_error_skipn in Hi. apply (Hr (ly_first L + i)%nat row); [lia|exact Hi]. }
        clear - Ha. induction (skipn (ly_first L) g) as [|row rows IH]; [reflexivity|]. cbn [filter]. destruct row as [|x row]; [exfalso; apply (Ha []); [left; reflexivity|reflexivity]|].
        cbn [is_nil negb]. rewrite IH; [reflexivity|]. intros r Hi. apply Ha. right. exact Hi. }
      rewrite Ef in Hl. rewrite nth_error_map, nth_error_skipn in Hl. destruct (nth_error g (ly_first L + j)) as [row|]; [|discriminate]. exists row. split; [reflexivity|].
      injection Hl as <-. eapply csv_line_nth; eassumption.
    - unfold xlsx_lines in Hls. rewrite Hc, Hv in Hls. cbv zeta in Hls. fold e in Hls. injection Hls as <- _.
      replace (skip_of e + conf_line c)%nat with (ly_heading L) in Hl by lia. rewrite H4 in Hl. unfold xlsx_row in Hl. rewrite (wide_nth _ _ _ Hrow) in Hl.
      rewrite wide_skip in Hl by (intros E; rewrite E in H2; cbn in H2; lia). rewrite map_map in Hl. rewrite nth_error_map, nth_error_skipn in Hl.
      destruct (nth_error g (ly_first L + j)) as [row|]; [|discriminate]. exists row. split; [reflexivity|]. injection Hl as <-. unfold pad at 1 in Hk.
      apply xlsx_line_nth in Hk; [|exact Ho|exact Hb]. eapply repeat_app_firstn_pad; eassumption.
    - unfold ods_lines in Hls. rewrite Hc, Hv in Hls. cbv zeta in Hls. fold e in Hls.
      replace (skip_of e + conf_line c)%nat with (ly_heading L) in Hls by lia. rewrite Hrow in Hls. rewrite H4 in Hls.
      destruct (ods_rows_nth e hs (fun H => Hh eq_refl H) Ho (skipn (ly_first L) g)) with (ls := ls) (w := w) (j := j) (l := l) as (row & Ha & Hb').
      + intros row Hi. apply In_nth_error in Hi as [i Hi]. rewrite nth_error_skipn in Hi. apply (Hr (ly_first L + i)%nat row); [lia|exact Hi].
      + exact Hls.
      + exact Hl.
      + exists row. rewrite nth_error_skipn in Ha. split; [exact Ha|]. eapply Hb'; eassumption. }
  destruct G as (row & Ha & Hn). unfold cell_at. rewrite Ha. apply nth_of_error. exact Hn.
Qed.

Lemma map_res_inv {A B} (h : A -> R B) l : forall ys w, map_res h l = Ok ys w -> Forall2 (fun x y => exists w, h x = Ok y w) l ys.
Proof.
  induction l as [|x l IH]; intros ys w H; cbn [map_res] in H; [injection H as <- _; constructor|].
  destruct (h x) as [y w1|] eqn:E; [|discriminate]. cbn [bind] in H. destruct (map_res h l) as [r w2|] eqn:E2; [|discriminate]. cbn [bind ret] in H.
  injection H as <- _. constructor; [exists w1; exact E|]. eapply IH. reflexivity.
Qed.
Lemma Forall2_In_r {A B} (P : A -> B -> Prop) l l' : Forall2 P l l' -> forall y, In y l' -> exists x, In x l /\ P x y.
Proof. induction 1 as [|x y l l' Hp _ IH]; intros z Hz; [destruct Hz|]. destruct Hz as [<-|Hz]; [exists x; split; [left; reflexivity|exact Hp]|]. destruct (IH z Hz) as (a & Ha & Hb). exists a. split; [right; exact Ha|exact Hb]. Qed.
Lemma Forall2_In_l {A B} (P : A -> B -> Prop) l l' : Forall2 P l l' -> forall x, In x l -> exists y, In y l' /\ P x y.
Proof. induction 1 as [|x y l l' Hp _ IH]; intros z Hz; [destruct Hz|]. destruct Hz as [<-|Hz]; [exists y; split; [left; reflexivity|exact Hp]|]. destruct (IH z Hz) as (a & Ha & Hb). exists a. split; [right; exact Ha|exact Hb]. Qed.
Lemma conf_warn l : forall c r w, parse_sheet_configuration l c = Ok r w -> w = [].
Proof. induction l as [|x l IH]; intros c r w H; [injection H as _ <-; reflexivity|]. destruct x; try discriminate. eapply IH. exact H. Qed.
Lemma get_conf_warn f g l w : get_conf f g = Ok l w -> w = [].
Proof.
  destruct f; cbn [get_conf]; unfold csv_conf, xlsx_conf, ods_conf; intros H.
  - destruct g as [|[|[] r] g]; inversion H; reflexivity.
  - destruct (xlsx_row g 0) as [|[] r]; inversion H; reflexivity.
  - destruct g as [|[|[] r] g]; inversion H; reflexivity.
Qed.
Lemma configure_inv f b n x w : configure f b n = Ok x w -> exists g c, x = (n, g, c) /\ sheet_of f b n g c.
Proof.
  unfold configure. intros H. destruct (sget n b) as [g|] eqn:E; [|discriminate]. destruct (get_conf f g) as [l w1|] eqn:E1; [|discriminate]. cbn [bind] in H.
  destruct (parse_sheet_configuration l empty_conf) as [c w2|] eqn:E2; [|discriminate]. cbn [bind ret] in H. injection H as <- _. exists g, c. split; [reflexivity|].
  split; [exact E|]. rewrite E1. cbn [bind]. rewrite E2. pose proof (get_conf_warn _ _ _ _ E1). pose proof (conf_warn _ _ _ _ E2). subst. reflexivity.
Qed.
Lemma read_book_inv f rd b sheets w : read_book f rd b = Ok sheets w -> exists confs,
  Forall2 (fun n x => exists g c, x = (n, g, c) /\ sheet_of f b n g c) (select rd (available f b)) confs /\
  Forall2 (fun x s => exists w, read_sheet f rd x = Ok s w) confs sheets.
Proof.
  unfold read_book. intros H. destruct (map_res (configure f b) _) as [confs w1|] eqn:E; [|discriminate]. cbn [bind] in H.
  destruct (map_res (read_sheet f rd) confs) as [s w2|] eqn:E2; [|discriminate]. cbn [bind] in H. injection H as <- _. exists confs. split; [|eapply map_res_inv; exact E2].
  apply map_res_inv in E. clear - E. induction E as [|x y l l' [w0 Hp] _ IH]; constructor; [|exact IH]. eapply configure_inv. exact Hp.
Qed.
Lemma convert_blank E ty v x w : blank v = true -> convert_type E ty (CV v) = Ok x w -> cv_blank x = true /\ x = CV SNone.
Proof. intros Hb H. unfold convert_type in H. destruct v as [| | | | |[|]|]; try discriminate Hb; injection H as <- _; split; reflexivity. Qed.
Lemma conv_blank E types v x : conv_of E types (CV v) x -> blank v = true -> exists s, x = CV s /\ blank s = true.
Proof.
  intros H Hb. induction H as [|ty x y w H IH Ht Hc]; [eauto|]. destruct IH as (s & -> & Hs). destruct (convert_blank _ _ _ _ _ Hs Hc) as [_ ->]. eexists. split; reflexivity.
Qed.
Lemma stored_not_blank E types v x : stored E types (CV v) x -> blank v = false.
Proof.
  intros (x0 & ty & w & H1 & H2 & H3 & H4). destruct (blank v) eqn:Hb; [|reflexivity]. destruct (conv_blank _ _ _ _ H1 Hb) as (s & -> & Hs).
  destruct (convert_blank _ _ _ _ _ Hs H3) as [Hc _]. congruence.
Qed.

(** C13 *)
Theorem located O F f rd b sheets w0 r m mh w : rd_vertical rd = false -> o_vertical O = false ->
  read_book f rd b = Ok sheets w0 -> fancy_unflatten O F sheets = Ok (r, Some m, mh) w ->
  (forall name g c L, sheet_of f b name g c -> laid_out rd c L -> locatable f g L) ->
  forall p v ls l, leaf r p v -> In (place_text F p, ECells ls) m -> In l ls ->
  exists g c L i j x, sheet_of f b (l_sheet l) g c /\ laid_out rd c L /\
    (l_row l + N.of_nat (ly_first L) = N.of_nat i + 2)%N /\ letters (N.of_nat j + 1)%N (l_col l) /\
    l_heading l = cell_at g (ly_heading L) j /\
    stored (o_conv O) (o_types O) (CV (cell_at g i j)) x /\ (x = v \/ cv_eqb v x = true).
Proof.
  intros Hv Hov Hb Hf Hloc p v ls l Hp Hm Hl.
  destruct (cell_map_sound O F sheets r m mh w Hf) as (_ & Hnd & _ & _ & Hc).
  destruct (Hc p v Hp) as (ls' & Hm' & _ & Hall).
  assert (Els : ls' = ls).
  { apply (In_sget _ _ _ Hnd) in Hm. apply (In_sget _ _ _ Hnd) in Hm'. congruence. }
  subst ls'. destruct (Hall l Hl) as (raw & x & Hraw & Hst & Hx).
  destruct Hraw as (s & j & k & lin & key & Hs & Hj & Hk & Hsn & Hrow & Hcol & Hhd).
  destruct (read_book_inv _ _ _ _ _ Hb) as (confs & F1 & F2). destruct (Forall2_In_r _ _ _ F2 s Hs) as (cf & Hcf & w1 & Hrs).
  destruct (Forall2_In_r _ _ _ F1 cf Hcf) as (n & Hn & g & c & -> & Hso). destruct (laid_out_exists rd c) as [L HL].
  unfold read_sheet in Hrs. destruct (headings_of f rd c n g) as [|h0 hs0] eqn:Eh.
  { injection Hrs as <- _. cbn [si_lines] in Hj. destruct j; discriminate. }
  destruct (lines_in f rd c g) as [lns w2|] eqn:El; [|discriminate]. cbn [bind ret] in Hrs. injection Hrs as <- _. cbn [si_name si_headings si_lines] in *.
  pose proof (Hloc n g c L Hso HL) as Hlo.
  assert (Hcell : cell_at g (ly_first L + j) k = raw).
  { eapply lines_located; try eassumption. eapply stored_not_blank. exact Hst. }
  assert (Hrd : is_read f (ly_conf L) n).
  { pose proof (laid_out_conf _ _ _ HL) as Hcc. unfold is_read. destruct f; cbn [headings_of] in Eh; [unfold csv_headings in Eh|unfold xlsx_headings in Eh|unfold ods_headings in Eh]; rewrite Hcc in Eh.
    - destruct (sc_ignore (ly_conf L)); [discriminate|]. auto.
    - destruct (sc_ignore (ly_conf L)); [discriminate|]. split; [reflexivity|]. right. unfold hash_sheet in Eh. destruct (sc_hash (ly_conf L)); [|left; reflexivity]. right.
      destruct n as [|ch n]; [exact I|]. intros ->. cbn in Eh. destruct n; discriminate Eh.
    - destruct (sc_ignore (ly_conf L)); [discriminate|]. split; [reflexivity|]. right. unfold hash_sheet in Eh. destruct (sc_hash (ly_conf L)); [|left; reflexivity]. right.
      destruct n as [|ch n]; [exact I|]. intros ->. cbn in Eh. destruct n; discriminate Eh. }
  exists g, c, L, (ly_first L + j)%nat, k, x. rewrite Hsn. split; [exact Hso|]. split; [exact HL|]. split; [rewrite Hrow; lia|].
  split; [rewrite Hov in Hcol; exact Hcol|]. split; [|rewrite Hcell; split; [exact Hst|exact Hx]].
  destruct Hlo as (Ha & Hb' & _). rewrite <- (headings_cells f rd c g n L Hv HL Hrd Ha Hb'). rewrite Eh. symmetry. apply nth_of_error. exact Hhd.
Qed.
(** sheets that are not to be read give nothing *)
Lemma not_read f rd b sheets w s : read_book f rd b = Ok sheets w -> In s sheets ->
  exists g c L, sheet_of f b (si_name s) g c /\ laid_out rd c L /\ (~ is_read f (ly_conf L) (si_name s) -> si_lines s = []).
Proof.
  intros Hb Hs. destruct (read_book_inv _ _ _ _ _ Hb) as (confs & F1 & F2). destruct (Forall2_In_r _ _ _ F2 s Hs) as (cf & Hcf & w1 & Hrs).
  destruct (Forall2_In_r _ _ _ F1 cf Hcf) as (n & Hn & g & c & -> & Hso). destruct (laid_out_exists rd c) as [L HL]. exists g, c, L.
  unfold read_sheet in Hrs. destruct (headings_of f rd c n g) as [|h0 hs0] eqn:Eh.
  { injection Hrs as <- _. cbn [si_lines si_name]. auto. }
  destruct (lines_in f rd c g) as [lns w2|] eqn:El; [|discriminate]. cbn [bind ret] in Hrs. injection Hrs as <- _. cbn [si_name si_headings si_lines] in *.
  split; [exact Hso|]. split; [exact HL|]. intros Hn'. exfalso. apply Hn'. clear Hn'.
  pose proof (laid_out_conf _ _ _ HL) as Hcc. unfold is_read. destruct f; cbn [headings_of] in Eh; [unfold csv_headings in Eh|unfold xlsx_headings in Eh|unfold ods_headings in Eh]; rewrite Hcc in Eh.
  - destruct (sc_ignore (ly_conf L)); [discriminate|]. auto.
  - destruct (sc_ignore (ly_conf L)); [discriminate|]. split; [reflexivity|]. right. unfold hash_sheet in Eh. destruct (sc_hash (ly_conf L)); [|left; reflexivity]. right.
    destruct n as [|ch n]; [exact I|]. intros ->. cbn in Eh. destruct n; discriminate Eh.
  - destruct (sc_ignore (ly_conf L)); [discriminate|]. split; [reflexivity|]. right. unfold hash_sheet in Eh. destruct (sc_hash (ly_conf L)); [|left; reflexivity]. right.
    destruct n as [|ch n]; [exact I|]. intros ->. cbn in Eh. destruct n; discriminate Eh.
Qed.
