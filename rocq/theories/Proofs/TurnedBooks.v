(** Workbooks read by columns: the JSON, the locations. *)
From Coq Require Import Lia.
From Verif.Base Require Import PyStr PyNum PyVal PyDict Outcome.
From Verif.Model Require Import Warn Lib Convert Input Readers SourceMap.
From Verif.Spec Require Import Columns Source Maps Grids Turned.
From Verif.Proofs Require Import TreeInd EmbedFacts MapSound ReaderFacts LocationFacts Erase EraseRun TurnedFacts.
Local Open Scope res_scope.

(** ** The orientation matters for the locations only *)
Section Oriented.
  Variables (O : opts) (v : bool).
  Let O' := oriented_opts v O.
  Notation lst := (lst f0).
  Lemma line_cells_v sheet hs j line : forall k, rmap (lline f0) (line_cells O sheet hs j k line) = rmap (lline f0) (line_cells O' sheet hs j k line).
  Proof.
    induction line as [|[h x] line IH]; intros k; cbn [line_cells]; [reflexivity|]. cbv zeta. rewrite !rmap_bind. apply bind_ext. intros heading. rewrite !rmap_bind. specialize (IH (k + 1)%N).
    destruct (line_cells O sheet hs j (k + 1)%N line) as [a w|e w], (line_cells O' sheet hs j (k + 1)%N line) as [a' w'|e' w']; cbn [rmap] in IH; inversion IH; subst; cbn [bind rmap ret]; [|reflexivity].
    f_equal. cbn [lline map fst snd]. f_equal. assumption.
  Qed.
  Lemma do_line_v sheet hs j line st st' : lst st = lst st' -> rmap lst (do_line O sheet hs j line st) = rmap lst (do_line O' sheet hs j line st').
  Proof.
    intros Hs. unfold do_line. destruct (forallb _ line); [cbn [rmap ret]; rewrite Hs; reflexivity|]. rewrite !rmap_bind. pose proof (line_cells_v sheet hs j line 0%N) as Hc.
    destruct (line_cells O sheet hs j 0%N line) as [a w|e w], (line_cells O' sheet hs j 0%N line) as [a' w'|e' w']; cbn [rmap] in Hc; inversion Hc as [[H0 H1]]; subst; cbn [bind]; [|reflexivity].
    assert (G : rmap lst (d <- unflatten_row (o_conv O) (o_types O) (o_xml O) (o_id_name O) a ;; place O sheet (line_root O line) d st) =
                rmap lst (d <- unflatten_row (o_conv O) (o_types O) (o_xml O) (o_id_name O) a' ;; place O sheet (line_root O line) d st')).
    { rewrite !rmap_bind. pose proof (unflatten_row_loc f0 (o_conv O) (o_types O) (o_xml O) (o_id_name O)) as U. pose proof (U a) as Ua. pose proof (U a') as Ua'. rewrite H0 in Ua. rewrite Ua in Ua'. clear U Ua.
      destruct (unflatten_row (o_conv O) (o_types O) (o_xml O) (o_id_name O) a) as [d w1|e w1], (unflatten_row (o_conv O) (o_types O) (o_xml O) (o_id_name O) a') as [d' w1'|e' w1']; cbn [rmap] in Ua'; inversion Ua' as [[D0 D1]]; subst; cbn [bind]; [|reflexivity].
      rewrite <- !(place_loc f0 f0_heading). rewrite D0, Hs. reflexivity. }
    change (place O' sheet (line_root O' line)) with (place O sheet (line_root O line)). change (o_conv O') with (o_conv O). change (o_types O') with (o_types O). change (o_xml O') with (o_xml O). change (o_id_name O') with (o_id_name O).
    match goal with |- match rmap lst ?a with _ => _ end = match rmap lst ?b with _ => _ end => assert (E : rmap lst a = rmap lst b) by exact G; rewrite E end. reflexivity.
  Qed.
  Lemma do_lines_v sheet hs lines : forall j st st', lst st = lst st' -> rmap lst (do_lines O sheet hs j lines st) = rmap lst (do_lines O' sheet hs j lines st').
  Proof.
    induction lines as [|line lines IH]; intros j st st' Hs; cbn [do_lines]; [cbn [rmap ret]; rewrite Hs; reflexivity|]. rewrite !rmap_bind. pose proof (do_line_v sheet hs j line st st' Hs) as Hc.
    destruct (do_line O sheet hs j line st) as [a w|e w], (do_line O' sheet hs j line st') as [a' w'|e' w']; cbn [rmap] in Hc; inversion Hc as [[H0 H1]]; subst; cbn [bind]; [|reflexivity].
    rewrite (IH (j + 1)%N a a' H0). reflexivity.
  Qed.
  Lemma do_sheets_v sheets : forall st st', lst st = lst st' -> rmap lst (do_sheets O sheets st) = rmap lst (do_sheets O' sheets st').
  Proof.
    induction sheets as [|s sheets IH]; intros st st' Hs; cbn [do_sheets]; [cbn [rmap ret]; rewrite Hs; reflexivity|]. rewrite !rmap_bind.
    assert (Hc : rmap lst (do_sheet O s st) = rmap lst (do_sheet O' s st')).
    { unfold do_sheet. destruct (si_headings s) as [[|h hs]|]; [cbn [rmap ret]; rewrite Hs; reflexivity| |apply do_lines_v; exact Hs].
      rewrite !rmap_bind. apply bind_ext. intros _. apply do_lines_v. exact Hs. }
    destruct (do_sheet O s st) as [a w|e w], (do_sheet O' s st') as [a' w'|e' w']; cbn [rmap] in Hc; inversion Hc as [[H0 H1]]; subst; cbn [bind]; [|reflexivity].
    rewrite (IH a a' H0). reflexivity.
  Qed.
  Theorem orientation_json sheets : unflatten O sheets = unflatten O' sheets.
  Proof.
    pose proof (do_sheets_v sheets [] [] eq_refl) as H. unfold unflatten, do_unflatten.
    assert (E : forall st : main_state, map dict_to_v (flat_map (fun rt => map dict_to_j (temp_items (snd rt))) st) = flat_map (fun rt => map tvd (temp_items (snd rt))) (lst st)).
    { intros st. induction st as [|[r t] st IH]; [reflexivity|]. cbn [flat_map lst vals map fst snd]. rewrite map_app. f_equal; [|exact IH].
      unfold temp_items, ltt, vals. cbn [fst snd]. rewrite !map_app, !map_map. f_equal; apply map_ext; intros x; cbn [fst snd]; rewrite tvd_loc; apply dict_to_v_j. }
    destruct (do_sheets O sheets []) as [a w|e w], (do_sheets O' sheets []) as [a' w'|e' w']; cbn [rmap] in H; inversion H as [[H0 H1]]; subst; cbn [bind ret]; [|reflexivity].
    rewrite !E, H0. reflexivity.
  Qed.
End Oriented.

(** ** Workbooks without configuration rows *)
Lemma no_conf_row f g : f <> Csv -> cell_at g 0 0 <> SStr (u "#") -> get_conf f g = ret [].
Proof.
  intros Hf Hc. destruct f; [contradiction| |]; cbn [get_conf].
  - unfold xlsx_conf. assert (E : nth 0 (xlsx_row g 0) SNone = cell_at g 0 0).
    { destruct g as [|r g]; [reflexivity|]. change (xlsx_row (r :: g) 0) with (pad (width (r :: g)) r). rewrite nth_pad. reflexivity. }
    destruct (xlsx_row g 0) as [|[| | | | |h|] rest]; try reflexivity. cbn [nth] in E. destruct (str_eqb_spec h (u "#")) as [->|]; [congruence|reflexivity].
  - unfold ods_conf. destruct g as [|[|[| | | | |h|] rest] g]; try reflexivity. unfold cell_at in Hc. cbn [nth_error nth] in Hc. destruct (str_eqb_spec h (u "#")) as [->|]; [congruence|reflexivity].
Qed.
Lemma reader_same f rd rd' c name g : conf_of rd c = conf_of rd' c -> rd_vertical rd = rd_vertical rd' ->
  headings_of f rd c name g = headings_of f rd' c name g /\ lines_in f rd c g = lines_in f rd' c g.
Proof.
  intros E1 E2. destruct f; cbn [headings_of lines_in]; unfold csv_headings, xlsx_headings, ods_headings, csv_lines, xlsx_lines, ods_lines; rewrite E1, ?E2; split; reflexivity.
Qed.
Lemma non_empty_all {A} (l : list (list A)) : ~ In [] l -> non_empty l = l.
Proof.
  unfold non_empty. induction l as [|x l IH]; intros H; [reflexivity|]. cbn [filter]. rewrite IH by (intros Hx; apply H; right; exact Hx).
  destruct x; [exfalso; apply H; left; reflexivity|reflexivity].
Qed.
Lemma sget_turned f b n : sget n (turned_book f b) = option_map (turned f 0) (sget n b).
Proof. unfold turned_book, sget. induction b as [|[k g] b IH]; [reflexivity|]. cbn [map aget fst snd]. destruct (str_eqb n k); [reflexivity|exact IH]. Qed.
Theorem turned_books f rd b : rd_vertical rd = true -> turnable f rd b -> read_book f rd b = read_book f (oriented false rd) (turned_book f b).
Proof.
  intros Hv [Hf Hb]. unfold read_book.
  assert (Ea : available f (turned_book f b) = available f b).
  { assert (E : map fst (turned_book f b) = map fst b) by (unfold turned_book; rewrite map_map; reflexivity). destruct f; cbn [available]; rewrite E; reflexivity. }
  rewrite Ea. change (select (oriented false rd)) with (select rd).
  assert (Hcf : forall n, configure f (turned_book f b) n = rmap (fun x => (fst (fst x), turned f 0 (snd (fst x)), snd x)) (configure f b n) /\
                          forall x w, configure f b n = Ok x w -> exists g, x = (n, g, empty_conf) /\ In (n, g) b).
  { intros n. unfold configure. rewrite sget_turned. destruct (sget n b) as [g|] eqn:Eg; cbn [option_map]; [|split; [reflexivity|discriminate]].
    apply sget_In in Eg. destruct (Hb n g Eg) as (Hh & Ho & Hr). rewrite (no_conf_row f g Hf Hh). rewrite no_conf_row; [|exact Hf|].
    - cbn. split; [reflexivity|]. intros x w H. injection H as <- _. exists g. split; [reflexivity|exact Eg].
    - rewrite turned_cells. unfold rows_below. cbn [skipn]. destruct f; try exact Hh. rewrite non_empty_all by (apply Ho; reflexivity). exact Hh. }
  assert (G : forall names, map_res (configure f (turned_book f b)) names = rmap (map (fun x => (fst (fst x), turned f 0 (snd (fst x)), snd x))) (map_res (configure f b) names) /\
            forall xs w, map_res (configure f b) names = Ok xs w -> forall x, In x xs -> exists n g, x = (n, g, empty_conf) /\ In (n, g) b).
  { induction names as [|n names [IH1 IH2]]; cbn [map_res]; [split; [reflexivity|intros xs w H; injection H as <- _; intros x []]|].
    destruct (Hcf n) as [C1 C2]. rewrite C1, IH1. destruct (configure f b n) as [x w|e w]; cbn [bind rmap]; [|split; [reflexivity|discriminate]].
    destruct (map_res (configure f b) names) as [xs w1|e w1]; cbn [bind rmap ret]; [|split; [reflexivity|discriminate]]. split; [reflexivity|].
    intros ys wy H. injection H as <- _. intros y [<-|Hy]; [destruct (C2 _ _ eq_refl) as (g & -> & Hi); exists n, g; split; [reflexivity|exact Hi]|apply (IH2 _ _ eq_refl y Hy)]. }
  destruct (G (select rd (available f b))) as [G1 G2]. rewrite G1. destruct (map_res (configure f b) _) as [xs w|e w]; [|reflexivity]. specialize (G2 xs w eq_refl). cbn [rmap bind].
  assert (E : map_res (read_sheet f rd) xs = map_res (read_sheet f (oriented false rd)) (map (fun x => (fst (fst x), turned f 0 (snd (fst x)), snd x)) xs)).
  { clear G1. induction xs as [|x xs IH]; [reflexivity|]. cbn [map map_res]. rewrite IH by (intros y Hy; apply G2; right; exact Hy).
    destruct (G2 x (or_introl eq_refl)) as (n & g & -> & Hi). cbn [fst snd]. destruct (Hb n g Hi) as (_ & _ & Hr). destruct (laid_out_exists rd empty_conf) as [L HL].
    destruct (turned_read f rd empty_conf 0 g L n Hv HL (or_introl (conj eq_refl eq_refl)) (Hr L HL)) as (_ & E1 & E2).
    destruct (reader_same f (by_rows rd (ly_conf L)) (oriented false rd) empty_conf n (turned f 0 g)) as [S1 S2]; [|reflexivity|].
    - rewrite <- (laid_out_conf _ _ _ HL). unfold conf_of. cbn [by_rows oriented rd_use rd_base sc_any empty_conf]. destruct (rd_use rd); reflexivity.
    - assert (E : read_sheet f rd (n, g, empty_conf) = read_sheet f (oriented false rd) (n, turned f 0 g, empty_conf)) by (unfold read_sheet; rewrite E1, E2, S1, S2; reflexivity).
      rewrite E. reflexivity. }
  rewrite E. reflexivity.
Qed.
Theorem turned_json O f rd b : rd_vertical rd = true -> turnable f rd b ->
  (s <- read_book f rd b ;; unflatten (oriented_opts true O) s) = (s <- read_book f (oriented false rd) (turned_book f b) ;; unflatten (oriented_opts false O) s).
Proof.
  intros Hv Hb. rewrite (turned_books f rd b Hv Hb). apply bind_ext. intros s. rewrite <- !orientation_json. reflexivity.
Qed.

(** ** Locations *)
Theorem located_across O F f rd b sheets w0 r m mh w : rd_vertical rd = true -> o_vertical O = true ->
  read_book f rd b = Ok sheets w0 -> fancy_unflatten O F sheets = Ok (r, Some m, mh) w ->
  (forall name g c n L, sheet_of f b name g c -> laid_out rd c L -> conf_rows c n -> readable_across f n g L /\ locatable f (turned f n g) (across n L)) ->
  forall p v ls l, leaf r p v -> In (place_text F p, ECells ls) m -> In l ls ->
  exists g c n L i j x, sheet_of f b (l_sheet l) g c /\ laid_out rd c L /\ conf_rows c n /\
    l_col l = N_str (N.of_nat i + 1)%N /\ (l_row l + N.of_nat (ly_first L) = N.of_nat (n + j) + 2)%N /\
    l_heading l = cell_at (rows_below f n g) i (ly_heading L - n) /\
    stored (o_conv O) (o_types O) (CV (cell_at (rows_below f n g) i j)) x /\ (x = v \/ cv_eqb v x = true).
Proof.
  intros Hv Hov Hb Hf Hloc p v ls l Hp Hm Hl.
  destruct (cell_map_sound O F sheets r m mh w Hf) as (_ & Hnd & _ & _ & Hc).
  destruct (Hc p v Hp) as (ls' & Hm' & _ & Hall).
  assert (Els : ls' = ls).
  { apply (In_sget _ _ _ Hnd) in Hm. apply (In_sget _ _ _ Hnd) in Hm'. congruence. }
  subst ls'. destruct (Hall l Hl) as (raw & x & Hraw & Hst & Hx).
  destruct Hraw as (s & j & k & lin & key & Hs & Hj & Hk & Hsn & Hrow & Hcol & Hhd).
  destruct (read_book_inv _ _ _ _ _ Hb) as (confs & F1 & F2). destruct (Forall2_In_r _ _ _ F2 s Hs) as (cf & Hcf & w1 & Hrs).
  destruct (Forall2_In_r _ _ _ F1 cf Hcf) as (nm & Hnm & g & c & -> & Hso). destruct (laid_out_exists rd c) as [L HL].
  set (n := conf_line c). assert (Hn : conf_rows c n).
  { unfold n, conf_line, conf_rows. destruct (sc_any c) eqn:E; [right; split; [intros ->; discriminate|reflexivity]|left; split; [apply sc_any_iff; exact E|reflexivity]]. }
  destruct (Hloc nm g c n L Hso HL Hn) as [Hra Hlo]. destruct (turned_read f rd c n g L nm Hv HL Hn Hra) as (HL' & E1 & E2). set (rd' := by_rows rd (ly_conf L)) in *.
  destruct (laid_out_rows _ _ _ HL) as [R1 R2]. fold n in R1.
  unfold read_sheet in Hrs. destruct (headings_of f rd c nm g) as [|h0 hs0] eqn:Eh.
  { injection Hrs as <- _. cbn [si_lines] in Hj. destruct j; discriminate. }
  destruct (lines_in f rd c g) as [lns w2|] eqn:El; [|discriminate]. cbn [bind ret] in Hrs. injection Hrs as <- _. cbn [si_name si_headings si_lines] in *.
  assert (Hcell : cell_at (turned f n g) (ly_first (across n L) + j) k = raw).
  { eapply (lines_located f rd' empty_conf); try eassumption; [reflexivity|rewrite <- E2; reflexivity|]. eapply stored_not_blank. exact Hst. }
  assert (Hrd : is_read f (ly_conf L) nm).
  { pose proof (laid_out_conf _ _ _ HL) as Hcc. unfold is_read. destruct f; cbn [headings_of] in Eh; [unfold csv_headings in Eh|unfold xlsx_headings in Eh|unfold ods_headings in Eh]; rewrite Hcc in Eh.
    - destruct (sc_ignore (ly_conf L)); [discriminate|]. auto.
    - destruct (sc_ignore (ly_conf L)); [discriminate|]. split; [reflexivity|]. right. unfold hash_sheet in Eh. destruct (sc_hash (ly_conf L)); [|left; reflexivity]. right.
      destruct nm as [|ch nm]; [exact I|]. intros ->. cbn in Eh. destruct nm; discriminate Eh.
    - destruct (sc_ignore (ly_conf L)); [discriminate|]. split; [reflexivity|]. right. unfold hash_sheet in Eh. destruct (sc_hash (ly_conf L)); [|left; reflexivity]. right.
      destruct nm as [|ch nm]; [exact I|]. intros ->. cbn in Eh. destruct nm; discriminate Eh. }
  rewrite turned_cells in Hcell. cbn [across ly_first] in Hcell.
  exists g, c, n, L, k, (ly_first L - n + j)%nat, x. rewrite Hsn. split; [exact Hso|]. split; [exact HL|]. split; [exact Hn|].
  split; [rewrite Hov in Hcol; cbn [column_name] in Hcol; rewrite Hcol; f_equal|]. split; [rewrite Hrow; lia|]. split; [|rewrite Hcell; split; [exact Hst|exact Hx]].
  destruct Hlo as (Ha & Hb' & _). pose proof (headings_cells f rd' empty_conf (turned f n g) nm (across n L) eq_refl HL' Hrd Ha Hb' k) as Hh. rewrite turned_cells in Hh. cbn [across ly_heading] in Hh.
  rewrite <- Hh, <- E1. symmetry. apply nth_of_error. exact Hhd.
Qed.
