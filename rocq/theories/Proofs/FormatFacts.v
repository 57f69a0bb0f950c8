(** The three readers deliver the same data; sheet selection; configuration rows. *)
From Coq Require Import Sorted Permutation Lia.
From Verif.Base Require Import PyStr PyNum PyVal PyDict Outcome.
From Verif.Model Require Import Warn Lib Convert Input Readers SourceMap.
From Verif.Spec Require Import Columns Filled Source SheetConf Grids.
From Verif.Proofs Require Import EraseRun ReaderFacts LocationFacts SheetConfFacts.

(** ** One line of a tidy sheet *)
Definition tcell (a : str) (v : scalar) : fcell := {| fc_key := SStr a; fc_heading := SStr a; fc_value := v |}.
Fixpoint canon_cells (A : list str) (row : list scalar) : list fcell :=
  match A with
  | [] => []
  | a :: A' => let v := nth 0 row SNone in (if blank v then [] else [tcell a v]) ++ canon_cells A' (tl row)
  end.
Lemma canon_cells_nil A : canon_cells A [] = [].
Proof. induction A as [|a A IH]; [reflexivity|]. cbn. exact IH. Qed.
Lemma canon_cells_ext A : forall r r', (forall j, nth j r SNone = nth j r' SNone \/ blank (nth j r SNone) = true /\ blank (nth j r' SNone) = true) -> canon_cells A r = canon_cells A r'.
Proof.
  induction A as [|a A IH]; intros r r' H; [reflexivity|]. cbn [canon_cells]. rewrite (IH (tl r) (tl r')).
  - pose proof (H 0%nat) as H0. f_equal. destruct H0 as [->|[-> ->]]; reflexivity.
  - intros j. specialize (H (S j)). destruct r, r'; exact H || (destruct j; exact H).
Qed.

(** the cells of a line: under the headings [A] the values of [row], further cells blank *)
Inductive tcells : list str -> list scalar -> list (scalar * scalar) -> Prop :=
| tc_rest row cells : Forall (fun hv => blank (fst hv) = true /\ blank (snd hv) = true) cells -> tcells [] row cells
| tc_short A row : (forall j, blank (nth j row SNone) = true) -> tcells A row []
| tc_cell a A row cells : tcells A (tl row) cells -> tcells (a :: A) row ((SStr a, nth 0 row SNone) :: cells).

Lemma blank_key_neq h s : blank h = true -> s <> [] -> py_eqb h (SStr s) = false.
Proof. destruct h as [| | | | |[|]|]; try discriminate; intros _ Hs; [reflexivity|]. cbn. destruct s; [contradiction|reflexivity]. Qed.
Lemma step_app C d hv : (forall k v, In (k, v) C -> py_eqb (fst hv) k = false) -> step (C ++ d) hv = C ++ step d hv.
Proof.
  unfold step, kset. induction C as [|[k v] C IH]; intros H; [reflexivity|]. cbn [app aset]. rewrite (H k v (or_introl eq_refl)). f_equal. apply IH. intros k' v' Hi. apply (H k' v'). right. exact Hi.
Qed.
Lemma fold_app C cells : forall d, (forall hv k v, In hv cells -> In (k, v) C -> py_eqb (fst hv) k = false) -> fold_left step cells (C ++ d) = C ++ fold_left step cells d.
Proof.
  induction cells as [|hv cells IH]; intros d H; [reflexivity|]. cbn [fold_left]. rewrite step_app by (intros k v Hi; apply (H hv k v); [left; reflexivity|exact Hi]).
  apply IH. intros x k v Hx. apply H. right. exact Hx.
Qed.
Lemma fold_blank cells : Forall (fun hv => blank (fst hv) = true /\ blank (snd hv) = true) cells -> forall d,
  Forall (fun hv => blank (fst hv) = true /\ blank (snd hv) = true) d -> Forall (fun hv => blank (fst hv) = true /\ blank (snd hv) = true) (fold_left step cells d).
Proof.
  induction 1 as [|[h v] cells [H1 H2] _ IH]; intros d Hd; [exact Hd|]. cbn [fold_left]. apply IH. rewrite Forall_forall in *. unfold step. cbn [fst snd] in *.
  intros [k x] Hi. apply kset_In in Hi as [Hi|[[-> ->]|(-> & _ & y & Hi)]]; [apply (Hd (k, x) Hi)|auto|]. cbn [fst snd]. split; [apply (Hd (k, y) Hi)|exact H2].
Qed.

Lemma make_line_cons a v cells : (forall hv, In hv cells -> py_eqb (fst hv) (SStr a) = false) -> make_line ((SStr a, v) :: cells) = (SStr a, v) :: make_line cells.
Proof.
  intros H. unfold make_line. cbn [fold_left]. change (fold_left (fun d hv => kset (fst hv) (snd hv) d) cells (kset (fst (SStr a, v)) (snd (SStr a, v)) [])) with (fold_left step cells ([(SStr a, v)] ++ [])).
  rewrite fold_app; [reflexivity|]. intros hv k w Hi [[= <- <-]|[]]. apply H. exact Hi.
Qed.
Lemma tcells_keys A row cells : tcells A row cells -> forall hv, In hv cells -> blank (fst hv) = true \/ exists a, In a A /\ fst hv = SStr a.
Proof.
  induction 1 as [row cells H|A row H|a A row cells _ IH]; intros hv Hi; [left; rewrite Forall_forall in H; apply (H hv Hi)|destruct Hi|].
  destruct Hi as [<-|Hi]; [right; exists a; split; [left; reflexivity|reflexivity]|]. destruct (IH hv Hi) as [Hb|(x & Hx & E)]; [left; exact Hb|right; exists x; split; [right; exact Hx|exact E]].
Qed.
Lemma headed_blank d : Forall (fun hv => blank (fst hv) = true /\ blank (snd hv) = true) d -> forall H, filled (Some H) d = [].
Proof.
  unfold filled. induction 1 as [|[k v] d [_ Hv] _ IH]; intros H; [reflexivity|]. cbn [headed]. destruct H as [|h H]; [reflexivity|]. cbn [filter fc_value snd] in *. rewrite Hv. apply IH.
Qed.
Lemma canon_blank A : forall row, (forall j, blank (nth j row SNone) = true) -> canon_cells A row = [].
Proof. induction A as [|a A IH]; intros row H; [reflexivity|]. cbn [canon_cells]. rewrite (H 0%nat). apply IH. intros j. specialize (H (S j)). destruct row; [destruct j; exact H|exact H]. Qed.
Lemma tcells_filled A row cells : NoDup A -> (forall a, In a A -> a <> []) -> tcells A row cells -> forall H,
  (exists t, H = map SStr A ++ t) -> filled (Some H) (make_line cells) = canon_cells A row.
Proof.
  intros Hn Ha Ht. induction Ht as [row cells Hb|A row Hb|a A row cells Ht IH]; intros H [t HH].
  - apply headed_blank. apply fold_blank; [exact Hb|constructor].
  - rewrite canon_blank by exact Hb. reflexivity.
  - inversion Hn as [|? ? Hni Hn']; subst. rewrite make_line_cons.
    + cbn [map app]. unfold filled. cbn [headed filter fc_value]. cbn [canon_cells]. cbv zeta.
      specialize (IH Hn' (fun x Hx => Ha x (or_intror Hx)) (map SStr A ++ t) (ex_intro _ t eq_refl)). unfold filled in IH. rewrite IH. destruct (blank (nth 0 row SNone)); reflexivity.
    + intros hv Hi. destruct (tcells_keys _ _ _ Ht hv Hi) as [Hb|(x & Hx & E)]; [apply blank_key_neq; [exact Hb|apply Ha; left; reflexivity]|]. rewrite E. cbn.
      destruct (str_eqb_spec x a) as [->|]; [contradiction|reflexivity].
Qed.
Lemma tcells_root A row cells r : NoDup A -> (forall a, In a A -> a <> []) -> tcells A row cells -> r <> [] ->
  (~ In r A -> kget (SStr r) (make_line cells) = None) /\
  (forall k, nth_error A k = Some r -> blank (nth k row SNone) = false -> kget (SStr r) (make_line cells) = Some (nth k row SNone)).
Proof.
  intros Hn Ha Ht Hr. induction Ht as [row cells Hb|A row Hb|a A row cells Ht IH].
  - split; [|intros [|k]; discriminate]. intros _. apply kget_None_keys. intros k v Hi.
    assert (Hf : Forall (fun hv => blank (fst hv) = true /\ blank (snd hv) = true) (make_line cells)) by (apply fold_blank; [exact Hb|constructor]).
    rewrite Forall_forall in Hf. destruct (Hf _ Hi) as [Hk _]. cbn [fst] in Hk. destruct k as [| | | | |[|]|]; try discriminate; cbn; destruct r; [contradiction|reflexivity|contradiction|reflexivity].
  - split; [intros _; reflexivity|]. intros k _ H. rewrite Hb in H. discriminate.
  - inversion Hn as [|? ? Hni Hn']; subst. rewrite make_line_cons.
    + destruct (IH Hn' (fun x Hx => Ha x (or_intror Hx))) as [I1 I2]. split.
      * intros Hni'. unfold kget. cbn [aget]. cbn [py_eqb num_val]. destruct (str_eqb_spec r a) as [->|]; [exfalso; apply Hni'; left; reflexivity|]. apply I1. intros Hi. apply Hni'. right. exact Hi.
      * intros [|k] Hk Hbk; cbn [nth_error] in Hk.
        -- injection Hk as ->. unfold kget. cbn [aget]. cbn [py_eqb num_val]. rewrite str_eqb_refl. reflexivity.
        -- assert (Hne : r <> a) by (intros ->; apply Hni; eapply nth_error_In; exact Hk). unfold kget. cbn [aget]. cbn [py_eqb num_val]. destruct (str_eqb_spec r a); [contradiction|].
           assert (En : nth (S k) row SNone = nth k (tl row) SNone) by (destruct row; [destruct k; reflexivity|reflexivity]). rewrite En in *. apply I2; assumption.
    + intros hv Hi. destruct (tcells_keys _ _ _ Ht hv Hi) as [Hb|(x & Hx & E)]; [apply blank_key_neq; [exact Hb|apply Ha; left; reflexivity]|]. rewrite E. cbn.
      destruct (str_eqb_spec x a) as [->|]; [contradiction|reflexivity].
Qed.

(** the three readers' cells are such cells *)
Definition tidy_row (A : list str) (row : list scalar) : Prop := forall j, (length A <= j)%nat -> blank (nth j row SNone) = true.
Lemma tidy_row_tl a A row : tidy_row (a :: A) row -> tidy_row A (tl row).
Proof. intros H j Hj. specialize (H (S j) ltac:(cbn; lia)). destruct row; [destruct j; exact H|exact H]. Qed.
Definition heads (A : list str) (hs : list scalar) : Prop := exists t, hs = map SStr A ++ t /\ Forall (fun h => blank h = true) t.
Lemma csv_tcells A hs : heads A hs -> forall row, tidy_row A row -> tcells A row (csv_cells hs row).
Proof.
  intros (t & -> & Ht). induction A as [|a A IH]; intros row Hr; cbn [map app].
  - apply tc_rest. assert (Hr' : forall j, blank (nth j row SNone) = true) by (intros j; apply Hr; cbn; lia). clear Hr. revert row Hr'. induction Ht as [|h t Hh _ IH]; intros row Hr; cbn [csv_cells]; [constructor|].
    destruct row as [|v row]; (constructor; [cbn [fst snd]; split; [exact Hh|]|]).
    + reflexivity.
    + apply IH. intros j. destruct j; reflexivity.
    + exact (Hr 0%nat).
    + apply IH. intros j. exact (Hr (S j)).
  - cbn [csv_cells]. specialize (IH (tl row) (tidy_row_tl _ _ _ Hr)). destruct row as [|v row]; apply (tc_cell a A _ _ IH).
Qed.
Lemma pad_tl w row : row <> [] -> pad (S w) row = hd SNone row :: pad w (tl row).
Proof. destruct row as [|v row]; [contradiction|]. reflexivity. Qed.
Lemma counts_head f e a : a <> [] -> (sc_hash e = true -> hd 0%N a <> 35%N) -> heading_counts f e (SStr a) = true.
Proof.
  intros Ha Hh. destruct f; [reflexivity| |]; unfold heading_counts; cbn [falsy]; destruct a as [|c a]; try contradiction; cbn [negb andb]; destruct (sc_hash e); cbn [andb negb]; try reflexivity;
    specialize (Hh eq_refl); cbn [hd] in Hh; apply N.eqb_neq in Hh; rewrite Hh; reflexivity.
Qed.
Lemma counts_blank f e h : f <> Csv -> blank h = true -> heading_counts f e h = false.
Proof. intros Hf Hb. destruct h as [| | | | |[|]|]; try discriminate; destruct f; try contradiction; reflexivity. Qed.
Lemma masked_tcells f e A hs : f <> Csv -> (forall a, In a A -> a <> [] /\ (sc_hash e = true -> hd 0%N a <> 35%N)) -> heads A hs -> forall row, tidy_row A row ->
  tcells A row (map (fun hv => (fst hv, if heading_counts f e (fst hv) then snd hv else SNone)) (combine hs row)).
Proof.
  intros Hf Ha (t & -> & Ht). induction A as [|a A IH]; intros row Hr; cbn [map app].
  - apply tc_rest. clear Hr. revert row. induction Ht as [|h t Hh _ IH]; intros row; cbn [combine]; [constructor|]. destruct row as [|v row]; [constructor|]. cbn [map fst snd].
    constructor; [|apply IH]. cbn [fst snd]. rewrite counts_blank by assumption. split; [exact Hh|reflexivity].
  - destruct row as [|v row]; cbn [combine map fst snd]; [apply tc_short; intros [|j]; reflexivity|].
    rewrite counts_head by apply Ha, (or_introl eq_refl). apply (tc_cell a A (v :: row)). apply IH; [intros x Hx; apply Ha; right; exact Hx|apply (tidy_row_tl _ _ _ Hr)].
Qed.
Lemma tcells_row A : forall row row' cells, (forall j, nth j row SNone = nth j row' SNone) -> tcells A row cells -> tcells A row' cells.
Proof.
  intros row row' cells E H. revert row' E. induction H as [row cells H|A row H|a A row cells _ IH]; intros row' E.
  - apply tc_rest. exact H.
  - apply tc_short. intros j. rewrite <- E. apply H.
  - rewrite (E 0%nat). apply tc_cell. apply IH. intros j. specialize (E (S j)). destruct row, row'; exact E || (destruct j; exact E).
Qed.
Lemma heads_pad A hs w : heads A hs -> heads A (pad w hs).
Proof. intros (t & -> & Ht). exists (t ++ repeat SNone (w - length (map SStr A ++ t))). unfold pad. rewrite app_assoc. split; [reflexivity|]. apply Forall_app. split; [exact Ht|]. rewrite Forall_forall. intros h Hh. apply repeat_spec in Hh. subst. reflexivity. Qed.
Lemma tidy_heads e g L A : tidy e g L A -> heads A (row_at g (ly_heading L)).
Proof.
  intros (_ & Hs & Hh & Hb). assert (E : forall j, cell_at g (ly_heading L) j = nth j (row_at g (ly_heading L)) SNone).
  { intros j. unfold cell_at, row_at. destruct (nth_error g (ly_heading L)); [reflexivity|destruct j; reflexivity]. }
  assert (Hh' : forall j, (j < length A)%nat -> nth j (row_at g (ly_heading L)) SNone = SStr (nth j A [])) by (intros j Hj; rewrite <- E; apply Hh; exact Hj).
  assert (Hb' : forall j, (length A <= j)%nat -> blank (nth j (row_at g (ly_heading L)) SNone) = true) by (intros j Hj; rewrite <- E; apply Hb; [exact Hj|left; reflexivity]).
  clear - Hs Hh' Hb'. revert Hs Hh' Hb'. generalize (row_at g (ly_heading L)) as hs. induction A as [|a A IH]; intros hs Hs Hh Hb.
  - exists hs. split; [reflexivity|]. rewrite Forall_forall. intros h Hi. apply (In_nth _ _ SNone) in Hi as (j & _ & <-). apply Hb. cbn. lia.
  - destruct hs as [|h hs].
    + specialize (Hh 0%nat ltac:(cbn; lia)). discriminate.
    + pose proof (Hh 0%nat ltac:(cbn; lia)) as H0. cbn [nth] in H0. subst h. destruct (IH hs) as (t & -> & Ht).
      * intros s Hi. apply Hs. right. exact Hi.
      * intros j Hj. specialize (Hh (S j) ltac:(cbn; lia)). exact Hh.
      * intros j Hj. specialize (Hb (S j) ltac:(cbn; lia)). exact Hb.
      * exists t. split; [reflexivity|exact Ht].
Qed.

(** ** The rows of a tidy sheet *)
Definition troot (O : opts) (A : list str) (row : list scalar) : scalar :=
  match o_root_id O with
  | [] => SNone
  | r => match kget (SStr r) (combine (map SStr A) row) with Some v => v | None => SNone end
  end.
Definition canon_row (O : opts) (name : str) (A : list str) (row : list scalar) : list Filled.frow :=
  match canon_cells A row with
  | [] => []
  | c => [{| fr_sheet := name; fr_root := troot O A row; fr_cells := c |}]
  end.
Definition canon_sheet (O : opts) (name : str) (A : list str) (rows : list (list scalar)) : list Filled.frow := flat_map (canon_row O name A) rows.

Definition rooted_row (O : opts) (A : list str) (row : list scalar) : Prop :=
  o_root_id O = [] \/ ~ In (o_root_id O) A \/
  exists k, nth_error A k = Some (o_root_id O) /\ forall j, blank (nth j row SNone) = false -> blank (nth k row SNone) = false.
Lemma kget_combine A : NoDup A -> forall r row, (~ In r A -> kget (SStr r) (combine (map SStr A) row) = None) /\
  (forall k, nth_error A k = Some r -> blank (nth k row SNone) = false -> kget (SStr r) (combine (map SStr A) row) = Some (nth k row SNone)).
Proof.
  induction 1 as [|a A Hni _ IH]; intros r row; cbn [map combine]; [split; [reflexivity|intros [|k]; discriminate]|].
  destruct row as [|v row]; [split; [reflexivity|]; intros [|k] _ H; discriminate|]. unfold kget in *. cbn [aget py_eqb num_val]. destruct (IH r row) as [I1 I2]. split.
  - intros Hn. destruct (str_eqb_spec r a) as [->|]; [exfalso; apply Hn; left; reflexivity|]. apply I1. intros Hi. apply Hn. right. exact Hi.
  - intros [|k] Hk Hb; cbn [nth_error nth] in *; [injection Hk as ->; rewrite str_eqb_refl; reflexivity|].
    destruct (str_eqb_spec r a) as [->|]; [exfalso; apply Hni; eapply nth_error_In; exact Hk|]. apply I2; assumption.
Qed.
Lemma canon_some A : forall row c cs, canon_cells A row = c :: cs -> exists j, blank (nth j row SNone) = false.
Proof.
  induction A as [|a A IH]; intros row c cs H; [discriminate|]. cbn [canon_cells] in H. cbv zeta in H. destruct (blank (nth 0 row SNone)) eqn:E; [|exists 0%nat; exact E].
  cbn [app] in H. destruct (IH _ _ _ H) as [j Hj]. exists (S j). destruct row; [destruct j; exact Hj|exact Hj].
Qed.
Lemma line_canon O name A row cells H : NoDup A -> (forall a, In a A -> a <> []) -> tcells A row cells -> rooted_row O A row ->
  (exists t, H = map SStr A ++ t) ->
  match filled (Some H) (make_line cells) with [] => [] | c => [{| fr_sheet := name; fr_root := line_root O (make_line cells); fr_cells := c |}] end = canon_row O name A row.
Proof.
  intros Hn Ha Ht Hr HH. rewrite (tcells_filled A row cells Hn Ha Ht H HH). unfold canon_row. destruct (canon_cells A row) as [|c cs] eqn:E; [reflexivity|]. do 2 f_equal.
  unfold line_root, troot. destruct (o_root_id O) as [|x rid] eqn:Er; [reflexivity|]. rewrite <- Er. assert (Hne : o_root_id O <> []) by (rewrite Er; discriminate).
  destruct (tcells_root A row cells (o_root_id O) Hn Ha Ht Hne) as [T1 T2]. destruct (kget_combine A Hn (o_root_id O) row) as [K1 K2].
  destruct Hr as [Hx|[Hx|(k & Hk & Hb)]]; [contradiction|rewrite T1, K1 by exact Hx; reflexivity|].
  destruct (canon_some _ _ _ _ E) as [j Hj]. specialize (Hb j Hj). rewrite (T2 k Hk Hb), (K2 k Hk Hb). reflexivity.
Qed.

Lemma row_cells_nth g i row : nth_error g i = Some row -> forall j, cell_at g i j = nth j row SNone.
Proof. intros H j. unfold cell_at. rewrite H. reflexivity. Qed.

Section Sheet.
  Variables (O : opts) (f : fmt) (rd : reader) (name : str) (g : grid) (c : sheet_conf) (L : layout) (A : list str).
  Hypothesis Hv : rd_vertical rd = false.
  Hypothesis HL : laid_out rd c L.
  Hypothesis Hlt : (ly_heading L < ly_first L)%nat.
  Hypothesis Ht : tidy (ly_conf L) g L A.
  Hypothesis Hro : rooted O g L A.
  Let e := ly_conf L.
  Let hs := row_at g (ly_heading L).

  Lemma A_texts : forall a, In a A -> a <> [] /\ (sc_hash e = true -> hd 0%N a <> 35%N).
  Proof. exact (proj1 (proj2 Ht)). Qed.
  Lemma data_row row : In row (skipn (ly_first L) g) -> tidy_row A row /\ rooted_row O A row.
  Proof.
    intros Hi. apply In_nth_error in Hi as [i Hi]. rewrite nth_error_skipn in Hi. pose proof (row_cells_nth _ _ _ Hi) as E. split.
    - intros j Hj. rewrite <- E. destruct Ht as (_ & _ & _ & Hb). apply Hb; [exact Hj|right; lia].
    - destruct Hro as [Hx|[Hx|(k & Hk & Hb)]]; [left; exact Hx|right; left; exact Hx|right; right]. exists k. split; [exact Hk|]. intros j Hj. rewrite <- E in Hj |- *. apply (Hb _ j); [lia|exact Hj].
  Qed.
  Lemma lines_canon H (mk : list scalar -> list (scalar * scalar)) rows : (exists t, H = map SStr A ++ t) -> (forall row, In row rows -> In row (skipn (ly_first L) g)) ->
    (forall row, tidy_row A row -> tcells A row (mk row)) ->
    flat_map (fun line => match filled (Some H) line with [] => [] | cs => [{| fr_sheet := name; fr_root := line_root O line; fr_cells := cs |}] end) (map (fun row => make_line (mk row)) rows)
    = canon_sheet O name A rows.
  Proof.
    intros HH Hin Hmk. unfold canon_sheet. induction rows as [|row rows IH]; [reflexivity|]. cbn [map flat_map]. rewrite IH by (intros r Hr; apply Hin; right; exact Hr). f_equal.
    destruct (data_row row (Hin row (or_introl eq_refl))) as [H1 H2]. apply line_canon; [exact (proj1 Ht)|intros a Ha; apply (A_texts a Ha)|apply Hmk; exact H1|exact H2|exact HH].
  Qed.
  Lemma canon_sheet_nil rows : (forall row, In row rows -> row = []) -> canon_sheet O name A rows = [].
  Proof. unfold canon_sheet. induction rows as [|row rows IH]; intros H; [reflexivity|]. cbn [flat_map]. rewrite (H row (or_introl eq_refl)). unfold canon_row. rewrite canon_cells_nil. apply IH. intros r Hr. apply H. right. exact Hr. Qed.

  Lemma ods_rows_canon rows ls w : (forall row, In row rows -> In row (skipn (ly_first L) g)) -> ods_rows e hs rows = Ok ls w ->
    flat_map (fun line => match filled (Some hs) line with [] => [] | cs => [{| fr_sheet := name; fr_root := line_root O line; fr_cells := cs |}] end) ls = canon_sheet O name A rows /\
    (forall l, In l ls -> (length l <= length hs)%nat).
  Proof.
    pose proof (tidy_heads _ _ _ _ Ht) as Hh. fold hs in Hh.
    assert (Hok : sc_hash e = true -> forall h, In h hs -> falsy h = true \/ exists s, h = SStr s).
    { intros _ h Hi. destruct Hh as (t & E & Hb). rewrite E in Hi. apply in_app_or in Hi as [Hi|Hi]; [apply in_map_iff in Hi as (s & <- & _); right; eauto|].
      rewrite Forall_forall in Hb. specialize (Hb h Hi). left. destruct h as [| | | | |[|]|]; try discriminate; reflexivity. }
    revert ls w. induction rows as [|row rows IH]; intros ls w Hin H; cbn [ods_rows] in H; [injection H as <- _; split; [reflexivity|intros l []]|].
    rewrite (ods_cells_counts e hs Hok row) in H. cbn [bind ret app] in H. destruct (ods_rows e hs rows) as [r wr|] eqn:Er; [|discriminate]. cbn [bind ret app] in H.
    destruct (IH r wr (fun x Hx => Hin x (or_intror Hx)) eq_refl) as [I1 I2]. set (cells := map _ (combine hs row)) in H.
    destruct (data_row row (Hin row (or_introl eq_refl))) as [H1 H2].
    assert (Hl : match filled (Some hs) (make_line cells) with [] => [] | cs => [{| fr_sheet := name; fr_root := line_root O (make_line cells); fr_cells := cs |}] end = canon_row O name A row).
    { apply line_canon; [exact (proj1 Ht)|intros a Ha; apply (A_texts a Ha)| |exact H2|destruct Hh as (t & E & _); exists t; exact E].
      apply (masked_tcells Ods e A hs); [discriminate|exact A_texts|exact Hh|exact H1]. }
    assert (Hlen : (length (make_line cells) <= length hs)%nat) by (etransitivity; [apply make_line_length|]; unfold cells; rewrite map_length, combine_length; lia).
    apply (f_equal (fun r => match r with Ok x _ => x | Raise _ _ => [] end)) in H. cbv beta iota in H. rewrite <- H. unfold canon_sheet in *. cbn [flat_map].
    destruct (forallb (fun kv => is_none (snd kv)) (make_line cells)) eqn:En.
    - split; [|exact I2]. rewrite I1. assert (Hz : canon_row O name A row = []).
      { rewrite <- Hl. unfold filled. assert (Hz : filter (fun c0 => negb (blank (fc_value c0))) (headed (Some hs) (make_line cells)) = []); [|rewrite Hz; reflexivity].
        clear - En. revert En. generalize (make_line cells) as l. generalize hs as H. intros H l. revert H. induction l as [|[k v] l IH]; intros H E; [reflexivity|]. cbn [forallb snd] in E.
        apply andb_prop in E as [E1 E2]. cbn [headed]. destruct H as [|h H]; [reflexivity|]. cbn [filter fc_value]. destruct v; try discriminate. cbn [blank negb]. apply IH. exact E2. }
      rewrite Hz. reflexivity.
    - cbn [flat_map]. rewrite I1, Hl. split; [reflexivity|]. intros l [<-|Hi]; [exact Hlen|apply I2; exact Hi].
  Qed.

  Lemma tidy_no_row : nth_error g (ly_heading L) = None -> A = [].
  Proof.
    intros E. destruct Ht as (_ & _ & Hh & _). destruct A as [|a A'] eqn:EA; [reflexivity|]. specialize (Hh 0%nat ltac:(cbn; lia)). unfold cell_at in Hh. rewrite E in Hh. discriminate.
  Qed.
  Lemma canon_no_cols rows : A = [] -> canon_sheet O name A rows = [].
  Proof. intros ->. unfold canon_sheet. induction rows as [|r rows IH]; [reflexivity|]. exact IH. Qed.

  Theorem sheet_rows s w : (f = Csv \/ hash_sheet e name = false) -> sc_ignore e = false -> read_sheet f rd (name, g, c) = Ok s w ->
    fits s /\ filled_rows O s = canon_sheet O name A (skipn (ly_first L) g).
  Proof.
    intros Hhs Hig Hrs. pose proof (laid_out_conf _ _ _ HL) as Hc. fold e in Hc. destruct (laid_out_rows _ _ _ HL) as [H1 H2]. fold e in H1, H2.
    pose proof (tidy_heads _ _ _ _ Ht) as Hh. fold hs in Hh. unfold read_sheet in Hrs.
    assert (Hnil : headings_of f rd c name g = [] -> canon_sheet O name A (skipn (ly_first L) g) = [] ).
    { intros E. assert (EA : A = []); [|rewrite (canon_no_cols _ EA); reflexivity].
      destruct (nth_error g (ly_heading L)) as [r|] eqn:En; [|apply tidy_no_row; exact En].
      assert (Er : hs = r) by (unfold hs, row_at; rewrite En; reflexivity).
      assert (Ehs : hs = []).
      { rewrite Er. destruct f eqn:Ef; cbn [headings_of] in E; [unfold csv_headings in E|unfold xlsx_headings in E|unfold ods_headings in E]; rewrite Hc in E; rewrite ?Hv in E; rewrite Hig in E.
        - replace (skip_of e + conf_line c)%nat with (ly_heading L) in E by lia. rewrite En in E. exact E.
        - destruct Hhs as [X|X]; [discriminate|]. rewrite X in E. cbn [orb] in E. unfold xlsx_row in E. replace (skip_of e + conf_line c)%nat with (ly_heading L) in E by lia. rewrite (wide_nth _ _ _ En) in E. unfold pad in E. destruct r; [reflexivity|discriminate].
        - destruct Hhs as [X|X]; [discriminate|]. rewrite X in E. cbn [orb] in E. replace (skip_of e + conf_line c)%nat with (ly_heading L) in E by lia. rewrite En in E. exact E. }
      destruct Hh as (t & Et & _). rewrite Ehs in Et. destruct A; [reflexivity|discriminate]. }
    destruct (headings_of f rd c name g) as [|h0 hs0] eqn:Eh.
    { injection Hrs as <- _. rewrite Hnil by reflexivity. split; [intros l []|reflexivity]. }
    destruct (lines_in f rd c g) as [ls wl|] eqn:El; [|discriminate]. cbn [bind ret] in Hrs. injection Hrs as <- _. clear Hnil.
    unfold fits, filled_rows. cbn [si_headings si_name si_lines]. assert (Hne : headings_of f rd c name g <> []) by (rewrite Eh; discriminate). rewrite <- Eh. clear h0 hs0 Eh.
    destruct f eqn:Ef; cbn [headings_of lines_in] in *.
    - unfold csv_headings, csv_lines in *. rewrite Hc in *. rewrite Hig in *. cbv zeta in El. replace (skip_of e + conf_line c)%nat with (ly_heading L) in * by lia. rewrite H1 in El.
      destruct (length g <? ly_heading L)%nat; [discriminate|]. destruct (nth_error g (ly_heading L)) as [r|] eqn:En.
      + rewrite (skipn_S_tl _ _ _ En) in El. destruct (length (skipn (S (ly_heading L)) g) <? header_of e - 1)%nat; [discriminate|].
        apply (f_equal (fun r => match r with Ok x _ => x | Raise _ _ => [] end)) in El. unfold ret in El. cbv beta iota in El. rewrite <- El.
        rewrite skipn_skipn. replace (header_of e - 1 + S (ly_heading L))%nat with (ly_first L) by lia. assert (Er : hs = r) by (unfold hs, row_at; rewrite En; reflexivity). rewrite <- Er.
        split.
        * intros l Hl. apply in_map_iff in Hl as (row & <- & _). etransitivity; [apply make_line_length|]. rewrite csv_cells_pad, combine_length. lia.
        * rewrite (lines_canon hs (csv_cells hs)).
          -- unfold canon_sheet. clear. induction (skipn (ly_first L) g) as [|row rows IH]; [reflexivity|]. cbn [filter flat_map]. destruct row as [|v row]; cbn [is_nil negb flat_map]; rewrite IH; [|reflexivity].
             unfold canon_row at 2. rewrite canon_cells_nil. reflexivity.
          -- destruct Hh as (t & E & _). exists t. exact E.
          -- intros row Hi. apply filter_In in Hi. apply Hi.
          -- intros row Hr. apply csv_tcells; [exact Hh|exact Hr].
      + exfalso. apply Hne. reflexivity.
    - unfold xlsx_headings, xlsx_lines in *. rewrite Hc in *. rewrite Hig, Hv in *. cbv zeta in El. replace (skip_of e + conf_line c)%nat with (ly_heading L) in * by lia.
      destruct Hhs as [X|X]; [discriminate|]. rewrite X. cbn [orb]. injection El as <- _. rewrite H2.
      destruct (nth_error g (ly_heading L)) as [r|] eqn:En.
      + assert (Er : hs = r) by (unfold hs, row_at; rewrite En; reflexivity). unfold xlsx_row. rewrite (wide_nth _ _ _ En). rewrite <- Er. split.
        * intros l Hl. apply in_map_iff in Hl as (row & <- & _). etransitivity; [apply make_line_length|]. rewrite xlsx_cells_counts, map_length, combine_length. lia.
        * rewrite wide_skip by (intros Eg; rewrite Eg in En; destruct (ly_heading L); discriminate). rewrite map_map.
          assert (Hp : exists h0 t0, pad (width g) hs = h0 :: t0).
          { assert (Hw : (1 <= width g)%nat) by (unfold width; clear; induction g as [|x l IH]; cbn [fold_right]; lia). unfold pad. destruct hs as [|x l] eqn:Ehs; [|eexists; eexists; reflexivity].
            cbn [app length]. destruct (width g); [lia|]. cbn. eexists; eexists; reflexivity. }
          destruct Hp as (h0 & t0 & Ep). rewrite Ep. rewrite <- Ep. rewrite (lines_canon (pad (width g) hs) (fun row => xlsx_cells e (pad (width g) hs) (pad (width g) row))).
          -- reflexivity.
          -- destruct (heads_pad A hs (width g) Hh) as (t & E & _). exists t. exact E.
          -- intros row Hi. exact Hi.
          -- intros row Hr. rewrite xlsx_cells_counts. apply (tcells_row A (pad (width g) row)); [intros j; apply nth_pad|]. apply (masked_tcells Xlsx e A); [discriminate|exact A_texts|apply heads_pad; exact Hh|].
             intros j Hj. rewrite nth_pad. apply Hr. exact Hj.
      + assert (Es : forall row, In row (skipn (ly_first L) (wide g)) -> False).
        { intros row Hi. apply In_nth_error in Hi as [i Hi]. rewrite nth_error_skipn in Hi. apply nth_error_None in En.
          assert (Hw : (length (wide g) <= S (ly_heading L))%nat) by (unfold wide; rewrite map_length; destruct g; cbn [length] in *; lia).
          assert (Hx : nth_error (wide g) (ly_first L + i) = None) by (apply nth_error_None; lia). rewrite Hx in Hi. discriminate. }
        destruct (skipn (ly_first L) (wide g)) as [|r0 rs]; [|exfalso; apply (Es r0); left; reflexivity]. cbn [map]. split; [intros l []|]. rewrite (canon_no_cols _ (tidy_no_row En)).
        destruct (xlsx_row g (ly_heading L)); reflexivity.
    - unfold ods_headings, ods_lines in *. rewrite Hc in *. rewrite Hig, Hv in *. cbv zeta in El. replace (skip_of e + conf_line c)%nat with (ly_heading L) in * by lia.
      destruct Hhs as [X|X]; [discriminate|]. rewrite X. cbn [orb]. rewrite H2 in El. destruct (nth_error g (ly_heading L)) as [r|] eqn:En; [|discriminate].
      assert (Er : hs = r) by (unfold hs, row_at; rewrite En; reflexivity). rewrite <- Er in *.
      destruct (ods_rows_canon _ _ _ (fun row Hi => Hi) El) as [Ha Hb]. split; [exact Hb|exact Ha].
  Qed.
End Sheet.

(** ** Configuration rows *)
Lemma parse_commands l : forall c c' w, parse_sheet_configuration l c = Ok c' w -> c' = fold_left conf_item (commands_in l) c.
Proof.
  induction l as [|x l IH]; intros c c' w H; [injection H as <- _; reflexivity|]. destruct x as [| | | | |s|]; try discriminate. cbn [parse_sheet_configuration] in H. apply IH in H. rewrite H.
  unfold commands_in. cbn [flat_map]. destruct s as [|x s]; reflexivity.
Qed.
Lemma commands_filter l : commands_in (filter (fun v => negb (falsy v)) l) = commands_in l.
Proof.
  unfold commands_in. induction l as [|x l IH]; [reflexivity|]. cbn [filter flat_map]. destruct (falsy x) eqn:E; cbn [negb]; [|cbn [flat_map]; rewrite IH; reflexivity].
  rewrite IH. destruct x as [| | | | |[|]|]; try reflexivity. discriminate.
Qed.
Lemma commands_alike : forall r r', (forall j, nth j r SNone = nth j r' SNone \/ blank (nth j r SNone) = true /\ blank (nth j r' SNone) = true) -> commands_in r = commands_in r'.
Proof.
  assert (B : forall v, blank v = true -> (match v with SStr (c :: s) => [c :: s] | _ => [] end) = []) by (intros [| | | | |[|]|]; try discriminate; reflexivity).
  assert (N : forall r', (forall j, nth j (@nil scalar) SNone = nth j r' SNone \/ blank (nth j (@nil scalar) SNone) = true /\ blank (nth j r' SNone) = true) -> commands_in r' = []).
  { unfold commands_in. induction r' as [|v r' IH]; intros H; [reflexivity|]. cbn [flat_map]. rewrite IH; [|intros j; specialize (H (S j)); destruct j; exact H].
    destruct (H 0%nat) as [E|[_ E]]; cbn [nth] in E; [rewrite <- E; reflexivity|rewrite (B v E); reflexivity]. }
  induction r as [|v r IH]; intros [|v' r'] H; [reflexivity|symmetry; apply N; exact H|apply N; intros j; destruct (H j) as [E|[E1 E2]]; auto|].
  unfold commands_in in *. cbn [flat_map]. rewrite (IH r'); [|intros j; exact (H (S j))]. f_equal. destruct (H 0%nat) as [E|[E1 E2]]; cbn [nth] in *; [rewrite E; reflexivity|rewrite (B _ E1), (B _ E2); reflexivity].
Qed.
Lemma nth_tl j (r : list scalar) : nth j (tl r) SNone = nth (S j) r SNone.
Proof. destruct r; [destruct j; reflexivity|reflexivity]. Qed.
Lemma commands_pad w r : commands_in (tl (pad w r)) = commands_in (tl r).
Proof. apply commands_alike. intros j. left. rewrite !nth_tl. apply nth_pad. Qed.
Lemma conf_read f g c : bind (get_conf f g) (fun l => parse_sheet_configuration l empty_conf) = Ok c [] ->
  c = if match cell_at g 0 0 with SStr h => str_eqb h (u "#") | _ => false end then fold_left conf_item (commands_in (tl (row_at g 0))) empty_conf else empty_conf.
Proof.
  intros H. destruct (get_conf f g) as [l w|] eqn:E; [|discriminate]. cbn [bind] in H. destruct (parse_sheet_configuration l empty_conf) as [c' w'|] eqn:Ep; [|discriminate]. injection H as <- _.
  apply parse_commands in Ep. subst c'.
  assert (G : l = if match cell_at g 0 0 with SStr h => str_eqb h (u "#") | _ => false end then
     match f with Csv => tl (row_at g 0) | Xlsx => filter (fun v => negb (falsy v)) (tl (pad (width g) (row_at g 0))) | Ods => row_at g 0 end else []).
  { destruct f; cbn [get_conf] in E; unfold csv_conf, xlsx_conf, ods_conf in E.
    - destruct g as [|[|[| | | | |h|] r] g]; inversion E; subst; cbn; try reflexivity; destruct (str_eqb h _); reflexivity.
    - destruct g as [|r g].
      + cbn in E. inversion E. reflexivity.
      + assert (Ex : xlsx_row (r :: g) 0 = pad (width (r :: g)) r) by reflexivity. rewrite Ex in E. unfold cell_at, row_at. cbn [nth_error].
        rewrite <- (nth_pad (width (r :: g)) r 0). destruct (pad (width (r :: g)) r) as [|[| | | | |h|] rest]; inversion E; subst; cbn; try reflexivity; destruct (str_eqb h _); reflexivity.
    - destruct g as [|[|[| | | | |h|] r] g]; inversion E; subst; cbn; try reflexivity; destruct (str_eqb h _); reflexivity. }
  rewrite G. destruct (match cell_at g 0 0 with SStr h => str_eqb h (u "#") | _ => false end) eqn:Eh; [|reflexivity].
  destruct f; [reflexivity|rewrite commands_filter, commands_pad; reflexivity|].
  unfold cell_at, row_at in *. destruct (nth_error g 0) as [[|v r]|]; try discriminate. cbn [nth] in Eh. destruct v as [| | | | |h|]; try discriminate.
  destruct (str_eqb_spec h (u "#")) as [->|]; [|discriminate]. reflexivity.
Qed.
Lemma str_hash_iff v : (match v with SStr h => str_eqb h (u "#") | _ => false end) = true <-> v = SStr (u "#").
Proof. destruct v as [| | | | |h|]; try (split; discriminate). destruct (str_eqb_spec h (u "#")) as [->|Hn]; split; try reflexivity; try discriminate. intros [= ->]. contradiction. Qed.
Lemma conf_alike f f' g g' c c' : alike g g' -> bind (get_conf f g) (fun l => parse_sheet_configuration l empty_conf) = Ok c [] ->
  bind (get_conf f' g') (fun l => parse_sheet_configuration l empty_conf) = Ok c' [] -> c = c'.
Proof.
  intros Ha H H'. apply conf_read in H. apply conf_read in H'. subst.
  assert (E : (match cell_at g 0 0 with SStr h => str_eqb h (u "#") | _ => false end) = (match cell_at g' 0 0 with SStr h => str_eqb h (u "#") | _ => false end)).
  { destruct (Ha 0%nat 0%nat) as [->|[E1 E2]]; [reflexivity|]. destruct (cell_at g 0 0) as [| | | | |[|]|], (cell_at g' 0 0) as [| | | | |[|]|]; try discriminate; reflexivity. }
  rewrite E. destruct (match cell_at g' 0 0 with SStr h => _ | _ => false end); [|reflexivity]. f_equal. apply commands_alike. intros j. rewrite !nth_tl. specialize (Ha 0%nat (S j)).
  unfold cell_at, row_at in *. destruct (nth_error g 0), (nth_error g' 0); exact Ha.
Qed.

(** what a configuration row means *)
Lemma parse_texts l : forall c, (forall v, In v l -> exists s, v = SStr s) -> parse_sheet_configuration l c = Ok (fold_left conf_item (commands_in l) c) [].
Proof.
  induction l as [|x l IH]; intros c H; [reflexivity|]. destruct (H x (or_introl eq_refl)) as [s ->]. cbn [parse_sheet_configuration]. rewrite IH by (intros v Hv; apply H; right; exact Hv).
  unfold commands_in. cbn [flat_map]. destruct s; reflexivity.
Qed.
Lemma fold_means l : conf_means l (fold_left conf_item l empty_conf).
Proof.
  destruct (parse_sheet_configuration_means l) as (c & H & Hm). rewrite parse_texts in H by (intros v Hv; apply in_map_iff in Hv as (s & <- & _); eauto). injection H as <-.
  enough (E : fold_left conf_item (commands_in (map SStr l)) empty_conf = fold_left conf_item l empty_conf) by (rewrite <- E; exact Hm).
  clear. generalize empty_conf. induction l as [|s l IH]; intros c; [reflexivity|]. unfold commands_in in *. cbn [map flat_map]. destruct s as [|x s]; cbn [app fold_left]; apply IH.
Qed.
Theorem configuration_read f g : (f = Csv -> g <> []) ->
  (forall j, match cell_at g 0 (S j) with SStr _ => True | SNone => f = Xlsx \/ (length (row_at g 0) <= S j)%nat | _ => False end) ->
  exists c, bind (get_conf f g) (fun l => parse_sheet_configuration l empty_conf) = Ok c [] /\
    (cell_at g 0 0 = SStr (u "#") -> conf_means (commands_in (tl (row_at g 0))) c) /\ (cell_at g 0 0 <> SStr (u "#") -> c = empty_conf).
Proof.
  intros Hg Hj.
  assert (Hr : forall v, In v (tl (row_at g 0)) -> match v with SStr _ => True | SNone => f = Xlsx | _ => False end).
  { intros v Hi. apply (In_nth _ _ SNone) in Hi as (j & Hl & <-). specialize (Hj j). rewrite nth_tl. unfold cell_at, row_at in *. destruct (nth_error g 0) as [r|]; [|destruct j; cbn in Hl; lia].
    destruct (nth (S j) r SNone) eqn:E; auto. destruct Hj as [Hx|Hx]; [exact Hx|]. destruct r; cbn in *; lia. }
  assert (Hok : exists c, bind (get_conf f g) (fun l => parse_sheet_configuration l empty_conf) = Ok c []).
  { assert (T : forall v l, f <> Xlsx -> row_at g 0 = v :: l -> forall x, In x l -> exists s, x = SStr s).
    { intros v l Hf E x Hx. rewrite E in Hr. specialize (Hr x Hx). destruct x; try contradiction; eauto. }
    destruct f; cbn [get_conf]; unfold csv_conf, xlsx_conf, ods_conf.
    - destruct g as [|[|[| | | | |h|] r] g0]; try (eexists; reflexivity); [exfalso; apply Hg; reflexivity|]. destruct (str_eqb h (u "#")); [|eexists; reflexivity].
      cbn [bind ret app]. rewrite parse_texts; [eexists; reflexivity|]. intros v Hv. apply (T (SStr h) r); [discriminate|reflexivity|exact Hv].
    - destruct (xlsx_row g 0) as [|[| | | | |h|] r] eqn:E; try (eexists; reflexivity). destruct (str_eqb h (u "#")); [|eexists; reflexivity].
      cbn [bind ret app]. rewrite parse_texts; [eexists; reflexivity|]. intros v Hv. apply filter_In in Hv as [Hv Hf].
      destruct g as [|r0 g0]; [cbn in E; discriminate|]. change (xlsx_row (r0 :: g0) 0) with (pad (width (r0 :: g0)) r0) in E. unfold pad in E.
      destruct r0 as [|v0 r0]; cbn [app length] in E; [destruct (width _); cbn in E; discriminate|]. injection E as -> E. rewrite <- E in Hv. apply in_app_or in Hv as [Hv|Hv].
      + specialize (Hr v Hv). destruct v; try contradiction; [discriminate|eauto].
      + apply repeat_spec in Hv. subst. discriminate.
    - destruct g as [|[|[| | | | |h|] r] g0]; try (eexists; reflexivity). destruct (str_eqb h (u "#")); [|eexists; reflexivity].
      cbn [bind ret app]. rewrite parse_texts; [eexists; reflexivity|]. intros v [<-|Hv]; [eauto|]. apply (T (SStr h) r); [discriminate|reflexivity|exact Hv]. }
  destruct Hok as [c Hc]. exists c. split; [exact Hc|]. apply conf_read in Hc. split; intros Hx.
  - rewrite (proj2 (str_hash_iff _) Hx) in Hc. rewrite Hc. apply fold_means.
  - destruct (match cell_at g 0 0 with SStr h => str_eqb h (u "#") | _ => false end) eqn:E; [apply str_hash_iff in E; contradiction|exact Hc].
Qed.

(** ** The same workbook in two formats *)
Lemma tidy_alike e g g' L A : alike g g' -> tidy e g L A -> tidy e g' L A.
Proof.
  intros Ha (H1 & H2 & H3 & H4). split; [exact H1|]. split; [exact H2|]. split.
  - intros j Hj. specialize (H3 j Hj). destruct (Ha (ly_heading L) j) as [E|[E1 E2]]; [congruence|]. rewrite H3 in E1. destruct (H2 (nth j A [])) as [Hn _]; [apply nth_In; exact Hj|].
    destruct (nth j A []); [contradiction|discriminate].
  - intros i j Hj Hi. specialize (H4 i j Hj Hi). destruct (Ha i j) as [E|[E1 E2]]; congruence.
Qed.
Lemma alike_blank g g' i j : alike g g' -> blank (cell_at g i j) = blank (cell_at g' i j).
Proof. intros Ha. destruct (Ha i j) as [->|[-> ->]]; reflexivity. Qed.
Lemma rooted_alike O g g' L A : alike g g' -> rooted O g L A -> rooted O g' L A.
Proof.
  intros Ha [H|[H|(k & Hk & H)]]; [left; exact H|right; left; exact H|]. right; right. exists k. split; [exact Hk|]. intros i j Hi Hb. rewrite <- (alike_blank g g') in * by exact Ha. eapply H; eassumption.
Qed.
Lemma canon_seq O name A g first : forall n, (length g <= first + n)%nat ->
  canon_sheet O name A (skipn first g) = flat_map (fun i => canon_row O name A (row_at g i)) (seq first n).
Proof.
  unfold canon_sheet. revert first. induction g as [|r g IH]; intros first n Hn.
  - rewrite skipn_nil. symmetry. cbn [flat_map]. induction (seq first n) as [|i l IHl]; [reflexivity|]. cbn [flat_map]. unfold row_at. assert (E : nth_error (@nil (list scalar)) i = None) by (destruct i; reflexivity). rewrite E.
    unfold canon_row at 1. rewrite canon_cells_nil. exact IHl.
  - assert (Hsh : forall first n, flat_map (fun i => canon_row O name A (row_at (r :: g) i)) (seq (S first) n) = flat_map (fun i => canon_row O name A (row_at g i)) (seq first n)).
    { clear. intros first n. rewrite <- seq_shift. rewrite flat_map_concat_map, map_map, <- flat_map_concat_map. reflexivity. }
    destruct first as [|first]; cbn [skipn].
    + destruct n as [|n]; [cbn in Hn; lia|]. cbn [seq flat_map]. rewrite Hsh. rewrite <- (IH 0%nat n) by (cbn in Hn; lia). reflexivity.
    + rewrite Hsh. apply IH. cbn in Hn. lia.
Qed.
Lemma troot_alike O A row row' : NoDup A -> (forall j, nth j row SNone = nth j row' SNone \/ blank (nth j row SNone) = true /\ blank (nth j row' SNone) = true) ->
  rooted_row O A row -> rooted_row O A row' -> canon_row O [] A row = canon_row O [] A row'.
Proof.
  intros Hn Ha Hr Hr'. unfold canon_row. rewrite (canon_cells_ext A row row' Ha). destruct (canon_cells A row') as [|c cs] eqn:E; [reflexivity|]. do 2 f_equal.
  unfold troot. destruct (o_root_id O) as [|x rid] eqn:Er; [reflexivity|]. rewrite <- Er. destruct (kget_combine A Hn (o_root_id O) row) as [K1 K2]. destruct (kget_combine A Hn (o_root_id O) row') as [K1' K2'].
  destruct Hr as [Hx|[Hx|(k & Hk & Hb)]]; [congruence|rewrite K1, K1' by exact Hx; reflexivity|].
  destruct (canon_some _ _ _ _ E) as [j Hj]. assert (Hj' : blank (nth j row SNone) = false) by (destruct (Ha j) as [->|[_ Hx]]; congruence).
  specialize (Hb j Hj'). destruct (Ha k) as [Ek|[Ek _]]; [|congruence]. rewrite (K2 k Hk Hb). rewrite Ek in Hb. rewrite (K2' k Hk Hb). rewrite Ek. reflexivity.
Qed.
Lemma canon_name O name A row : canon_row O name A row = map (fun r => {| fr_sheet := name; fr_root := fr_root r; fr_cells := fr_cells r |}) (canon_row O [] A row).
Proof. unfold canon_row. destruct (canon_cells A row); reflexivity. Qed.
Lemma row_at_cell g i j : nth j (row_at g i) SNone = cell_at g i j.
Proof. unfold row_at, cell_at. destruct (nth_error g i); [reflexivity|destruct j; reflexivity]. Qed.
Lemma canon_alike O name A g g' L : NoDup A -> alike g g' -> rooted O g L A ->
  canon_sheet O name A (skipn (ly_first L) g) = canon_sheet O name A (skipn (ly_first L) g').
Proof.
  intros Hn Ha Hr. pose proof (rooted_alike O g g' L A Ha Hr) as Hr'. set (n := (length g + length g')%nat). rewrite (canon_seq O name A g _ n), (canon_seq O name A g' _ n) by (unfold n; lia).
  assert (Hin : forall i, In i (seq (ly_first L) n) -> (ly_first L <= i)%nat) by (intros i Hi; apply in_seq in Hi; lia).
  induction (seq (ly_first L) n) as [|i l IH]; [reflexivity|]. cbn [flat_map]. rewrite IH by (intros x Hx; apply Hin; right; exact Hx). f_equal. rewrite (canon_name O name A (row_at g i)), (canon_name O name A (row_at g' i)). f_equal.
  assert (RR : forall g0, rooted O g0 L A -> rooted_row O A (row_at g0 i)).
  { intros g0 [H|[H|(k & Hk & H)]]; [left; exact H|right; left; exact H|]. right; right. exists k. split; [exact Hk|]. intros j. rewrite !row_at_cell. apply H. apply Hin. left. reflexivity. }
  apply troot_alike; [exact Hn| |apply RR; exact Hr|apply RR; exact Hr']. intros j. rewrite !row_at_cell. apply Ha.
Qed.

Lemma read_ignored f rd name g c L s w : laid_out rd c L -> sc_ignore (ly_conf L) = true -> read_sheet f rd (name, g, c) = Ok s w -> s = {| si_name := name; si_headings := Some []; si_lines := [] |}.
Proof.
  intros HL Hi H. pose proof (laid_out_conf _ _ _ HL) as Hc. assert (E : headings_of f rd c name g = []).
  { destruct f; cbn [headings_of]; unfold csv_headings, xlsx_headings, ods_headings; rewrite Hc, Hi; reflexivity. }
  unfold read_sheet in H. rewrite E in H. injection H as <- _. reflexivity.
Qed.
Theorem same_formats O f f' rd b b' s s' w w' : rd_vertical rd = false -> same_books O f f' rd b b' ->
  read_book f rd b = Ok s w -> read_book f' rd b' = Ok s' w' ->
  seen_as but_headings (unflatten O s) = seen_as but_headings (unflatten O s').
Proof.
  intros Hv [Hav Hb] Hr Hr'. destruct (read_book_inv _ _ _ _ _ Hr) as (cf & F1 & F2). destruct (read_book_inv _ _ _ _ _ Hr') as (cf' & F1' & F2'). rewrite <- Hav in F1'.
  assert (G : Forall fits s /\ Forall fits s' /\ flat_map (filled_rows O) s = flat_map (filled_rows O) s').
  { clear Hr Hr' Hav. revert cf cf' s s' F1 F2 F1' F2'. induction (select rd (available f b)) as [|n names IH]; intros cf cf' s s' F1 F2 F1' F2'.
    - inversion F1; subst. inversion F1'; subst. inversion F2; subst. inversion F2'; subst. split; [constructor|split; [constructor|reflexivity]].
    - inversion F1 as [|? x ? cf1 (g & c & -> & Hso) F1a]; subst. inversion F1' as [|? x' ? cf1' (g' & c' & -> & Hso') F1a']; subst.
      inversion F2 as [|? sh ? s1 [w1 Hrs] F2a]; subst. inversion F2' as [|? sh' ? s1' [w1' Hrs'] F2a']; subst.
      destruct (IH _ _ _ _ F1a F2a F1a' F2a') as (I1 & I2 & I3).
      destruct (Hb n g g' (proj1 Hso) (proj1 Hso')) as [Hal Hti]. pose proof (conf_alike _ _ _ _ _ _ Hal (proj2 Hso) (proj2 Hso')) as <-.
      destruct (laid_out_exists rd c) as [L HL]. destruct (Hti c L HL Hso) as (Hlt & Hha & A & HtA & HrA).
      destruct (sc_ignore (ly_conf L)) eqn:Ei.
      + pose proof (read_ignored _ _ _ _ _ _ _ _ HL Ei Hrs) as ->. pose proof (read_ignored _ _ _ _ _ _ _ _ HL Ei Hrs') as ->.
        split; [constructor; [intros l []|exact I1]|]. split; [constructor; [intros l []|exact I2]|]. cbn [flat_map]. rewrite I3. reflexivity.
      + assert (Hh : hash_sheet (ly_conf L) n = false).
        { unfold hash_sheet. destruct (sc_hash (ly_conf L)); [|reflexivity]. specialize (Hha eq_refl). destruct n as [|x n]; [reflexivity|]. cbn [hd] in Hha. cbn. apply N.eqb_neq in Hha. rewrite Hha. reflexivity. }
        destruct (sheet_rows O f rd n g c L A Hv HL Hlt HtA HrA sh w1 (or_intror Hh) Ei Hrs) as [S1 S2].
        destruct (sheet_rows O f' rd n g' c L A Hv HL Hlt (tidy_alike _ _ _ _ _ Hal HtA) (rooted_alike _ _ _ _ _ Hal HrA) sh' w1' (or_intror Hh) Ei Hrs') as [S1' S2'].
        split; [constructor; [exact S1|exact I1]|]. split; [constructor; [exact S1'|exact I2]|]. cbn [flat_map]. rewrite S2, S2', I3. f_equal. apply canon_alike; [exact (proj1 HtA)|exact Hal|exact HrA]. }
  destruct G as (G1 & G2 & G3). apply filled_decides; assumption.
Qed.

(** ** Sheet selection *)
Lemma remove1_filter n l : NoDup l -> remove1 n l = filter (fun x => negb (str_eqb n x)) l.
Proof.
  induction 1 as [|x l Hni _ IH]; [reflexivity|]. cbn [remove1 filter]. destruct (str_eqb_spec n x) as [->|Hn]; cbn [negb]; [|rewrite IH; reflexivity].
  clear IH. induction l as [|y l IH]; [reflexivity|]. cbn [filter]. destruct (str_eqb_spec x y) as [->|]; [exfalso; apply Hni; left; reflexivity|]. cbn [negb]. f_equal. apply IH. intros H. apply Hni. right. exact H.
Qed.
Lemma NoDup_filter' {A} (p : A -> bool) l : NoDup l -> NoDup (filter p l).
Proof. induction 1 as [|x l Hni _ IH]; cbn [filter]; [constructor|]. destruct (p x); [constructor; [|exact IH]|exact IH]. intros H. apply filter_In in H. apply Hni, H. Qed.
Lemma filter_filter {A} (p q : A -> bool) l : filter p (filter q l) = filter (fun x => q x && p x) l.
Proof. induction l as [|x l IH]; [reflexivity|]. cbn [filter]. destruct (q x); cbn [filter andb]; rewrite IH; reflexivity. Qed.
Lemma fold_exclude ex : forall l, NoDup l -> fold_left (fun l n => remove1 n l) ex l = filter (fun x => negb (str_mem x ex)) l.
Proof.
  induction ex as [|e ex IH]; intros l Hl; cbn [fold_left].
  - symmetry. clear. induction l as [|x l IH]; [reflexivity|]. cbn [filter]. unfold str_mem at 1. cbn [existsb negb]. f_equal. exact IH.
  - rewrite IH by (rewrite remove1_filter by exact Hl; apply NoDup_filter'; exact Hl). rewrite remove1_filter by exact Hl. rewrite filter_filter. apply filter_ext. intros x. unfold str_mem. cbn [existsb].
    rewrite negb_orb. f_equal. f_equal. destruct (str_eqb_spec e x) as [->|H]; [rewrite str_eqb_refl; reflexivity|]. destruct (str_eqb_spec x e); [congruence|reflexivity].
Qed.
Lemma fold_include inc : forall todo l, NoDup l -> fold_left (fun l n => if str_mem n inc then l else remove1 n l) todo l =
  filter (fun x => str_mem x inc || negb (str_mem x todo)) l.
Proof.
  induction todo as [|n todo IH]; intros l Hl; cbn [fold_left].
  - symmetry. clear. induction l as [|x l IH]; [reflexivity|]. cbn [filter]. unfold str_mem at 2. cbn [existsb negb]. rewrite orb_true_r. rewrite IH. reflexivity.
  - destruct (str_mem n inc) eqn:En.
    + rewrite IH by exact Hl. apply filter_ext. intros x. unfold str_mem at 4. cbn [existsb]. fold (str_mem x todo). destruct (str_eqb_spec x n) as [->|]; [rewrite En; reflexivity|reflexivity].
    + rewrite IH by (rewrite remove1_filter by exact Hl; apply NoDup_filter'; exact Hl). rewrite remove1_filter by exact Hl. rewrite filter_filter. apply filter_ext. intros x. unfold str_mem at 4. cbn [existsb]. fold (str_mem x todo).
      destruct (str_eqb_spec n x) as [->|Hx].
      * rewrite En, str_eqb_refl. reflexivity.
      * destruct (str_eqb_spec x n); [congruence|]. reflexivity.
Qed.
Lemma select_wanted rd l : NoDup l -> select rd l = filter (wanted rd) l.
Proof.
  intros Hl. unfold select, wanted. destruct (rd_include rd) as [|i inc] eqn:Ei.
  - rewrite fold_exclude by exact Hl. reflexivity.
  - rewrite fold_include by exact Hl. rewrite fold_exclude by (apply NoDup_filter'; exact Hl). rewrite filter_filter. cbn [is_nil orb].
    assert (Hin : forall x, In x l -> str_mem x l = true) by (intros x Hx; apply existsb_exists; exists x; split; [exact Hx|apply str_eqb_refl]).
    apply filter_ext_in. intros x Hx. rewrite (Hin x Hx). cbn [negb]. rewrite orb_false_r. reflexivity.
Qed.
Lemma str_leb_na a : forall b, str_leb a b = true -> not_after a b.
Proof. induction a as [|x a IH]; intros [|y b] H; cbn [str_leb] in H; try discriminate; [apply na_nil|apply na_nil|]. destruct (N.ltb_spec x y) as [Hl|Hl]; [apply na_lt; exact Hl|]. cbn [orb] in H.
  destruct (N.eqb_spec x y) as [->|]; [apply na_eq, IH; exact H|]. discriminate. Qed.
Lemma na_trans a b : not_after a b -> forall c, not_after b c -> not_after a c.
Proof.
  induction 1 as [t|x y s t Hxy|x s t _ IH]; intros c Hc; [constructor| |].
  - inversion Hc as [|? ? ? ? H1|? ? ? H1]; subst; [apply na_lt; lia|apply na_lt; exact Hxy].
  - inversion Hc as [|? ? ? ? H1|? ? ? H1]; subst; [apply na_lt; exact H1|apply na_eq, IH; exact H1].
Qed.
Lemma str_leb_total a : forall b, str_leb a b = false -> not_after b a.
Proof. induction a as [|x a IH]; intros [|y b] H; cbn [str_leb] in H; try discriminate; [apply na_nil|]. destruct (N.ltb_spec x y) as [Hl|Hl]; [discriminate|]. cbn [orb] in H.
  destruct (N.eqb_spec x y) as [->|]; [apply na_eq, IH; exact H|]. apply na_lt. lia. Qed.
Lemma insert_str_perm x l : Permutation (x :: l) (insert_str x l).
Proof. induction l as [|y l IH]; cbn [insert_str]; [reflexivity|]. destruct (str_leb x y); [reflexivity|]. rewrite perm_swap. constructor. exact IH. Qed.
Lemma sort_str_perm l : Permutation l (sort_str l).
Proof. induction l as [|x l IH]; [reflexivity|]. cbn [sort_str]. rewrite <- insert_str_perm. constructor. exact IH. Qed.
Lemma insert_str_sorted x l : StronglySorted not_after l -> StronglySorted not_after (insert_str x l).
Proof.
  induction 1 as [|y l Hs IH Hf]; cbn [insert_str]; [repeat constructor|]. destruct (str_leb x y) eqn:E.
  - apply str_leb_na in E. constructor; [constructor; assumption|]. constructor; [exact E|]. rewrite Forall_forall in *. intros z Hz. eapply na_trans; [exact E|auto].
  - apply str_leb_total in E. constructor; [exact IH|]. rewrite Forall_forall in *. intros z Hz. apply (Permutation_in _ (Permutation_sym (insert_str_perm x l))) in Hz. destruct Hz as [<-|Hz]; [exact E|auto].
Qed.
Lemma sort_str_sorted l : StronglySorted not_after (sort_str l).
Proof. induction l as [|x l IH]; cbn [sort_str]; [constructor|apply insert_str_sorted; exact IH]. Qed.
Lemma available_order f b : sheet_order f (map fst b) (available f b).
Proof. destruct f; cbn [sheet_order available]; [split; [apply sort_str_perm|apply sort_str_sorted]|reflexivity|reflexivity]. Qed.
Theorem sheets_selected f rd b sheets w : NoDup (map fst b) -> read_book f rd b = Ok sheets w ->
  exists l, sheet_order f (map fst b) l /\ map si_name sheets = filter (wanted rd) l.
Proof.
  intros Hn H. exists (available f b). split; [apply available_order|].
  assert (Hna : NoDup (available f b)) by (destruct f; cbn [available]; [eapply Permutation_NoDup; [apply sort_str_perm|exact Hn]|exact Hn|exact Hn]).
  rewrite <- select_wanted by exact Hna. destruct (read_book_inv _ _ _ _ _ H) as (cf & F1 & F2). revert sheets F2 H.
  assert (G : forall sheets, Forall2 (fun x s => exists w, read_sheet f rd x = Ok s w) cf sheets -> map si_name sheets = select rd (available f b)); [|intros sheets F2 _; apply G; exact F2].
  induction F1 as [|n x names cf (g & c & -> & _) _ IH]; intros sheets F2; inversion F2 as [|? s ? ss [w0 Hs] F2']; subst; [reflexivity|]. cbn [map]. rewrite (IH _ F2'). f_equal.
  unfold read_sheet in Hs. destruct (headings_of f rd c n g); [injection Hs as <- _; reflexivity|]. destruct (lines_in f rd c g); [|discriminate]. injection Hs as <- _. reflexivity.
Qed.
Theorem csv_files listing : StronglySorted not_after (csv_names listing) /\ forall n, In n (csv_names listing) <-> In (n ++ u ".csv") listing.
Proof.
  split; [apply sort_str_sorted|]. intros n. unfold csv_names. 
  assert (P : In n (sort_str (map (fun f => firstn (length f - 4) f) (filter (fun f => endswith f (u ".csv")) listing))) <-> In n (map (fun f => firstn (length f - 4) f) (filter (fun f => endswith f (u ".csv")) listing))).
  { split; intros H; [eapply Permutation_in; [symmetry; apply sort_str_perm|exact H]|eapply Permutation_in; [apply sort_str_perm|exact H]]. }
  rewrite P. rewrite in_map_iff. split.
  - intros (f & <- & Hf). apply filter_In in Hf as [Hf He]. unfold endswith in He. apply startswith_spec in He as [t Ht].
    assert (Ef : f = rev t ++ u ".csv") by (rewrite <- (rev_involutive f), Ht, rev_app_distr, rev_involutive; reflexivity).
    rewrite Ef. rewrite app_length. replace (length (rev t) + length (u ".csv") - 4)%nat with (length (rev t) + 0)%nat by (cbn [length u]; cbn; lia).
    rewrite firstn_app_2. cbn [firstn]. rewrite app_nil_r. rewrite <- Ef. exact Hf.
  - intros H. exists (n ++ u ".csv"). split.
    + rewrite app_length. replace (length n + length (u ".csv") - 4)%nat with (length n + 0)%nat by (cbn; lia). rewrite firstn_app_2. apply app_nil_r.
    + apply filter_In. split; [exact H|]. unfold endswith. rewrite rev_app_distr. apply startswith_spec. eexists. reflexivity.
Qed.
