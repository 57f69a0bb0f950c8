(** Repeated headings: the last column is the one that is read. *)
From Coq Require Import Lia.
From Verif.Base Require Import PyStr PyNum PyVal PyDict Outcome.
From Verif.Model Require Import Warn Lib Convert Input Readers.
From Verif.Spec Require Import Columns Grids Repeated.
From Verif.Proofs Require Import ColumnFacts ReaderFacts RepeatedFacts.
Local Open Scope res_scope.

Definition stp (d : line) (hv : scalar * scalar) : line := kset (fst hv) (snd hv) d.
Lemma make_line_stp cells : make_line cells = fold_left stp cells []. Proof. reflexivity. Qed.
Lemma kget_kset {V} k k' (v : V) d : kget k (kset k' v d) = if py_eqb k k' then Some v else kget k d.
Proof.
  unfold kget, kset. induction d as [|[x y] d IH]; cbn [aset aget].
  - reflexivity.
  - destruct (py_eqb k' x) eqn:E; cbn [aget].
    + rewrite <- (py_eqb_right k' x k E). destruct (py_eqb k k'); reflexivity.
    + destruct (py_eqb k x) eqn:Ex; [|exact IH]. destruct (py_eqb k k') eqn:Ek; [|reflexivity]. rewrite (py_eqb_left k k' x Ek) in Ex. congruence.
Qed.
Lemma kget_fold_other h post : Forall (fun hv : scalar * scalar => py_eqb h (fst hv) = false) post -> forall d, kget h (fold_left stp post d) = kget h d.
Proof. intros H. induction H as [|[x v] post Hx _ IH]; intros d; [reflexivity|]. cbn [fold_left]. rewrite IH. unfold stp. cbn [fst snd] in *. rewrite kget_kset, Hx. reflexivity. Qed.
Lemma fold_keys cells : forall d k v, In (k, v) (fold_left stp cells d) -> In k (map fst d) \/ In k (map fst cells).
Proof.
  induction cells as [|[x y] cells IH]; intros d k v H; cbn [fold_left] in H.
  - left. apply in_map_iff. exists (k, v). auto.
  - destruct (IH _ _ _ H) as [H'|H']; [|right; right; exact H']. apply in_map_iff in H' as ([k' v'] & <- & H'). unfold stp in H'. cbn [fst snd] in H'. apply kset_In in H' as [H'|[[-> ->]|(-> & _ & w & H')]].
    + left. apply in_map_iff. exists (k', v'). auto.
    + right. left. reflexivity.
    + left. apply in_map_iff. exists (k', w). auto.
Qed.

Definition mask (f : fmt) (e : sheet_conf) (hv : scalar * scalar) : scalar * scalar := (fst hv, if heading_counts f e (fst hv) then snd hv else SNone).
Lemma combine_split {A B} (hs : list A) : forall (row : list B) j h v, nth_error hs j = Some h -> nth_error row j = Some v ->
  combine hs row = combine (firstn j hs) (firstn j row) ++ (h, v) :: combine (skipn (S j) hs) (skipn (S j) row).
Proof.
  induction hs as [|x hs IH]; intros row j h v Hh Hv; [destruct j; discriminate|]. destruct row as [|y row]; [destruct j; discriminate|]. destruct j as [|j]; cbn in Hh, Hv; [injection Hh as ->; injection Hv as ->; reflexivity|].
  cbn [combine firstn skipn app]. f_equal. apply (IH row j); assumption.
Qed.
Lemma In_combine_nth {A B} (hs : list A) : forall (row : list B) h v, In (h, v) (combine hs row) -> exists i, nth_error hs i = Some h /\ nth_error row i = Some v.
Proof.
  induction hs as [|x hs IH]; intros row h v H; [destruct H|]. destruct row as [|y row]; [destruct H|]. destruct H as [[= -> ->]|H]; [exists 0%nat; split; reflexivity|]. destruct (IH _ _ _ H) as (i & A1 & A2). exists (S i). split; assumption.
Qed.
Lemma nth_error_skipn {A} (l : list A) : forall n i, nth_error (skipn n l) i = nth_error l (n + i).
Proof. induction l as [|x l IH]; intros [|n] i; try reflexivity; [destruct i; reflexivity|]. cbn [skipn Nat.add nth_error]. apply IH. Qed.
(** reading one row *)
Lemma row_under f e hs row j h : last_at hs j h -> not_nan h = true ->
  (length row <= j -> forall i x, (i < j)%nat -> heading_at hs i x -> py_eqb h x = false)%nat ->
  under (make_line (map (mask f e) (combine hs row))) h = if heading_counts f e h then nth j row SNone else SNone.
Proof.
  intros [Hj Hl] Hn Hr. rewrite make_line_stp. unfold under. destruct (nth_error row j) as [v|] eqn:Ev.
  - rewrite (combine_split hs row j h v Hj Ev), map_app, fold_left_app. cbn [map fold_left]. rewrite kget_fold_other.
    + unfold stp at 1. unfold mask at 1 2. cbn [fst snd]. rewrite kget_kset, py_eqb_refl by exact Hn. rewrite (nth_error_nth row j SNone Ev). reflexivity.
    + apply Forall_forall. intros [x y] H. apply in_map_iff in H as ([x' y'] & [= <- <-] & H). cbn [fst]. apply In_combine_nth in H as (i & A1 & _). rewrite nth_error_skipn in A1. apply (Hl (S j + i)%nat); [lia|exact A1].
  - apply nth_error_None in Ev. rewrite nth_overflow by exact Ev. rewrite kget_fold_other; [destruct (heading_counts f e h); reflexivity|].
    apply Forall_forall. intros [x y] H. apply in_map_iff in H as ([x' y'] & [= <- <-] & H). cbn [fst]. apply In_combine_nth in H as (i & A1 & A2). apply (Hr Ev i x'); [|exact A1].
    assert (Hi : nth_error row i <> None) by congruence. apply nth_error_Some in Hi. lia.
Qed.
Lemma row_keys f e hs row h v : In (h, v) (make_line (map (mask f e) (combine hs row))) -> In h hs.
Proof.
  rewrite make_line_stp. intros H. destruct (fold_keys _ _ _ _ H) as [[]|H']. rewrite map_map in H'. apply in_map_iff in H' as ([x y] & <- & H'). apply in_combine_l in H'. exact H'.
Qed.
Lemma row_reads f e hs row row' : (forall j, nth j row' SNone = nth j row SNone) ->
  (length hs <= length row' \/ (f = Ods /\ row' = row /\ reaches f hs row))%nat -> row_read f e hs row (make_line (map (mask f e) (combine hs row'))).
Proof.
  intros Hn Hr. split; [intros h v; apply row_keys|]. intros j h Hl Hh. rewrite <- Hn. apply row_under; [exact Hl|exact Hh|]. intros Hle i x Hi Hx.
  destruct Hr as [Hr|(-> & -> & Hr)].
  - destruct Hl as [Hl _]. assert (H : nth_error hs j <> None) by (rewrite Hl; discriminate). apply nth_error_Some in H. lia.
  - destruct (py_eqb h x) eqn:E; [|reflexivity]. exfalso. rewrite py_eqb_sym in E. assert (H : (j < length row)%nat); [|lia]. apply (Hr eq_refl i j).
    + exists j, x, h. split; [exact Hi|]. split; [exact Hx|]. split; [apply Hl|exact E].
    + exists x, h. split; [exact Hx|]. split; [exact Hl|exact E].
Qed.

(** ** Columns that are not the last of their heading *)
Definition agree (more : list (scalar * scalar)) (a b : scalar * scalar) : Prop :=
  fst a = fst b /\ (snd a = snd b \/ existsb (fun c => py_eqb (fst c) (fst a)) more = true).
Definition distinct (d : line) : Prop := ForallOrdPairs (fun a b => py_eqb (fst a) (fst b) = false) d.
Lemma kset_distinct k v d : distinct d -> distinct (kset k v d).
Proof.
  unfold kset. induction d as [|[x y] d IH]; intros H; cbn [aset]; [repeat constructor|]. inversion H as [|? ? Hx Hd]; subst. destruct (py_eqb k x) eqn:E.
  - constructor; [exact Hx|exact Hd].
  - constructor; [|apply IH, Hd]. apply Forall_forall. intros [x' y'] Hi. cbn [fst]. apply (kset_In k v d) in Hi. rewrite Forall_forall in Hx. destruct Hi as [Hi|[[-> ->]|(-> & _ & w & Hi)]]; [apply (Hx _ Hi)|rewrite py_eqb_sym; exact E|apply (Hx _ Hi)].
Qed.
Lemma kset_agree k v v' more d : distinct d -> (v = v' \/ existsb (fun c => py_eqb (fst c) k) more = true) ->
  forall d', Forall2 (agree ((k, v) :: more)) d d' -> Forall2 (agree more) (kset k v d) (kset k v' d').
Proof.
  intros HD Hv. unfold kset. induction d as [|[x y] d IH]; intros d' H; inversion H as [|? [x' y'] ? ? [Ex Ey] Hd]; subst; cbn [aset].
  - constructor; [|constructor]. split; [reflexivity|exact Hv].
  - cbn [fst snd] in Ex, Ey. subst x'. inversion HD as [|? ? Hx HD']; subst. destruct (py_eqb k x) eqn:E.
    + constructor.
      * split; [reflexivity|]. cbn [fst snd]. destruct Hv as [Hv|Hv]; [left; exact Hv|right]. apply existsb_exists in Hv as (c & Hc & Ec). apply existsb_exists. exists c. split; [exact Hc|]. rewrite <- (py_eqb_right k x (fst c) E). exact Ec.
      * clear IH. rewrite Forall_forall in Hx. assert (Hk : forall a, In a d -> py_eqb k (fst a) = false) by (intros a Ha; rewrite (py_eqb_left k x (fst a) E); apply (Hx _ Ha)). clear - Hd Hk.
        revert Hk. induction Hd as [|a b d d' [Ea Eb] Hd IH]; intros Hk; [constructor|]. constructor; [|apply IH; intros z Hz; apply Hk; right; exact Hz]. split; [exact Ea|]. destruct Eb as [Eb|Eb]; [left; exact Eb|right]. cbn [existsb fst] in Eb. rewrite (Hk a (or_introl eq_refl)) in Eb. exact Eb.
    + constructor; [|apply IH; [exact HD'|exact Hd]]. split; [reflexivity|]. destruct Ey as [Ey|Ey]; [left; exact Ey|right]. cbn [existsb fst] in Ey. rewrite E in Ey. exact Ey.
Qed.
(** cells with the same keys that differ at most where the key comes again *)
Inductive alike_cells : list (scalar * scalar) -> list (scalar * scalar) -> Prop :=
| al_nil : alike_cells [] []
| al_cons k v v' l l' : v = v' \/ existsb (fun c => py_eqb (fst c) k) l = true -> alike_cells l l' -> alike_cells ((k, v) :: l) ((k, v') :: l').
Lemma fold_agree l l' : alike_cells l l' -> forall d d', distinct d -> Forall2 (agree l) d d' -> fold_left stp l d = fold_left stp l' d'.
Proof.
  intros H. induction H as [|k v v' l l' Hv H IH]; intros d d' HD HA; cbn [fold_left].
  - clear HD. induction HA as [|[a b] [a' b'] d d' [Ea Eb] _ IHd]; [reflexivity|]. destruct Eb as [Eb|Eb]; [|discriminate Eb]. cbn in Ea, Eb, IHd. subst. reflexivity.
  - apply IH; [apply kset_distinct, HD|]. unfold stp. cbn [fst snd]. apply kset_agree; assumption.
Qed.
Lemma make_line_alike l l' : alike_cells l l' -> make_line l = make_line l'.
Proof. intros H. rewrite !make_line_stp. apply (fold_agree _ _ H); constructor. Qed.

Lemma shadowed_tail h hs j : shadowed (h :: hs) (S j) <-> shadowed hs j.
Proof.
  split; intros (k & a & b & Hk & Ha & Hb & E).
  - destruct k as [|k]; [lia|]. exists k, a, b. repeat split; try assumption. lia.
  - exists (S k), a, b. repeat split; try assumption. lia.
Qed.
Lemma cells_alike f e hs : forall row row', length row = length row' -> (forall j, ~ shadowed hs j -> nth_error row j = nth_error row' j) ->
  (forall j, shadowed hs j -> (j < length row)%nat -> exists k h h', (j < k < length row)%nat /\ heading_at hs j h /\ heading_at hs k h' /\ py_eqb h h' = true) ->
  alike_cells (map (mask f e) (combine hs row)) (map (mask f e) (combine hs row')).
Proof.
  induction hs as [|h hs IH]; intros row row' Hl Ha Hs; [constructor|]. destruct row as [|v row], row' as [|v' row']; try discriminate Hl; [constructor|]. cbn [combine map]. unfold mask at 1 3. cbn [fst snd]. constructor.
  - assert (D : v = v' \/ exists k h', (0 < k < length (v :: row))%nat /\ heading_at (h :: hs) k h' /\ py_eqb h h' = true).
    { destruct (existsb (py_eqb h) hs) eqn:E.
      - right. destruct (Hs 0%nat) as (k & a & b & Hk & H1 & H2 & H3); [|cbn; lia|injection H1 as <-; exists k, b; auto].
        apply existsb_exists in E as (x & Hx & Ex). apply In_nth_error in Hx as (i & Hi). exists (S i), h, x. repeat split; try assumption. lia.
      - left. assert (Hn : ~ shadowed (h :: hs) 0).
        { intros (k & a & b & Hk & H1 & H2 & H3). injection H1 as <-. destruct k as [|k]; [lia|]. assert (existsb (py_eqb h) hs = true); [|congruence]. apply existsb_exists. exists b. split; [|exact H3]. apply nth_error_In with k. exact H2. }
        specialize (Ha _ Hn). cbn in Ha. congruence. }
    destruct D as [-> |(k & h' & Hk & H2 & H3)]; [left; reflexivity|]. right. destruct k as [|k]; [lia|]. cbn [length] in Hk. destruct (nth_error row k) as [y|] eqn:Ey; [|apply nth_error_None in Ey; lia].
    apply existsb_exists. exists (mask f e (h', y)). split; [|cbn [fst mask]; rewrite py_eqb_sym; exact H3]. apply in_map. cbn in H2. rewrite (combine_split hs row k h' y H2 Ey). apply in_app_iff. right. left. reflexivity.
  - apply IH; [injection Hl as Hl; exact Hl| |].
    + intros j Hj. apply (Ha (S j)). rewrite shadowed_tail. exact Hj.
    + intros j Hj Hjl. destruct (Hs (S j)) as (k & a & b & Hk & H1 & H2 & H3); [apply shadowed_tail; exact Hj|cbn [length]; lia|]. destruct k as [|k]; [lia|]. cbn [length] in Hk. exists k, a, b. repeat split; try assumption; lia.
Qed.

(** ** Whole sheets *)
Lemma mask_csv e hs row : map (mask Csv e) (combine hs row) = combine hs row.
Proof. rewrite <- (map_id (combine hs row)) at 2. apply map_ext. intros [h v]. reflexivity. Qed.
Lemma csv_cells_mask e hs row : csv_cells hs row = map (mask Csv e) (combine hs (pad (length hs) (firstn (length hs) row))).
Proof. rewrite mask_csv. apply csv_cells_pad. Qed.
Lemma ods_kept e hs : (sc_hash e = true -> forall h, In h hs -> falsy h = true \/ exists s, h = SStr s) -> forall rows, Forall (reaches Ods hs) rows ->
  exists ls rows', ods_rows e hs rows = Ok ls [] /\ kept (no_value Ods e hs) rows rows' /\ Forall2 (row_read Ods e hs) rows' ls.
Proof.
  intros Hh rows HR. induction HR as [|row rows Hr _ (ls & rows' & A1 & A2 & A3)]; [exists [], []; repeat constructor|]. cbn [ods_rows]. rewrite (ods_cells_counts e hs Hh row), A1. cbn [bind ret app]. fold (mask Ods e).
  assert (RR : row_read Ods e hs row (make_line (map (mask Ods e) (combine hs row)))) by (apply row_reads; [reflexivity|right; auto]).
  set (l0 := make_line _) in *. change (make_line (map (fun hv : scalar * scalar => (fst hv, if heading_counts Ods e (fst hv) then snd hv else SNone)) (combine hs row))) with l0.
  destruct (forallb _ l0) eqn:En.
  - exists ls, rows'. split; [reflexivity|]. split; [|exact A3]. apply kp_drop; [|exact A2]. intros j h Hl Hn Hc. destruct RR as [_ RR]. specialize (RR j h Hl Hn). rewrite Hc in RR. rewrite <- RR. unfold under.
    destruct (kget h l0) as [v|] eqn:Ek; [|reflexivity]. clear - Ek En. induction l0 as [|[x y] l IH]; [discriminate Ek|]. unfold kget in Ek. cbn [aget] in Ek. cbn [forallb snd] in En. apply andb_prop in En as [En1 En2]. destruct (py_eqb h x); [injection Ek as ->; destruct v; reflexivity || discriminate En1|apply IH; assumption].
  - exists (l0 :: ls), (row :: rows'). split; [reflexivity|]. split; [apply kp_keep, A2|]. constructor; assumption.
Qed.
Lemma pad_ge w r : (w <= length (pad w r))%nat.
Proof. unfold pad. rewrite app_length, repeat_length. lia. Qed.

Theorem last_column_read f rd c g name L : rd_vertical rd = false -> laid_out rd c L -> is_read f (ly_conf L) name ->
  (ly_heading L < ly_first L)%nat -> (ly_first L <= length g)%nat -> hash_ok f (ly_conf L) (row_at g (ly_heading L)) ->
  (forall row, In row (skipn (ly_first L) g) -> reaches f (row_at g (ly_heading L)) row) ->
  exists ls rows, lines_in f rd c g = Ok ls [] /\ kept (no_value f (ly_conf L) (headings_of f rd c name g)) (skipn (ly_first L) g) rows /\
    Forall2 (row_read f (ly_conf L) (headings_of f rd c name g)) rows ls.
Proof.
  intros Hv HL Hr Hlt Hlen Hh HR. pose proof (laid_out_conf _ _ _ HL) as Hc. destruct (laid_out_rows _ _ _ HL) as [H1 H2]. rewrite (headings_read f rd c g name L Hv HL Hr Hlt Hlen).
  pose proof (hs_row g L Hlt Hlen) as Hrow. set (hs := row_at g (ly_heading L)) in *. set (e := ly_conf L) in *. unfold lines_in. destruct f eqn:Ef.
  - unfold csv_lines. rewrite Hc. fold e. cbv zeta. rewrite H1.
    assert (Hx : (length g <? ly_heading L)%nat = false) by (apply Nat.ltb_ge; lia). rewrite Hx. rewrite (skipn_S_tl _ _ _ Hrow).
    assert (Hy : (length (skipn (S (ly_heading L)) g) <? header_of e - 1)%nat = false) by (apply Nat.ltb_ge; rewrite skipn_length; lia). rewrite Hy.
    eexists. exists (filter (fun row => negb (is_nil row)) (skipn (ly_first L) g)). split; [reflexivity|]. rewrite skipn_skipn. replace (header_of e - 1 + S (ly_heading L))%nat with (ly_first L) by lia. split.
    + induction (skipn (ly_first L) g) as [|row rows IH]; [constructor|]. cbn [filter]. destruct row as [|v row]; cbn [is_nil negb].
      * apply kp_drop; [|apply IH; intros r Hi; apply HR; right; exact Hi]. intros j h _ _ _. destruct j; reflexivity.
      * apply kp_keep, IH. intros r Hi; apply HR; right; exact Hi.
    + clear HR. induction (filter _ _) as [|row rows IH]; [constructor|]. cbn [map]. constructor; [|exact IH]. rewrite csv_cells_pad, <- (mask_csv e). split; [intros h v; apply row_keys|].
      intros j h Hl Hn. assert (Hj : (j < length hs)%nat) by (apply nth_error_Some; destruct Hl as [Hl _]; unfold heading_at in Hl; rewrite Hl; discriminate).
      rewrite (row_under Csv e hs _ j h Hl Hn); [|intros Hle; exfalso; pose proof (pad_ge (length hs) (firstn (length hs) row)); lia]. cbn [heading_counts]. rewrite nth_pad.
      clear - Hj. revert j row Hj. generalize (length hs) as n. induction n as [|n IH]; intros j row Hj; [lia|]. destruct row as [|v row]; [destruct j; reflexivity|]. destruct j as [|j]; [reflexivity|]. cbn [firstn nth]. apply IH. lia.
  - unfold xlsx_lines. rewrite Hc, Hv. fold e. cbv zeta. eexists. exists (skipn (ly_first L) g). split; [reflexivity|].
    replace (skip_of e + conf_line c)%nat with (ly_heading L) by lia. rewrite H2. unfold xlsx_row. rewrite (wide_nth _ _ _ Hrow).
    rewrite wide_skip by (apply (g_not_nil g L Hlt Hlen)). rewrite map_map. split.
    + induction (skipn (ly_first L) g) as [|row rows IH]; [constructor|apply kp_keep, IH]. intros r Hi; apply HR; right; exact Hi.
    + assert (Hw : (length (pad (width g) hs) <= width g)%nat) by (rewrite pad_length; [lia|]; apply width_ge, (nth_error_In _ _ Hrow)).
      clear HR. induction (skipn (ly_first L) g) as [|row rows IH]; [constructor|]. cbn [map]. constructor; [|exact IH]. rewrite xlsx_cells_counts. apply (row_reads Xlsx e (pad (width g) hs) row (pad (width g) row)).
      * intros j. apply nth_pad.
      * left. pose proof (pad_ge (width g) row). lia.
  - unfold ods_lines. rewrite Hc, Hv. fold e. cbv zeta. replace (skip_of e + conf_line c)%nat with (ly_heading L) by lia. rewrite Hrow, H2.
    apply (ods_kept e hs (fun H => Hh eq_refl H)). apply Forall_forall. exact HR.
Qed.

(** [g'] is [g] with other values in columns that are not the last of their heading *)
Lemma reach_last hs j : shadowed hs j -> exists k h a, (j < k)%nat /\ heading_at hs j a /\ last_at hs k h /\ py_eqb a h = true.
Proof.
  intros (k0 & a & b & Hk & H1 & H2 & H3).
  assert (G : forall n k b, (length hs - k <= n)%nat -> (j < k)%nat -> heading_at hs k b -> py_eqb a b = true -> exists k' h, (j < k')%nat /\ last_at hs k' h /\ py_eqb a h = true).
  { induction n as [|n IH]; intros k b' Hle Hk' Hb E.
    - assert (H : nth_error hs k <> None) by (unfold heading_at in Hb; rewrite Hb; discriminate). apply nth_error_Some in H. lia.
    - destruct (existsb (py_eqb b') (skipn (S k) hs)) eqn:Ex.
      + apply existsb_exists in Ex as (x & Hx & Ex). apply In_nth_error in Hx as (i & Hi). rewrite nth_error_skipn in Hi. apply (IH (S k + i)%nat x); [lia|lia|exact Hi|eapply py_eqb_trans; eassumption].
      + exists k, b'. split; [exact Hk'|]. split; [|exact E]. split; [exact Hb|]. intros m x Hm Hx. destruct (py_eqb b' x) eqn:Ebx; [|reflexivity]. assert (existsb (py_eqb b') (skipn (S k) hs) = true); [|congruence].
        apply existsb_exists. exists x. split; [|exact Ebx]. apply nth_error_In with (m - S k)%nat. rewrite nth_error_skipn. replace (S k + (m - S k))%nat with m by lia. exact Hx. }
  destruct (G (length hs) k0 b ltac:(lia) Hk H2 H3) as (k & h & A1 & A2 & A3). exists k, h, a. auto.
Qed.
Lemma line_alike f e hs row row' : same_but_shadowed hs row row' -> (length hs <= length row)%nat \/ (f = Ods /\ reaches f hs row) ->
  make_line (map (mask f e) (combine hs row)) = make_line (map (mask f e) (combine hs row')).
Proof.
  intros [Hl Ha] Hr. apply make_line_alike, cells_alike; [exact Hl|exact Ha|]. intros j Hj Hjl. destruct Hr as [Hr|[-> Hr]].
  - destruct Hj as (k & a & b & Hk & H1 & H2 & H3). exists k, a, b. repeat split; try assumption; try lia. assert (H : nth_error hs k <> None) by (unfold heading_at in H2; rewrite H2; discriminate). apply nth_error_Some in H. lia.
  - pose proof Hj as Hj'. apply reach_last in Hj as (k & h & a & Hk & H1 & H2 & H3). exists k, a, h. repeat split; try assumption; try lia; [|apply H2]. apply (Hr eq_refl j k); [exact Hj'|]. exists a, h. auto.
Qed.
Lemma nth_error_app_same {A} (r r' t : list A) j : length r = length r' -> nth_error r j = nth_error r' j -> nth_error (r ++ t) j = nth_error (r' ++ t) j.
Proof.
  intros Hl Hn. destruct (Nat.lt_ge_cases j (length r)) as [H|H]; [rewrite !nth_error_app1 by lia; exact Hn|rewrite !nth_error_app2 by lia; rewrite Hl; reflexivity].
Qed.
Lemma pad_same hs w r r' : same_but_shadowed hs r r' -> same_but_shadowed hs (pad w r) (pad w r').
Proof.
  intros [Hl Ha]. unfold pad. rewrite <- Hl. split; [rewrite !app_length; lia|]. intros j Hj. apply nth_error_app_same; [exact Hl|apply Ha, Hj].
Qed.
Lemma firstn_same hs n r r' : same_but_shadowed hs r r' -> same_but_shadowed hs (firstn n r) (firstn n r').
Proof.
  intros [Hl Ha]. split; [rewrite !firstn_length; lia|]. intros j Hj. specialize (Ha j Hj). clear - Ha Hl. revert r r' n Ha Hl. induction j as [|j IH]; intros [|x r] [|y r'] [|n] Ha Hl; try discriminate Hl; try reflexivity; cbn in *; [exact Ha|]. apply IH; [exact Ha|lia].
Qed.
Lemma more_shadowed hs t r r' : same_but_shadowed hs r r' -> same_but_shadowed (hs ++ t) r r'.
Proof.
  intros [Hl Ha]. split; [exact Hl|]. intros j Hj. apply Ha. intros (k & a & b & Hk & H1 & H2 & H3). apply Hj. exists k, a, b. repeat split; try assumption; unfold heading_at in *; rewrite nth_error_app1; try assumption; apply nth_error_Some; congruence.
Qed.
Lemma width_same hs g g' : Forall2 (same_but_shadowed hs) g g' -> width g = width g'.
Proof. intros H. unfold width. induction H as [|r r' g g' [Hl _] _ IH]; [reflexivity|]. cbn [fold_right]. rewrite IH, Hl. reflexivity. Qed.
Lemma same_refl hs r : same_but_shadowed hs r r. Proof. split; reflexivity. Qed.
Lemma Forall2_map_eq {A B} (P : A -> A -> Prop) (h h' : A -> B) l l' : Forall2 P l l' -> (forall x y, In x l -> P x y -> h x = h' y) -> map h l = map h' l'.
Proof. intros H. induction H as [|x y l l' Hxy _ IH]; intros Hh; [reflexivity|]. cbn [map]. rewrite (Hh x y (or_introl eq_refl) Hxy), IH; [reflexivity|]. intros a b Hi. apply Hh. right. exact Hi. Qed.

Theorem shadowed_ignored f rd c g g' name L : rd_vertical rd = false -> laid_out rd c L -> is_read f (ly_conf L) name ->
  (ly_heading L < ly_first L)%nat -> (ly_first L <= length g)%nat -> hash_ok f (ly_conf L) (row_at g (ly_heading L)) ->
  (forall row, In row (skipn (ly_first L) g) -> reaches f (row_at g (ly_heading L)) row) ->
  firstn (ly_first L) g' = firstn (ly_first L) g -> Forall2 (same_but_shadowed (row_at g (ly_heading L))) (skipn (ly_first L) g) (skipn (ly_first L) g') ->
  headings_of f rd c name g' = headings_of f rd c name g /\ lines_in f rd c g' = lines_in f rd c g.
Proof.
  intros Hv HL Hr Hlt Hlen Hh HR Hf HS. pose proof (laid_out_conf _ _ _ HL) as Hc. destruct (laid_out_rows _ _ _ HL) as [H1 H2].
  assert (Hlen' : (ly_first L <= length g')%nat) by (apply (f_equal (@length _)) in Hf; rewrite !firstn_length in Hf; lia).
  pose proof (hs_row g L Hlt Hlen) as Hrow. pose proof (hs_row g' L Hlt Hlen') as Hrow'.
  assert (Ehs : row_at g' (ly_heading L) = row_at g (ly_heading L)).
  { unfold row_at in *. rewrite <- (firstn_skipn (ly_first L) g), <- (firstn_skipn (ly_first L) g'), Hf. rewrite !nth_error_app1 by (rewrite firstn_length; lia). reflexivity. }
  rewrite Ehs in Hrow'.
  assert (Ew : width g' = width g).
  { symmetry. apply (width_same (row_at g (ly_heading L))).
    assert (HF : Forall2 (same_but_shadowed (row_at g (ly_heading L))) (firstn (ly_first L) g) (firstn (ly_first L) g')).
    { rewrite Hf. clear. induction (firstn (ly_first L) g); constructor; [apply same_refl|assumption]. }
    pose proof (Forall2_app HF HS) as H. rewrite !firstn_skipn in H. exact H. }
  split; [rewrite !(headings_read f rd c _ name L) by assumption; rewrite Ehs, Ew; reflexivity|].
  set (hs := row_at g (ly_heading L)) in *. set (e := ly_conf L) in *. unfold lines_in. destruct f eqn:Ef.
  - unfold csv_lines. rewrite Hc. fold e. cbv zeta. rewrite H1.
    assert (Hx : forall g0 : grid, (ly_first L <= length g0)%nat -> (length g0 <? ly_heading L)%nat = false) by (intros g0 H0; apply Nat.ltb_ge; lia). rewrite !Hx by assumption.
    rewrite (skipn_S_tl _ _ _ Hrow), (skipn_S_tl _ _ _ Hrow').
    assert (Hy : forall g0 : grid, (ly_first L <= length g0)%nat -> (length (skipn (S (ly_heading L)) g0) <? header_of e - 1)%nat = false) by (intros g0 H0; apply Nat.ltb_ge; rewrite skipn_length; lia). rewrite !Hy by assumption.
    rewrite !skipn_skipn. replace (header_of e - 1 + S (ly_heading L))%nat with (ly_first L) by lia. f_equal. clear HR. induction HS as [|r r' rs rs' Hrr _ IH]; [reflexivity|].
    cbn [filter]. pose proof (proj1 Hrr) as Hll. destruct r as [|v r], r' as [|v' r']; try discriminate Hll; cbn [is_nil negb]; [exact IH|]. cbn [map]. rewrite IH. f_equal.
    rewrite !(csv_cells_mask e). symmetry. apply line_alike; [apply pad_same, firstn_same, Hrr|left; apply pad_ge].
  - unfold xlsx_lines. rewrite Hc, Hv. fold e. cbv zeta. replace (skip_of e + conf_line c)%nat with (ly_heading L) by lia. rewrite H2. unfold xlsx_row. rewrite (wide_nth _ _ _ Hrow), (wide_nth _ _ _ Hrow').
    rewrite !wide_skip by (first [apply (g_not_nil g L Hlt Hlen)|apply (g_not_nil g' L Hlt Hlen')]). rewrite !map_map, Ew. f_equal. symmetry. apply (Forall2_map_eq _ _ _ _ _ HS). intros r r' _ Hrr. rewrite !xlsx_cells_counts. apply (line_alike Xlsx e).
    + unfold pad at 1. apply more_shadowed, pad_same, Hrr.
    + left. rewrite pad_length by (apply width_ge, (nth_error_In _ _ Hrow)). apply pad_ge.
  - unfold ods_lines. rewrite Hc, Hv. fold e. cbv zeta. replace (skip_of e + conf_line c)%nat with (ly_heading L) by lia. rewrite Hrow, Hrow', H2.
    clear - HS HR Hh. induction HS as [|r r' rs rs' Hrr _ IH]; [reflexivity|]. cbn [ods_rows]. rewrite !(ods_cells_counts e hs (fun H => Hh eq_refl H)), IH by (intros row Hi; apply HR; right; exact Hi). cbn [bind ret].
    pose proof (line_alike Ods e hs r r' Hrr (or_intror (conj eq_refl (HR r (or_introl eq_refl))))) as E. unfold mask in E. rewrite E. reflexivity.
Qed.
