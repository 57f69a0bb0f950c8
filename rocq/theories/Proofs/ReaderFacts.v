(** Facts about the spreadsheet readers. *)
From Coq Require Import Sorted Permutation Lia.
From Verif.Base Require Import PyStr PyNum PyVal PyDict Outcome.
From Verif.Model Require Import Warn Lib Convert Input Readers.
From Verif.Spec Require Import Filled Grids.
From Verif.Proofs Require Import EraseRun.

(** ** Layout *)
Lemma sc_any_iff c : sc_any c = false <-> c = empty_conf.
Proof.
  split; [|intros ->; reflexivity]. destruct c as [a b i h x r n]. unfold sc_any, empty_conf.
  destruct a, b, i, h, x, r, n; try discriminate. reflexivity.
Qed.
Lemma laid_out_conf rd c L : laid_out rd c L -> conf_of rd c = ly_conf L.
Proof.
  intros (H & _). unfold conf_of. destruct H as [Hu Hc|Hu Hc|Hu]; rewrite Hu; [| |reflexivity].
  - destruct (sc_any c) eqn:E; [reflexivity|]. apply sc_any_iff in E. contradiction.
  - apply sc_any_iff in Hc. rewrite Hc. reflexivity.
Qed.
Lemma laid_out_rows rd c L : laid_out rd c L ->
  (conf_line c + skip_of (ly_conf L) = ly_heading L /\ ly_heading L + header_of (ly_conf L) = ly_first L)%nat.
Proof.
  intros (_ & n & s & h & Hn & Hs & Hh & H1 & H2). unfold conf_line, skip_of, header_of. unfold says in *.
  assert (En : n = if sc_any c then 1%nat else 0%nat).
  { destruct Hn as [[Hc ->]|[Hc ->]]; [apply sc_any_iff in Hc; rewrite Hc; reflexivity|].
    destruct (sc_any c) eqn:E; [reflexivity|]. apply sc_any_iff in E. contradiction. }
  destruct (sc_skip (ly_conf L)), (sc_header (ly_conf L)); subst; lia.
Qed.
Lemma laid_out_exists rd c : exists L, laid_out rd c L.
Proof.
  exists {| ly_conf := conf_of rd c; ly_heading := conf_line c + skip_of (conf_of rd c);
            ly_first := conf_line c + skip_of (conf_of rd c) + header_of (conf_of rd c) |}.
  split; cbn [ly_conf ly_heading ly_first].
  - unfold conf_of. destruct (rd_use rd) eqn:U; [|constructor; exact U]. destruct (sc_any c) eqn:E.
    + apply own_conf; [exact U|]. intros ->. discriminate.
    + apply base_conf; [exact U|]. apply sc_any_iff. exact E.
  - exists (conf_line c), (skip_of (conf_of rd c)), (header_of (conf_of rd c)). unfold says, skip_of, header_of, conf_line.
    repeat split; try reflexivity.
    + destruct (sc_any c) eqn:E; [right; split; [intros ->; discriminate|reflexivity]|left; split; [apply sc_any_iff; exact E|reflexivity]].
    + destruct (sc_skip (conf_of rd c)); reflexivity.
    + destruct (sc_header (conf_of rd c)); reflexivity.
Qed.

(** ** make_line *)
Definition dup_blank (cells : list (scalar * scalar)) : Prop :=
  ForallOrdPairs (fun a b => py_eqb (fst b) (fst a) = true -> blank (snd a) = true /\ blank (snd b) = true) cells.

Definition step (d : line) (hv : scalar * scalar) : line := kset (fst hv) (snd hv) d.
Lemma kset_new {V} k (v : V) d : kget k d = None -> kset k v d = d ++ [(k, v)].
Proof.
  unfold kget, kset. induction d as [|[k' v'] d IH]; cbn [aget aset app]; [reflexivity|].
  destruct (py_eqb k k'); [discriminate|]. intros H. rewrite IH by exact H. reflexivity.
Qed.
Lemma kset_blank k v (d : line) : (forall k' v', In (k', v') d -> py_eqb k k' = true -> blank v' = true) -> blank v = true ->
  line_values (kset k v d) = line_values d.
Proof.
  intros H Hv. unfold kset. induction d as [|[k' v'] d IH]; cbn [aset].
  - unfold line_values. cbn [filter snd]. rewrite Hv. reflexivity.
  - destruct (py_eqb k k') eqn:E; unfold line_values in *; cbn [filter snd].
    + rewrite (H k' v' (or_introl eq_refl) E), Hv. reflexivity.
    + rewrite IH; [reflexivity|]. intros a b Hin. apply H. right. exact Hin.
Qed.
Lemma kget_None_keys {V} k (d : list (scalar * V)) : kget k d = None <-> forall k' v', In (k', v') d -> py_eqb k k' = false.
Proof.
  unfold kget. induction d as [|[a b] d IH]; cbn [aget]; [split; [intros _ k' v' []|reflexivity]|].
  destruct (py_eqb k a) eqn:E.
  - split; [discriminate|]. intros H. rewrite (H a b (or_introl eq_refl)) in E. discriminate.
  - rewrite IH. split; [intros H k' v' [[= -> ->]|Hin]; [exact E|eapply H; exact Hin]|intros H k' v' Hin; apply (H k' v'); right; exact Hin].
Qed.
Lemma kset_In {V} k (v : V) d k' v' : In (k', v') (kset k v d) -> In (k', v') d \/ (k' = k /\ v' = v) \/ (v' = v /\ py_eqb k k' = true /\ exists w, In (k', w) d).
Proof.
  unfold kset. induction d as [|[a b] d IH]; cbn [aset].
  - intros [[= -> ->]|[]]. right; left; auto.
  - destruct (py_eqb k a) eqn:E.
    + intros [[= -> ->]|H]; [right; right; split; [reflexivity|split; [exact E|exists b; left; reflexivity]]|left; right; exact H].
    + intros [[= -> ->]|H]; [left; left; reflexivity|]. destruct (IH H) as [H1|[H1|(H1 & H2 & w & H3)]]; [left; right; exact H1|auto|].
      right; right. split; [exact H1|]. split; [exact H2|]. exists w. right. exact H3.
Qed.

Lemma make_line_gen cells : forall prefix d, dup_blank (prefix ++ cells) ->
  line_values d = line_values prefix -> (forall k v, In (k, v) d -> exists v0, In (k, v0) prefix /\ blank v = blank v0) ->
  line_values (fold_left step cells d) = line_values (prefix ++ cells).
Proof.
  induction cells as [|[h v] cells IH]; intros prefix d Hd Hv Hin; cbn [fold_left]; [rewrite app_nil_r; exact Hv|].
  assert (Hp : forall k0 v0, In (k0, v0) prefix -> py_eqb h k0 = true -> blank v0 = true /\ blank v = true).
  { intros k0 v0 Hi He. apply in_split in Hi as (p1 & p2 & ->).
    assert (Hq : ForallOrdPairs (fun a b : scalar * scalar => py_eqb (fst b) (fst a) = true -> blank (snd a) = true /\ blank (snd b) = true) ((k0, v0) :: (p2 ++ (h, v) :: cells))).
    { clear - Hd. unfold dup_blank in Hd. rewrite <- app_assoc in Hd. cbn [app] in Hd. induction p1 as [|x p1 IH]; [exact Hd|].
      inversion Hd as [|? ? _ Hd']; subst. apply IH. exact Hd'. }
    inversion Hq as [|? ? Hf _]; subst. rewrite Forall_forall in Hf. apply (Hf (h, v)); [apply in_or_app; right; left; reflexivity|exact He]. }
  replace (prefix ++ (h, v) :: cells) with ((prefix ++ [(h, v)]) ++ cells) by (rewrite <- app_assoc; reflexivity).
  apply IH; [rewrite <- app_assoc; exact Hd| |].
  - unfold step. cbn [fst snd]. destruct (kget h d) as [x|] eqn:G.
    + assert (Hex : exists k' v', In (k', v') d /\ py_eqb h k' = true).
      { clear - G. unfold kget in G. induction d as [|[a b] d IH]; cbn [aget] in G; [discriminate|]. destruct (py_eqb h a) eqn:E.
        - exists a, b. split; [left; reflexivity|exact E].
        - destruct (IH G) as (k' & v' & H1 & H2). exists k', v'. split; [right; exact H1|exact H2]. }
      destruct Hex as (k' & v' & H1 & H2). destruct (Hin _ _ H1) as (v0 & H3 & _). destruct (Hp _ _ H3 H2) as [_ Hb].
      rewrite kset_blank; [|intros a b Ha Hb'; destruct (Hin _ _ Ha) as (v1 & Hi1 & ->); apply (Hp _ _ Hi1 Hb')|exact Hb].
      rewrite Hv. unfold line_values. rewrite filter_app. cbn [filter snd]. rewrite Hb. rewrite app_nil_r. reflexivity.
    + rewrite kset_new by exact G. unfold line_values in *. rewrite !filter_app. rewrite Hv. reflexivity.
  - intros k w Hi. unfold step in Hi. apply kset_In in Hi as [Hi|[[-> ->]|(-> & He & w0 & Hi)]].
    + destruct (Hin _ _ Hi) as (v0 & H1 & H2). exists v0. split; [apply in_or_app; left; exact H1|exact H2].
    + exists v. split; [apply in_or_app; right; left; reflexivity|reflexivity].
    + destruct (Hin _ _ Hi) as (v0 & H1 & H2). destruct (Hp _ _ H1 He) as [Ha Hb]. exists v0. split; [apply in_or_app; left; exact H1|cbn [snd]; congruence].
Qed.
Lemma make_line_values cells : dup_blank cells -> line_values (make_line cells) = line_values cells.
Proof. intros H. apply (make_line_gen cells [] []); [exact H|reflexivity|intros k v []]. Qed.
(** with different keys nothing changes *)
Definition keys_once (cells : list (scalar * scalar)) : Prop := ForallOrdPairs (fun a b => py_eqb (fst b) (fst a) = false) cells.
Lemma make_line_once_gen cells : forall d, keys_once (d ++ cells) -> fold_left step cells d = d ++ cells.
Proof.
  induction cells as [|[h v] cells IH]; intros d Hd; cbn [fold_left]; [rewrite app_nil_r; reflexivity|].
  unfold step at 2. cbn [fst snd]. rewrite kset_new.
  - rewrite IH; rewrite <- app_assoc; [reflexivity|exact Hd].
  - apply kget_None_keys. intros k' v' Hi. apply in_split in Hi as (p1 & p2 & ->). rewrite <- app_assoc in Hd. cbn [app] in Hd.
    assert (Hq : keys_once ((k', v') :: p2 ++ (h, v) :: cells)) by (clear - Hd; induction p1 as [|x p1 IH]; [exact Hd|inversion Hd; subst; auto]).
    inversion Hq as [|? ? Hf _]; subst. rewrite Forall_forall in Hf. apply (Hf (h, v)). apply in_or_app. right. left. reflexivity.
Qed.
Lemma make_line_once cells : keys_once cells -> make_line cells = cells.
Proof. intros H. exact (make_line_once_gen cells [] H). Qed.
Lemma make_line_length_gen cells : forall d, (length (fold_left step cells d) <= length d + length cells)%nat.
Proof.
  induction cells as [|c cells IH]; intros d; cbn [fold_left length]; [lia|]. specialize (IH (step d c)).
  assert (length (step d c) <= S (length d))%nat; [|lia].
  clear IH. unfold step, kset. induction d as [|[a b] d IHd]; cbn [aset length]; [lia|]. destruct (py_eqb _ _); cbn [length]; lia.
Qed.
Lemma make_line_length cells : (length (make_line cells) <= length cells)%nat.
Proof. exact (make_line_length_gen cells []). Qed.

(** ForallOrdPairs helpers *)
Lemma FOP_map {A B} (f : A -> B) (P : B -> B -> Prop) l : ForallOrdPairs (fun a b => P (f a) (f b)) l -> ForallOrdPairs P (map f l).
Proof. induction 1 as [|a l Hf _ IH]; cbn [map]; [constructor|]. constructor; [|exact IH]. apply Forall_map. exact Hf. Qed.
Lemma FOP_imp {A} (P Q : A -> A -> Prop) l : (forall a b, In a l -> In b l -> P a b -> Q a b) -> ForallOrdPairs P l -> ForallOrdPairs Q l.
Proof.
  intros H F. induction F as [|a l Hf _ IH]; [constructor|]. constructor.
  - rewrite Forall_forall in *. intros b Hb. apply H; [left; reflexivity|right; exact Hb|auto].
  - apply IH. intros x y Hx Hy. apply H; right; assumption.
Qed.
Lemma FOP_combine (P : scalar -> scalar -> Prop) hs : ForallOrdPairs P hs -> forall row : list scalar, ForallOrdPairs (fun a b => P (fst a) (fst b)) (combine hs row).
Proof.
  induction 1 as [|h hs Hf _ IH]; intros row; cbn [combine]; [constructor|]. destruct row as [|v row]; [constructor|]. constructor; [|apply IH].
  rewrite Forall_forall in *. intros [a b] Hab. apply in_combine_l in Hab. cbn [fst]. auto.
Qed.

(** ** The lines of the three readers *)
Lemma csv_cells_pad hs : forall row, csv_cells hs row = combine hs (pad (length hs) (firstn (length hs) row)).
Proof.
  unfold pad. induction hs as [|h hs IH]; intros row; cbn [csv_cells combine]; [reflexivity|]. destruct row as [|v row]; cbn [length firstn app Nat.sub repeat combine].
  - rewrite IH. rewrite firstn_nil. cbn [length app]. rewrite Nat.sub_0_r. reflexivity.
  - rewrite IH. reflexivity.
Qed.
Lemma values_combine_pad f e hs : forall row n, line_values (combine hs (row ++ repeat SNone n)) = line_values (combine hs row) /\
  row_values f e hs (row ++ repeat SNone n) = row_values f e hs row.
Proof.
  induction hs as [|h hs IH]; intros row n; [split; reflexivity|]. destruct row as [|v row]; cbn [app].
  - unfold row_values, line_values in *. cbn [combine]. split; [|].
    + destruct n as [|n]; cbn [repeat combine filter snd blank negb]; [reflexivity|]. destruct (IH [] n) as [E _]. cbn [app] in E. rewrite E. destruct hs; reflexivity.
    + destruct n as [|n]; cbn [repeat combine filter fst snd blank negb]; [reflexivity|]. rewrite andb_false_r. destruct (IH [] n) as [_ E]. cbn [app] in E. rewrite E. destruct hs; reflexivity.
  - destruct (IH row n) as [E1 E2]. unfold row_values, line_values in *. cbn [combine filter fst snd]. rewrite E1, E2. split; reflexivity.
Qed.
Lemma combine_firstn_r {A B} (a : list A) : forall b : list B, combine a (firstn (length a) b) = combine a b.
Proof. induction a as [|x a IH]; intros b; [reflexivity|]. destruct b as [|y b]; cbn [length firstn combine]; [reflexivity|]. rewrite IH. reflexivity. Qed.

Lemma row_values_csv e hs row : row_values Csv e hs row = line_values (combine hs row).
Proof. reflexivity. Qed.
Lemma csv_line_values e hs row : once_headings Csv e hs -> line_values (make_line (csv_cells hs row)) = row_values Csv e hs row.
Proof.
  intros H. rewrite csv_cells_pad. rewrite make_line_values.
  - unfold pad. rewrite (proj1 (values_combine_pad Csv e hs _ _)). rewrite combine_firstn_r. reflexivity.
  - apply (FOP_imp (fun a b => py_eqb (fst b) (fst a) = true -> false = true)).
    + intros a b _ _ Hab He. discriminate (Hab He).
    + apply (FOP_combine (fun a b => py_eqb b a = true -> false = true)). eapply FOP_imp; [|exact H]. intros a b _ _ Hab He. destruct (Hab He) as [Hc _]. discriminate Hc.
Qed.

Lemma counts_iff f e h : f <> Csv ->
  (if falsy h then true else sc_hash e && (match h with SStr s => startswith s (u "#") | _ => false end)) = negb (heading_counts f e h).
Proof.
  intros Hf. assert (E : (match h with SStr s => startswith s (u "#") | _ => false end) = match h with SStr (c :: _) => (c =? 35)%N | _ => false end).
  { destruct h as [| | | | |s|]; try reflexivity. destruct s as [|c s]; [reflexivity|]. cbn [startswith u]. cbn. rewrite (N.eqb_sym 35 c) || idtac. destruct (c =? 35)%N, s; reflexivity. }
  rewrite E. unfold heading_counts. destruct f; [contradiction| |]; destruct (falsy h); cbn; try reflexivity; destruct (sc_hash e && _); reflexivity.
Qed.
Lemma xlsx_cells_counts e hs row : xlsx_cells e hs row = map (fun hv => (fst hv, if heading_counts Xlsx e (fst hv) then snd hv else SNone)) (combine hs row).
Proof.
  unfold xlsx_cells. apply map_ext. intros [h v]. cbn [fst snd]. pose proof (counts_iff Xlsx e h ltac:(discriminate)) as H.
  destruct (falsy h); [destruct (heading_counts Xlsx e h); [discriminate|reflexivity]|]. rewrite H. destruct (heading_counts Xlsx e h); reflexivity.
Qed.
Lemma masked_values f e cells : line_values (map (fun hv : scalar * scalar => (fst hv, if heading_counts f e (fst hv) then snd hv else SNone)) cells)
  = filter (fun hv => heading_counts f e (fst hv) && negb (blank (snd hv))) cells.
Proof.
  unfold line_values. induction cells as [|[h v] cells IH]; [reflexivity|]. cbn [map filter fst snd]. rewrite IH. destruct (heading_counts f e h); reflexivity.
Qed.
Lemma masked_dup f e hs row : once_headings f e hs ->
  dup_blank (map (fun hv : scalar * scalar => (fst hv, if heading_counts f e (fst hv) then snd hv else SNone)) (combine hs row)).
Proof.
  intros H. apply FOP_map. cbn [fst snd].
  apply (FOP_imp (fun a b => py_eqb (fst b) (fst a) = true -> heading_counts f e (fst a) = false /\ heading_counts f e (fst b) = false)).
  - intros a b _ _ Hab He. destruct (Hab He) as [-> ->]. split; reflexivity.
  - apply (FOP_combine (fun a b => py_eqb b a = true -> heading_counts f e a = false /\ heading_counts f e b = false)). exact H.
Qed.
Lemma xlsx_line_values e hs row : once_headings Xlsx e hs -> line_values (make_line (xlsx_cells e hs row)) = row_values Xlsx e hs row.
Proof. intros H. rewrite xlsx_cells_counts. rewrite make_line_values by (apply masked_dup; exact H). apply masked_values. Qed.
Lemma ods_cells_counts e hs : (sc_hash e = true -> forall h, In h hs -> falsy h = true \/ exists s, h = SStr s) -> forall row,
  ods_cells e hs row = ret (map (fun hv => (fst hv, if heading_counts Ods e (fst hv) then snd hv else SNone)) (combine hs row)).
Proof.
  induction hs as [|h hs IH]; intros Hh row; [reflexivity|]. destruct row as [|v row]; [reflexivity|]. cbn [ods_cells combine map fst snd].
  rewrite IH by (intros Ht x Hx; apply (Hh Ht); right; exact Hx).
  pose proof (counts_iff Ods e h ltac:(discriminate)) as Hc. destruct (falsy h) eqn:Ef.
  - destruct (heading_counts Ods e h); [discriminate|]. reflexivity.
  - destruct (sc_hash e) eqn:Es.
    + destruct (Hh eq_refl h (or_introl eq_refl)) as [Hx|[s ->]]; [congruence|]. cbn [andb] in Hc. rewrite Hc. destruct (heading_counts Ods e (SStr s)); reflexivity.
    + cbn [andb] in Hc. destruct (heading_counts Ods e h); [reflexivity|discriminate].
Qed.
Lemma ods_line_values e hs row : once_headings Ods e hs ->
  line_values (make_line (map (fun hv => (fst hv, if heading_counts Ods e (fst hv) then snd hv else SNone)) (combine hs row))) = row_values Ods e hs row.
Proof. intros H. rewrite make_line_values by (apply masked_dup; exact H). apply masked_values. Qed.
Lemma none_blank (l : line) : forallb (fun kv => is_none (snd kv)) l = true -> line_values l = [].
Proof.
  unfold line_values. induction l as [|[k v] l IH]; [reflexivity|]. cbn [forallb snd filter]. intros H. apply andb_prop in H as [H1 H2]. destruct v; try discriminate. cbn [blank negb]. auto.
Qed.
Lemma ods_rows_ok e hs : (sc_hash e = true -> forall h, In h hs -> falsy h = true \/ exists s, h = SStr s) -> forall rows,
  exists ls, ods_rows e hs rows = ret ls /\ (once_headings Ods e hs -> non_empty (map line_values ls) = non_empty (map (row_values Ods e hs) rows)) /\
    (forall l, In l ls -> (length l <= length hs)%nat).
Proof.
  intros Hh. induction rows as [|row rows (ls & IH1 & IH2 & IH3)]; [exists []; split; [reflexivity|split; [reflexivity|intros l []]]|].
  cbn [ods_rows]. rewrite (ods_cells_counts e hs Hh row), IH1. cbn [bind ret app].
  set (l0 := make_line _). assert (Hl : (length l0 <= length hs)%nat).
  { unfold l0. etransitivity; [apply make_line_length|]. rewrite map_length, combine_length. lia. }
  eexists. split; [reflexivity|]. cbn [map]. destruct (forallb _ l0) eqn:En; (split; [|]).
  - intros Ho. rewrite (IH2 Ho). rewrite <- (ods_line_values e hs row Ho). fold l0. rewrite (none_blank _ En). reflexivity.
  - exact IH3.
  - intros Ho. cbn [map]. rewrite <- (ods_line_values e hs row Ho). fold l0. unfold non_empty in *. cbn [filter]. rewrite (IH2 Ho). reflexivity.
  - intros l [<-|Hi]; [exact Hl|apply IH3; exact Hi].
Qed.

Lemma row_values_pad_h e hs n : forall row, row_values Xlsx e (hs ++ repeat SNone n) row = row_values Xlsx e hs row.
Proof.
  unfold row_values. induction hs as [|h hs IH]; intros row; cbn [app].
  - revert row. induction n as [|n IH]; intros row; [reflexivity|]. destruct row as [|v row]; [reflexivity|]. cbn [repeat combine filter fst snd heading_counts falsy negb andb]. rewrite IH. reflexivity.
  - destruct row as [|v row]; [reflexivity|]. cbn [combine filter]. rewrite IH. reflexivity.
Qed.
Lemma once_pad e hs n : once_headings Xlsx e hs -> once_headings Xlsx e (hs ++ repeat SNone n).
Proof.
  unfold once_headings. induction hs as [|h hs IH]; intros H; cbn [app].
  - induction n as [|n IHn]; cbn [repeat]; [constructor|]. constructor; [|exact IHn]. rewrite Forall_forall. intros b Hb _. apply repeat_spec in Hb. subst. split; reflexivity.
  - inversion H as [|? ? Hf Hr]; subst. constructor; [|apply IH; exact Hr]. apply Forall_app. split; [exact Hf|].
    rewrite Forall_forall. intros b Hb He. apply repeat_spec in Hb. subst. destruct h as [|[]| |[]|[]| |]; try (cbn in He; discriminate He); split; reflexivity.
Qed.
Lemma wide_nth g n r : nth_error g n = Some r -> nth_error (wide g) n = Some (pad (width g) r).
Proof. unfold wide. destruct g as [|r0 g]; [destruct n; discriminate|]. intros H. apply map_nth_error. exact H. Qed.
Lemma wide_skip g n : g <> [] -> skipn n (wide g) = map (pad (width g)) (skipn n g).
Proof. intros H. unfold wide. destruct g; [contradiction|]. apply skipn_map. Qed.
Lemma width_ge g r : In r g -> (length r <= width g)%nat.
Proof. unfold width. induction g as [|x g IH]; [intros []|]. cbn [fold_right]. intros [->|H]; [lia|specialize (IH H); lia]. Qed.
Lemma pad_length w r : (length r <= w)%nat -> length (pad w r) = w.
Proof. intros H. unfold pad. rewrite app_length, repeat_length. lia. Qed.
Lemma nth_pad w r j : nth j (pad w r) SNone = nth j r SNone.
Proof.
  unfold pad. destruct (Nat.lt_ge_cases j (length r)) as [H|H]; [apply app_nth1; exact H|]. rewrite app_nth2 by exact H. rewrite (nth_overflow r) by exact H.
  generalize (j - length r)%nat. induction (w - length r)%nat as [|n IH]; intros k; [destruct k; reflexivity|]. destruct k; [reflexivity|]. cbn [repeat nth]. apply IH.
Qed.

Lemma skipn_skipn {A} (l : list A) : forall m n, skipn n (skipn m l) = skipn (n + m) l.
Proof.
  induction l as [|x l IH]; intros m n; [rewrite !skipn_nil; reflexivity|]. destruct m as [|m]; [rewrite Nat.add_0_r; reflexivity|].
  rewrite Nat.add_succ_r. cbn [skipn]. apply IH.
Qed.
Section Read.
  Variables (f : fmt) (rd : reader) (c : sheet_conf) (g : grid) (name : str) (L : layout).
  Let e := ly_conf L.
  Let hs := row_at g (ly_heading L).
  Hypothesis Hv : rd_vertical rd = false.
  Hypothesis HL : laid_out rd c L.
  Hypothesis Hr : is_read f e name.
  Hypothesis Hlt : (ly_heading L < ly_first L)%nat.
  Hypothesis Hlen : (ly_first L <= length g)%nat.

  Lemma g_not_nil : g <> [].
  Proof. intros E. rewrite E in Hlen. cbn in Hlen. lia. Qed.
  Lemma hs_row : nth_error g (ly_heading L) = Some hs.
  Proof. unfold hs, row_at. destruct (nth_error g (ly_heading L)) eqn:E; [reflexivity|]. apply nth_error_None in E. lia. Qed.
  Lemma not_hash_sheet : f <> Csv -> hash_sheet e name = false.
  Proof.
    intros Hf. destruct Hr as [_ [H|[H|H]]]; [contradiction|unfold hash_sheet; rewrite H; reflexivity|].
    unfold hash_sheet. destruct name as [|x n]; [apply andb_false_r|]. cbn [startswith u]. cbn. apply N.eqb_neq in H.
    destruct (sc_hash e); [|reflexivity]. rewrite (N.eqb_sym 35 x) || idtac. rewrite H. reflexivity.
  Qed.
  Lemma headings_read : headings_of f rd c name g = match f with Xlsx => pad (width g) hs | _ => hs end.
  Proof.
    pose proof (laid_out_conf _ _ _ HL) as Hc. destruct (laid_out_rows _ _ _ HL) as [H1 H2]. unfold headings_of.
    pose proof not_hash_sheet as Hns. pose proof (proj1 Hr) as Hig.
    destruct f eqn:Ef.
    - unfold csv_headings. rewrite Hc. fold e. rewrite Hig. replace (skip_of e + conf_line c)%nat with (ly_heading L) by (unfold e; lia). rewrite hs_row. reflexivity.
    - unfold xlsx_headings. rewrite Hc, Hv. fold e. rewrite Hig. rewrite Hns by discriminate.
      cbn [orb]. unfold xlsx_row. replace (skip_of e + conf_line c)%nat with (ly_heading L) by (unfold e; lia). rewrite (wide_nth _ _ _ hs_row). reflexivity.
    - unfold ods_headings. rewrite Hc, Hv. fold e. rewrite Hig. rewrite Hns by discriminate.
      cbn [orb]. replace (skip_of e + conf_line c)%nat with (ly_heading L) by (unfold e; lia). rewrite hs_row. reflexivity.
  Qed.
  Lemma headings_cells : forall j, nth j (headings_of f rd c name g) SNone = cell_at g (ly_heading L) j.
  Proof.
    intros j. rewrite headings_read. unfold cell_at. rewrite hs_row. destruct f; [reflexivity|apply nth_pad|reflexivity].
  Qed.

  Hypothesis Ho : once_headings f e hs.
  Hypothesis Hh : hash_ok f e hs.

  Lemma skipn_S_tl {A} (l : list A) : forall n x, nth_error l n = Some x -> skipn n l = x :: skipn (S n) l.
  Proof. induction l as [|y l IH]; intros [|n] x H; try discriminate; [injection H as ->; reflexivity|]. cbn [skipn]. apply IH. exact H. Qed.
  Lemma lines_read : exists ls, lines_in f rd c g = Ok ls [] /\
    non_empty (map line_values ls) = non_empty (map (row_values f e hs) (skipn (ly_first L) g)) /\
    (forall l, In l ls -> (length l <= length (headings_of f rd c name g))%nat).
  Proof.
    pose proof (laid_out_conf _ _ _ HL) as Hc. destruct (laid_out_rows _ _ _ HL) as [H1 H2]. rewrite headings_read. unfold lines_in. fold e in H1, H2.
    destruct f eqn:Ef.
    - unfold csv_lines. rewrite Hc. fold e. cbv zeta. rewrite H1.
      assert (Hx : (length g <? ly_heading L)%nat = false) by (apply Nat.ltb_ge; lia). rewrite Hx. rewrite (skipn_S_tl _ _ _ hs_row).
      assert (Hy : (length (skipn (S (ly_heading L)) g) <? header_of e - 1)%nat = false) by (apply Nat.ltb_ge; rewrite skipn_length; lia). rewrite Hy.
      eexists. split; [reflexivity|]. rewrite skipn_skipn. replace (header_of e - 1 + S (ly_heading L))%nat with (ly_first L) by lia. split.
      + induction (skipn (ly_first L) g) as [|row rows IH]; [reflexivity|]. cbn [filter map]. destruct row as [|v row]; cbn [is_nil negb].
        * rewrite IH. unfold row_values, non_empty. rewrite combine_nil. reflexivity.
        * unfold non_empty in *. cbn [map filter]. rewrite (csv_line_values e) by exact Ho. rewrite IH. reflexivity.
      + intros l Hl. apply in_map_iff in Hl as (row & <- & _). etransitivity; [apply make_line_length|]. rewrite csv_cells_pad, combine_length. lia.
    - unfold xlsx_lines. rewrite Hc, Hv. fold e. cbv zeta. eexists. split; [reflexivity|].
      replace (skip_of e + conf_line c)%nat with (ly_heading L) by lia. rewrite H2. unfold xlsx_row. rewrite (wide_nth _ _ _ hs_row).
      rewrite wide_skip by exact g_not_nil. rewrite map_map. split.
      + rewrite map_map. f_equal. apply map_ext. intros row. rewrite xlsx_line_values by (apply once_pad; exact Ho). unfold pad at 1. rewrite row_values_pad_h.
        unfold pad. apply (proj2 (values_combine_pad Xlsx e hs row _)).
      + intros l Hl. apply in_map_iff in Hl as (row & <- & _). etransitivity; [apply make_line_length|]. rewrite xlsx_cells_counts, map_length, combine_length. lia.
    - unfold ods_lines. rewrite Hc, Hv. fold e. cbv zeta.
      replace (skip_of e + conf_line c)%nat with (ly_heading L) by lia. rewrite hs_row, H2.
      destruct (ods_rows_ok e hs (fun H => Hh eq_refl H) (skipn (ly_first L) g)) as (ls & Ha & Hb & Hd). exists ls. split; [exact Ha|]. split; [apply Hb; exact Ho|exact Hd].
  Qed.
End Read.

Theorem rows_read f rd c g name L : rd_vertical rd = false -> laid_out rd c L -> is_read f (ly_conf L) name ->
  (ly_heading L < ly_first L)%nat -> (ly_first L <= length g)%nat ->
  once_headings f (ly_conf L) (row_at g (ly_heading L)) -> hash_ok f (ly_conf L) (row_at g (ly_heading L)) ->
  (forall j, nth j (headings_of f rd c name g) SNone = cell_at g (ly_heading L) j) /\
  exists ls, lines_in f rd c g = Ok ls [] /\
    non_empty (map line_values ls) = non_empty (map (row_values f (ly_conf L) (row_at g (ly_heading L))) (skipn (ly_first L) g)).
Proof.
  intros Hv HL Hr H1 H2 Ho Hh. split; [apply headings_cells; assumption|].
  destruct (lines_read f rd c g name L Hv HL Hr H1 H2 Ho Hh) as (ls & A & B & _). exists ls. split; assumption.
Qed.
