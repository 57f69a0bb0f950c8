(** The source maps that unflatten writes. *)
From Verif.Base Require Import PyStr PyNum PyVal PyDict Outcome.
From Verif.Model Require Import Warn Lib Convert Input Json SourceMap Readers Flatten Schema TitleLines Output Commands.
From Verif.Spec Require Import Source Maps Commands.
From Verif.Proofs Require Import MapSound CommandFacts CommandRun.

Lemma update_get {A} (m : list (str * A)) : NoDup (map fst m) -> forall d k,
  sget k (update d m) = match sget k m with Some e => Some e | None => sget k d end.
Proof.
  induction m as [|[a e] m IH] using rev_ind; intros N d k; [reflexivity|].
  rewrite map_app in N. cbn in N.
  unfold update. rewrite fold_left_app. cbn [fold_left fst snd]. fold (update d m).
  assert (N' : NoDup (map fst m)). { apply NoDup_remove_1 in N. now rewrite app_nil_r in N. }
  assert (Na : ~ In a (map fst m)). { apply NoDup_remove_2 in N. now rewrite app_nil_r in N. }
  assert (G : sget k (m ++ [(a, e)]) = match sget k m with Some x => Some x | None => if str_eqb k a then Some e else None end).
  { clear. unfold sget. induction m as [|[b x] m IH]; [reflexivity|]. cbn. destruct (str_eqb k b); [reflexivity|exact IH]. }
  rewrite G. destruct (str_eqb_spec k a) as [Q|Q].
  - subst k. rewrite sget_sset_eq.
    destruct (sget a m) eqn:S; [|reflexivity]. exfalso. apply Na. apply sget_In in S. apply in_map_iff. now exists (a, a0).
  - rewrite sget_sset_neq; [rewrite (IH N' d k); now destruct (sget k m)|exact Q].
Qed.
Lemma update_nil {A} (m : list (str * A)) : NoDup (map fst m) -> update [] m = m.
Proof. intros N. now rewrite update_fresh. Qed.
(** cutting the keys *)
Lemma cut_get {A} n (m : list (str * A)) : NoDup (map fst m) ->
  (forall a b, In a (map fst m) -> In b (map fst m) -> skipn n a = skipn n b -> a = b) ->
  forall a e, In (a, e) m -> sget (skipn n a) (add_cut n m []) = Some e.
Proof.
  unfold add_cut. induction m as [|[b x] m IH] using rev_ind; intros N I a e H; [destruct H|].
  rewrite map_app in N, I. cbn in N, I. rewrite fold_left_app. cbn [fold_left fst snd].
  assert (N' : NoDup (map fst m)). { apply NoDup_remove_1 in N. now rewrite app_nil_r in N. }
  assert (Na : ~ In b (map fst m)). { apply NoDup_remove_2 in N. now rewrite app_nil_r in N. }
  apply in_app_or in H as [H|[[= <- <-]|[]]]; [|apply sget_sset_eq].
  assert (Ha : In a (map fst m)) by (apply in_map_iff; now exists (a, e)).
  rewrite sget_sset_neq.
  - apply IH; [exact N'| |exact H]. intros y z Hy Hz. apply I; apply in_or_app; now left.
  - intros Q. apply Na. rewrite <- (I a b); [exact Ha| | |congruence]; apply in_or_app; [now left|right; now left].
Qed.
Lemma cut_from {A} n (m : list (str * A)) k e : sget k (add_cut n m []) = Some e -> exists a, In (a, e) m /\ k = skipn n a.
Proof.
  unfold add_cut. induction m as [|[b x] m IH] using rev_ind; [discriminate|].
  rewrite fold_left_app. cbn [fold_left fst snd]. destruct (str_eqb_spec k (skipn n b)) as [Q|Q].
  - subst k. rewrite sget_sset_eq. intros [= <-]. exists b. split; [apply in_or_app; right; now left|reflexivity].
  - rewrite sget_sset_neq by exact Q. intros H. apply IH in H as (a & H & ->). exists a. split; [apply in_or_app; now left|reflexivity].
Qed.
Lemma add_cut_NoDup {A} n (m : list (str * A)) : NoDup (map fst (add_cut n m [])).
Proof.
  unfold add_cut. induction m as [|[b x] m IH] using rev_ind; [constructor|].
  rewrite fold_left_app. cbn [fold_left fst snd]. now apply sset_NoDup.
Qed.

(** texts of places under "meta" *)
Definition metaF (c h : bool) : fancy := {| f_root_is_list := false; f_root_list_path := u "meta"; f_cells := c; f_headings := h |}.
Lemma meta_text c h p : place_text (metaF c h) (PIdx 0 :: p) = u "meta/0" ++ match p with [] => [] | _ => u "/" ++ join (u "/") (map part p) end.
Proof. destruct p; reflexivity. Qed.
Lemma meta_field c h p : (exists k, In (PKey k) p) -> field_text (metaF c h) p = u "meta/" ++ join (u "/") (flat_map (fun s => match s with PIdx _ => [] | PKey k => [k] end) p).
Proof.
  intros (k & Hk). unfold field_text. change (root_heading (metaF c h)) with [u "meta"].
  destruct (flat_map _ p) as [|x l] eqn:Q; [|reflexivity]. exfalso.
  assert (In k (flat_map (fun s => match s with PIdx _ => [] | PKey k => [k] end) p)) by (apply in_flat_map; exists (PKey k); split; [exact Hk|now left]).
  rewrite Q in H. exact H.
Qed.
Lemma leaf_first (r : list vdict) p v : leaf r p v -> exists i k p', p = PIdx i :: PKey k :: p' /\ (N.to_nat i < length r)%nat.
Proof.
  intros H. unfold leaf in H. destruct p as [|x p]; [discriminate H|]. destruct x as [i|k]; [|discriminate H]. cbn [value_at] in H.
  match type of H with context [@nth_error ?A ?a ?b] => destruct (@nth_error A a b) as [d|] eqn:E end; [|discriminate H].
  destruct p as [|y p]; [discriminate H|]. destruct y as [j|k]; [discriminate H|]. exists i, k, p. split; [reflexivity|]. apply nth_error_Some. intros Q. change (nth_error r (N.to_nat i) = Some d) in E. rewrite Q in E. discriminate E.
Qed.

Lemma fancy_maps O F sheets r mc mh w : fancy_unflatten O F sheets = Ok (r, mc, mh) w ->
  (f_cells F = true -> exists m, mc = Some m /\ NoDup (map fst m)) /\ (f_headings F = true -> exists h, mh = Some h /\ NoDup (map fst h)).
Proof.
  intros H. pose proof H as H0. unfold fancy_unflatten in H0. apply bind_ok in H0 as (t & w1 & w2 & Ht & H0 & _). cbv zeta in H0.
  split; intros Hf.
  - rewrite Hf in H0. cbn [orb] in H0. apply bind_ok in H0 as (m & w3 & w4 & _ & H0 & _). apply bind_ok in H0 as (it & w5 & w6 & _ & H0 & _).
    apply bind_ok in H0 as (c & w7 & w8 & _ & H0 & _). injection H0 as _ <- _ _. exists c. split; [reflexivity|]. now apply cell_map_sound in H.
  - rewrite Hf, orb_true_r in H0. apply bind_ok in H0 as (m & w3 & w4 & _ & H0 & _). apply bind_ok in H0 as (it & w5 & w6 & _ & H0 & _).
    assert (X : exists h, mh = Some h).
    { destruct (f_cells F); [apply bind_ok in H0 as (c & w7 & w8 & _ & H0 & _)|]; injection H0 as _ _ <- _; eauto. }
    destruct X as (h & ->). exists h. split; [reflexivity|]. apply heading_map_sound in H; [|exact Hf]. now destruct H as (tree & _ & _ & H & _).
Qed.
Lemma filled_true (s : str) : s <> [] -> negb (is_nil s) = true.
Proof. destruct s; [congruence|reflexivity]. Qed.

(** the cells' keys under "meta/0" *)
Lemma meta_cells O c h sheets r m mh w : fancy_unflatten O (metaF c h) sheets = Ok (r, Some m, mh) w -> (length r <= 1)%nat ->
  (forall d, In d r -> sget [] d = None) ->
  (forall a, In a (map fst m) -> exists k, a = meta_place k) /\ forall k, skipn 7 (meta_place k) = k.
Proof.
  intros H Hl He. split; [|now intros []].
  pose proof (cell_map_sound _ _ _ _ _ _ _ H) as (_ & _ & _ & Hc & _). pose proof (row_entries _ _ _ _ _ _ _ H) as (Hr & _).
  assert (L : forall p v, leaf r p v -> exists k p', p = PIdx 0 :: PKey k :: p' /\ k <> []).
  { intros p v Lf. pose proof Lf as L0. apply leaf_first in Lf as (i & k & p' & -> & Hi). assert (i = 0%N) by lia. subst i. exists k, p'. split; [reflexivity|].
    intros ->. unfold leaf in L0. cbn in L0. destruct r as [|d r]; [discriminate L0|]. cbn in L0. rewrite (He d (or_introl eq_refl)) in L0. discriminate L0. }
  intros a Ha. apply in_map_iff in Ha as ([a' e] & <- & Ha). cbn [fst]. destruct e as [ls|rs].
  - apply Hc in Ha as (p & v & Lf & ->). apply L in Lf as (k & p' & -> & Hk). rewrite meta_text.
    exists (join (u "/") (map part (PKey k :: p'))). unfold meta_place. destruct (join _ _) eqn:Q; [|reflexivity]. exfalso. cbn [map part] in Q.
    destruct k as [|x k]; [congruence|]. destruct (map part p'); discriminate Q.
  - apply Hr in Ha as (_ & q & -> & (f & v & Lf) & _). apply L in Lf as (k & p' & Q & Hk).
    destruct q as [|x q]; [discriminate Q|]. injection Q as -> Q. rewrite meta_text. destruct q as [|y q]; [exists []; reflexivity|].
    injection Q as -> Q. exists (join (u "/") (map part (PKey k :: q))). unfold meta_place. destruct (join _ _) eqn:Q'; [|reflexivity]. exfalso. cbn [map part] in Q'.
    destruct k as [|x k]; [congruence|]. destruct (map part q); discriminate Q'.
Qed.
Lemma meta_heads O c sheets r mc h w : fancy_unflatten O (metaF c true) sheets = Ok (r, mc, Some h) w ->
  forall a, In a (map fst h) -> exists k, a = u "meta/" ++ k.
Proof.
  intros H a Ha. apply heading_map_sound in H as (tree & _ & _ & _ & Hk & _); [|reflexivity].
  apply in_map_iff in Ha as ([a' e] & <- & Ha). cbn [fst]. apply Hk in Ha as (p & v & Lf & ->).
  apply leaf_first in Lf as (i & k & p' & -> & _). rewrite meta_field; [eauto|]. exists k. right; now left.
Qed.
Lemma cut_all {A} n (P : str -> str) (m : list (str * A)) : NoDup (map fst m) -> (forall k, skipn n (P k) = k) -> (forall a, In a (map fst m) -> exists k, a = P k) ->
  forall k, sget k (add_cut n m []) = sget (P k) m.
Proof.
  intros N Hp Hm k.
  assert (I : forall a b, In a (map fst m) -> In b (map fst m) -> skipn n a = skipn n b -> a = b).
  { intros a b Ha Hb Q. destruct (Hm a Ha) as (x & ->), (Hm b Hb) as (y & ->). rewrite !Hp in Q. now subst. }
  destruct (sget (P k) m) as [e|] eqn:G.
  - apply sget_In in G. rewrite <- (Hp k). rewrite (cut_get n m N I _ _ G). reflexivity.
  - destruct (sget k (add_cut n m [])) as [e|] eqn:C; [|reflexivity]. apply cut_from in C as (a & Ha & ->).
    destruct (Hm a) as (x & ->); [apply in_map_iff; now exists (a, e)|]. rewrite Hp in G. rewrite (In_sget _ _ _ N Ha) in G. discriminate G.
Qed.

Section Maps.
  Variable Wd : world.

  (** without metatab: the maps of the one run *)
  Theorem maps_main U w : unflatten_file Wd U = Ok tt w -> u_xml U = false -> ~ given (u_meta U) -> u_meta_only U = false \/ u_root_list U = true ->
    exists fn f r mc mh, u_format U = Some fn /\ sget fn formats = Some f /\ main_maps Wd U f (default_conf (u_conf U)) r mc mh /\
      (u_cells U <> [] -> exists m, mc = Some m /\ cells_written w (u_cells U) m) /\
      (u_heads U <> [] -> exists h, mh = Some h /\ heads_written w (u_heads U) h).
  Proof.
    intros H Hx Hn Hm.
    apply unflatten_stages in H as (fn & f & b0 & s & r & cells & heads & j & w1 & w2 & w3 & w4 & H1 & H2 & H3 & Hb & Hms & Hr & Hj & Hw & Kc & Kh); [|exact Hx].
    apply no_metatab in Hms; [|exact Hn]. subst s. apply main_stage_ok in Hr as (recs & mc & mh & _ & Hr & _ & Ec & Eh); [|exact Hm].
    cbn [us_conf us_cells us_heads] in *. exists fn, f, recs, mc, mh. split; [exact H1|]. split; [exact H2|]. split; [exact Hr|].
    destruct Hr as (sheets & O & w5 & _ & Hf). apply fancy_maps in Hf as [Fc Fh]. cbn [f_cells f_headings] in Fc, Fh. split; intros N.
    - destruct (Fc (filled_true _ N)) as (m & -> & Nd). exists m. split; [reflexivity|]. cbn [from_opt] in Ec. rewrite update_nil in Ec by exact Nd. subst cells.
      intros name m'. rewrite Kc. tauto.
    - destruct (Fh (filled_true _ N)) as (m & -> & Nd). exists m. split; [reflexivity|]. cbn [from_opt] in Eh. rewrite update_nil in Eh by exact Nd. subst heads.
      intros name m'. rewrite Kh. tauto.
  Qed.

  (** with a metatab *)
  Theorem maps_metatab U name w : distinct_sheets Wd -> unflatten_file Wd U = Ok tt w -> u_xml U = false -> u_root_list U = false ->
    u_meta U = Some name -> name <> [] ->
    exists fn f mrecs mconf mc0 mh0 recs mc mh, u_format U = Some fn /\ sget fn formats = Some f /\
      meta_maps Wd U f name mrecs mc0 mh0 /\ meta_conf Wd U f name mconf /\
      (if u_meta_only U then mc = Some [] /\ mh = Some [] else main_maps Wd U f (conf_over mconf (default_conf (u_conf U))) recs mc mh) /\
      (u_cells U <> [] -> (length mrecs <= 1)%nat -> (forall d, In d mrecs -> sget [] d = None) ->
         exists m0 m1 m, mc0 = Some m0 /\ mc = Some m1 /\ cells_written w (u_cells U) m /\
           forall k, sget k m = match sget k m1 with Some e => Some e | None => sget (meta_place k) m0 end) /\
      (u_heads U <> [] -> exists h0 h1 h, mh0 = Some h0 /\ mh = Some h1 /\ heads_written w (u_heads U) h /\
           forall k, sget k h = match sget k h1 with Some e => Some e | None => sget (u "meta/" ++ k) h0 end).
  Proof.
    intros Hds H Hx Hl Hn Hne.
    apply unflatten_stages in H as (fn & f & b0 & s & r & cells & heads & j & w1 & w2 & w3 & w4 & H1 & H2 & H3 & Hb & Hm & Hr & Hj & Hw & Kc & Kh); [|exact Hx].
    assert (Ht : truthy (u_base U) = false). { rewrite Hn in H3. destruct name; [now exfalso|]. exact H3. }
    destruct (metatab_ok Wd U f name _ s w2 Hds Hn Hne Hl Ht b0 w1 Hb Hm) as (mrecs & mconf & mc0 & mh0 & _ & Hmc & Hmm & _ & Ec & Ecells & Eheads & _).
    assert (X : exists recs mc mh, (if u_meta_only U then mc = Some [] /\ mh = Some [] else main_maps Wd U f (us_conf s) recs mc mh) /\
      cells = update (us_cells s) (from_opt mc) /\ heads = update (us_heads s) (from_opt mh)).
    { destruct (u_meta_only U) eqn:Eo.
      - unfold main_stage in Hr. rewrite Eo, Hl in Hr. cbn [negb orb] in Hr. cbv zeta in Hr. injection Hr as _ <- <- _. exists [], (Some []), (Some []). repeat split.
      - apply main_stage_ok in Hr as (recs & mc & mh & _ & Hr & _ & Q1 & Q2); [|now left]. eauto 6. }
    destruct X as (recs & mc & mh & Hmain & Q1 & Q2). rewrite Ec in Hmain.
    exists fn, f, mrecs, mconf, mc0, mh0, recs, mc, mh. do 5 (split; [assumption|]).
    assert (M : (u_cells U <> [] -> exists m1, mc = Some m1 /\ NoDup (map fst m1)) /\ (u_heads U <> [] -> exists h1, mh = Some h1 /\ NoDup (map fst h1))).
    { destruct (u_meta_only U).
      - destruct Hmain as [-> ->]. split; intros _; exists []; (split; [reflexivity|constructor]).
      - destruct Hmain as (sheets & O & w5 & _ & Hf). apply fancy_maps in Hf as [Fc Fh]. cbn [f_cells f_headings] in Fc, Fh. split; intros N; [apply Fc|apply Fh]; now apply filled_true. }
    destruct M as [Mc Mh]. destruct Hmm as (sheets & O & w5 & _ & Hf). fold (metaF (negb (is_nil (u_cells U))) (negb (is_nil (u_heads U)))) in Hf.
    pose proof (fancy_maps _ _ _ _ _ _ _ Hf) as [Fc Fh]. cbn [metaF f_cells f_headings] in Fc, Fh. split.
    - intros N Hlen Hemp. destruct (Mc N) as (m1 & -> & N1). destruct (Fc (filled_true _ N)) as (m0 & -> & N0). exists m0, m1, cells.
      split; [reflexivity|]. split; [reflexivity|]. split; [intros nm m'; rewrite Kc; tauto|]. intros k. rewrite Q1, Ecells. cbn [from_opt]. rewrite update_get by exact N1.
      destruct (sget k m1); [reflexivity|]. destruct (meta_cells _ _ _ _ _ _ _ _ Hf Hlen Hemp) as [Ka Kp]. now apply cut_all.
    - intros N. destruct (Mh N) as (m1 & -> & N1). destruct (Fh (filled_true _ N)) as (m0 & -> & N0). exists m0, m1, heads.
      split; [reflexivity|]. split; [reflexivity|]. split; [intros nm m'; rewrite Kh; tauto|]. intros k. rewrite Q2, Eheads. cbn [from_opt]. rewrite update_get by exact N1.
      destruct (sget k m1); [reflexivity|]. rewrite (filled_true _ N) in Hf. apply (cut_all 5 (fun k => u "meta/" ++ k)); [exact N0|reflexivity|]. eapply meta_heads. exact Hf.
  Qed.
End Maps.
