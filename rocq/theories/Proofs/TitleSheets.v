(** The sheets of a run with titles, read back, beside sheets without titles. *)
From Coq Require Import Permutation Lia ZArith.
From Verif.Base Require Import PyStr PyNum PyVal PyDict Outcome.
From Verif.Model Require Import Warn Lib Convert Input Readers Flatten Titles TitleLines Schema.
From Verif.Spec Require Import Flat Sites Paths Headings SchemaFields SchemaLines SchemaTitled Titled RoundTrip TitledTrip Filled Positions.
From Verif.Proofs Require RowRead.
From Verif.Proofs Require Import JvInd FlattenTrace FlattenRows FlattenRun FlattenPlain FlattenPaths FlattenItems FlattenTitled TitledItems TitledUsed SchemaTypes SchemaTitles SchemaLines SchemaState SchemaReady SchemaSame SchemaHeadings SchemaOnce TitledSchema RtMerge RtRow RtLine RtDoc RtState RtOrder RtRun RtMain RtTrip TripLines TitleChain TitlePlaces TitleRows TitleBack.

(** the root id stays in front *)
Lemma root_first O drop pi l s w : schema_ready O -> flatten O drop pi l = Ok s w -> forall t sc x, In t (sub_tables s) -> po_schema O = Some sc -> In (tb_name t, x) (sci_subs sc) ->
  sh_root x = [] \/ exists rest, tb_header t = sh_root x :: rest.
Proof.
  intros SR H t sc x Ht Hsc Hx. destruct (flatten_inv _ _ _ _ _ _ H) as (s0 & w0 & H0 & ->).
  pose proof (parse_list_trace O _ _ _ _ _ H0) as T. pose proof (FlattenRows.trace_names O _ _ T (start_names O drop SR)) as Hn.
  unfold sub_tables in Ht. apply in_map_iff in Ht as ([n y] & <- & Hin). cbn [tb_name tb_header table_of fst snd] in *.
  assert (Hy : sheet_at (Some n) s0 = Some y) by (apply (drop_sheet drop); [exact Hn|]; simpl; apply In_sget; [apply drop_names; exact Hn|exact Hin]).
  assert (Hs : sheet_at (Some n) (start O drop) = Some (drop_cols drop x)).
  { pose proof SR as SR'. unfold schema_ready in SR'. rewrite Hsc in SR'. destruct SR' as (Nd & _). unfold start. cbn [new_persistent]. rewrite Hsc. cbn. rewrite smap_get, (In_sget _ _ _ Nd Hx). reflexivity. }
  destruct (trace_later O _ _ T (Some n) _ Hs) as (y' & Hy' & Hl). rewrite Hy in Hy'. injection Hy' as <-. destruct Hl as (Er & _). assert (Er' : sh_root y = sh_root x) by (rewrite Er; destruct drop; reflexivity).
  unfold header. rewrite Er'. destruct (sh_root x); [left; reflexivity|]. right. eexists. reflexivity.
Qed.
Lemma jx_inj a : forall b, jx a = jx b -> a = b.
Proof.
  induction a as [|[k o] a IH]; intros [|[k' o'] b] E; try reflexivity; try discriminate. change (jx ((k, o) :: a)) with (XKey k :: match o with Some i => [XIdx i] | None => [] end ++ jx a) in E.
  change (jx ((k', o') :: b)) with (XKey k' :: match o' with Some i => [XIdx i] | None => [] end ++ jx b) in E. injection E as <- E.
  assert (Hk : forall q i r, jx q <> XIdx i :: r) by (intros [|[? ?] q] i r Q; discriminate).
  destruct o as [i|], o' as [i'|]; cbn [app] in E.
  - injection E as <- E. rewrite (IH _ E). reflexivity.
  - destruct (Hk _ _ _ (eq_sym E)).
  - destruct (Hk _ _ _ E).
  - rewrite (IH _ E). reflexivity.
Qed.
Lemma Forall2_choose {A B C} (R : A -> B -> Prop) (Q : A -> B -> C -> Prop) l m : Forall2 R l m -> (forall x y, In x l -> In y m -> R x y -> exists e, Q x y e) ->
  exists es, Forall2 (fun xy e => Q (fst xy) (snd xy) e) (combine l m) es.
Proof.
  induction 1 as [|x y l m H F IH]; intros G; [exists []; constructor|]. destruct (G x y (or_introl eq_refl) (or_introl eq_refl) H) as (e & He). destruct IH as (es & Hes); [intros x' y' Hx Hy; apply G; right; assumption|].
  exists (e :: es). constructor; assumption.
Qed.

Lemma Forall2_flip {A B} (R : A -> B -> Prop) l m : Forall2 R l m -> Forall2 (fun y x => R x y) m l.
Proof. induction 1; constructor; assumption. Qed.

Section Sheets.
  Variables (SO : sopts) (S : sv) (O : popts) (drop : bool) (pi : list str) (docs : list jobj) (s : pst) (w : list fwarning) (P : opts) (T : Titles.table) (write : scalar -> scalar) (b : scalar).
  Notation idn := (po_id_name O).
  Notation rid := (po_root_id O).
  Notation O0 := (plain_run O).
  Hypothesis HT : titled_by SO S O.
  Hypothesis HJ : json_run O.
  Hypothesis Hord : forall l, Permutation l (po_set_order O l).
  Hypothesis Hroll : po_rollup O = [].
  Hypothesis Hfilt : po_filter O = None.
  Hypothesis Hpres : po_preserve O = [].
  Hypothesis Owr : own_words SO S rid.
  Hypothesis Owi : own_words SO S idn.
  Hypothesis HR : readable_titles SO S.
  Hypothesis HA : all_titled SO S docs.
  Hypothesis HD : documents O docs.
  Hypothesis HS : reads_schema SO S P T.
  Hypothesis HV : survive O P write docs.
  Hypothesis Hb : blank b = true.
  Hypothesis HF : flatten O drop pi (map JO docs) = Ok s w.

  Lemma whole0 : whole O0.
  Proof. destruct HJ as (_ & X & W). split; [split; [left; reflexivity|]; split; [reflexivity|]; split; assumption|]. repeat split; assumption. Qed.
  Lemma nfree : name_free O s.
  Proof. destruct HT as (st & w0 & _ & _ & _ & E). intros Q. congruence. Qed.
  Lemma docs_ids' : Forall (fun d => clean (JO d) /\ ids_are_values O (JO d)) docs.
  Proof.
    apply Forall_forall. intros o Ho. destruct (doc_ok O docs HD o Ho) as (Htd & _ & Hr & Hone). split; [apply (tidy_clean O); exact Htd|]. intros Q d Hd. split.
    - intros x Hx. pose proof (tidy_at idn _ _ _ Htd (path_x _ _ _ Hd)) as Hd'. destruct (tidy_JO idn d Hd') as (_ & _ & _ & Hids). destruct (Hids x Hx) as (c & Ec & _). injection Ec as ->. discriminate.
    - intros Nr x Hx. assert (Q = []) as ->. { destruct Q as [|st Q]; [reflexivity|]. rewrite (Hone (st :: Q) d ltac:(discriminate) Hd Nr) in Hx. discriminate. }
      split; [reflexivity|]. cbn [Paths.at_path] in Hd. injection Hd as <-. destruct (Hr Nr) as (c & Ec & _). rewrite Ec in Hx. injection Hx as <-. discriminate.
  Qed.
  Lemma chosen_all : chosen O (map JO docs) = map JO docs.
  Proof. unfold chosen. rewrite Hfilt. reflexivity. Qed.

  (** ** rows *)
  Definition place_ok (L : jpath) (ts : list str) : Prop :=
    chain SO S (heading_path L) ts /\ Headings.fits (o_types P) (heading_path L) /\ forall k, In k (map fst L) -> heading_key k.
  Lemma lp_place o Q L val : In o docs -> lp O o Q L val -> exists ts, place_ok L ts.
  Proof.
    intros Ho H. destruct (lp_leaf O docs HD o Q L val Ho H) as (Q' & k & y & -> & Ha & Hl & Hc). destruct (leaf_chain SO S docs HR HA o Q' k y Ho Ha Hl) as (ts & C). exists ts. split; [exact C|].
    pose proof HV as (_ & _ & _ & Hv & _). rewrite (leaf_has_cell O y Hl) in Hc. split.
    - apply (Hv o Q' k y (cell_of O y) Ho Ha Hl (leaf_has_cell O y Hl)).
    - intros k' Hk'. eapply (path_keys idn); [exact (proj1 (doc_ok O docs HD o Ho))|exact Ha|exact Hk'].
  Qed.
  Definition row_ok (r : Flatten.frow) (e : ent) : Prop :=
    In (e_obj e) docs /\ exists Q, e_at e = jx Q /\ row_shown O0 (e_obj e) Q (e_row e) /\
      (forall h val, sget h r = Some val <-> exists L ts, lp O (e_obj e) Q L val /\ place_ok L ts /\ h = joint ts).
  Lemma row_told o Q row r (value : str -> jv -> Prop) : In o docs -> row_shown O0 o Q row -> Titled.tells value r ->
    (forall h val, value h val <-> exists L ts, lp O o Q L val /\ chain SO S (heading_path L) ts /\ h = joint ts) -> row_ok r {| e_obj := o; e_at := jx Q; e_row := row |}.
  Proof.
    intros Ho Hs (T1 & T2 & _) Hv. split; [exact Ho|]. exists Q. cbn [e_obj e_at e_row]. split; [reflexivity|]. split; [exact Hs|].
    assert (Hv' : forall h val, value h val <-> exists L ts, lp O o Q L val /\ place_ok L ts /\ h = joint ts).
    { intros h val. rewrite Hv. split; intros (L & ts & A & B & C); exists L, ts; (split; [exact A|]); (split; [|exact C]); [|apply B]. destruct (lp_place o Q L val Ho A) as (ts' & B' & B2). split; [exact B|exact B2]. }
    intros h val. rewrite <- Hv'. split; [apply T1|]. intros H. apply T2; [exact H|]. intros val' H'. apply Hv' in H as (L & ts & A & (B & B1 & B2) & ->). apply Hv' in H' as (L' & ts' & A' & (B' & B1' & B2') & E).
    assert (Et : ctext L = ctext L') by (rewrite <- (full_chain SO S P T HR HS L ts B B1 B2), <- (full_chain SO S P T HR HS L' ts' B' B1' B2'), E; reflexivity).
    pose proof (proj2 (plain_told O docs Hpres HD o Q row (ctext L) val Ho Hs) (ex_intro _ L (conj A eq_refl))) as G. pose proof (proj2 (plain_told O docs Hpres HD o Q row (ctext L') val' Ho Hs) (ex_intro _ L' (conj A' eq_refl))) as G'. rewrite Et in G. congruence.
  Qed.
  Lemma plain_rows : (forall o, In o docs -> exists row, row_shown O0 o [] row) /\ (forall o x, In o docs -> In x (items_in (JO o)) -> exists row, row_shown O0 o (it_path x) row).
  Proof.
    destruct (trip_flattens O0 drop pi docs whole0 HD) as (s0 & w0 & F0). destruct (table_ents O0 drop pi P write docs whole0 HV HD s0 w0 F0) as [(es & (_ & _ & A) & B) C]. split.
    - intros o Ho. destruct (main_entry docs es o B Ho) as (e & He & Eo & Ea). destruct (A e He) as (Q & EQ & Hs). rewrite Ea in EQ. rewrite Eo in Hs. destruct Q as [|[k0 o0] Q]; [eauto|discriminate].
    - intros o x Ho Hx. destruct (item_table O0 drop pi docs whole0 HD s0 w0 F0 o x Ho Hx) as (t & Ht & Et). destruct (C t Ht) as (es' & (_ & _ & A') & B'). rewrite Et in B'.
      destruct (sub_entry O0 docs _ es' o x B' (in_sheet O0 docs whole0 o x Ho Hx)) as (e & He & Eo & Ea). destruct (A' e He) as (Q & EQ & Hs). rewrite Eo in Hs. exists (e_row e).
      assert (E : Q = it_path x) by (apply jx_inj; congruence). rewrite <- E. exact Hs.
  Qed.

  Definition place_of (e : ent) : jv * xpath := (JO (e_obj e), e_at e).
  Lemma choose_rows {A} (l : list A) (rows : list Flatten.frow) (pl : A -> jv * xpath) (R : A -> Flatten.frow -> Prop) :
    Forall2 R l rows -> (forall x r, In x l -> In r rows -> R x r -> exists e, row_ok r e /\ place_of e = pl x) -> exists es, Forall2 row_ok rows es /\ map place_of es = map pl l.
  Proof.
    induction 1 as [|x r l rows H F IH]; intros G; [exists []; split; [constructor|reflexivity]|]. destruct (G x r (or_introl eq_refl) (or_introl eq_refl) H) as (e & He & Ee). destruct IH as (es & Hes & Es); [intros x' r' Hx Hr; apply G; right; assumption|].
    exists (e :: es). split; [constructor; assumption|]. cbn [map]. rewrite Ee, Es. reflexivity.
  Qed.
  Theorem main_rows : exists es, Forall2 row_ok (tb_rows (main_table s)) es /\ map place_of es = map (fun o => (JO o, [])) docs.
  Proof.
    pose proof (chosen_main O drop pi HJ _ s w Hord HF nfree (docs_clean O docs HD)) as F. rewrite chosen_all in F.
    assert (E : records (map JO docs) = docs) by (clear; induction docs as [|d l IH]; [reflexivity|]; cbn [map records flat_map app]; f_equal; exact IH). rewrite E in F.
    apply (choose_rows docs _ (fun o => (JO o, [])) _ F). intros o r Ho _ Ht. destruct (proj1 plain_rows o Ho) as (row & Hs). exists {| e_obj := o; e_at := jx []; e_row := row |}. split; [|reflexivity].
    eapply row_told; [exact Ho|exact Hs|exact Ht|]. intros h val. apply (main_told SO S O docs HT HR Hroll Hpres HA HD o h val Ho).
  Qed.
  Lemma on_sheet_in n v x : In (v, x) (items_on O n (map JO docs)) -> exists o, v = JO o /\ In o docs /\ In x (items_in (JO o)) /\ n = array_sheet O (it_at x) (it_key x).
  Proof.
    intros H. unfold items_on in H. apply filter_In in H as [H E]. apply str_eqb_eq in E. apply filter_In in H as [H _]. apply in_flat_map in H as (v' & Hv & Q). apply in_map_iff in Q as (x' & Ex & Hx). injection Ex as -> ->.
    apply in_map_iff in Hv as (o & <- & Ho). exists o. auto.
  Qed.
  Theorem sub_rows t : In t (sub_tables s) -> exists es, Forall2 row_ok (tb_rows t) es /\ map place_of es = map (fun vx => (fst vx, jx (it_path (snd vx)))) (items_on O (tb_name t) (map JO docs)).
  Proof.
    intros Ht. pose proof (chosen_sub O drop pi HJ _ s w HF nfree (docs_clean O docs HD) t Ht) as F. rewrite chosen_all in F.
    apply (choose_rows _ _ (fun vx => (fst vx, jx (it_path (snd vx)))) _ F). intros [v x] r Hin _ Htl. cbn [fst snd] in *. destruct (on_sheet_in _ _ _ Hin) as (o & -> & Ho & Hx & _).
    destruct (proj2 plain_rows o x Ho Hx) as (row & Hs). exists {| e_obj := o; e_at := jx (it_path x); e_row := row |}. split; [|reflexivity].
    eapply row_told; [exact Ho|exact Hs|exact Htl|]. intros h val. apply (item_told SO S O docs HT HR Hpres HA HD Owr Owi o x h val Ho). exact (items_at (JO o) (tidy_clean O _ (proj1 (doc_ok O docs HD o Ho))) x Hx).
  Qed.

  (** ** columns *)
  Definition is_chain (h : str) : Prop := exists p ts, chain SO S p ts /\ h = joint ts.
  Lemma top_s R : top S R -> R = S. Proof. apply (top_only SO S HR). Qed.
  Lemma schema_main st w0 c : parse_schema SO S = Ok st w0 -> so_titles SO = true -> In c (header (sp_main st)) -> is_chain c.
  Proof.
    intros E Ht Hc. pose proof HR as (_ & _ & _ & Hnf & _). destruct (schema_columns SO S st w0 E Hnf) as [A _]. apply A in Hc as (R & f & t & HtR & G & Q). rewrite Ht in Q. rewrite (top_s R HtR) in G. destruct (gives_chain SO S f t G c Q) as (p & ts & C & -> & _). exists p, ts. auto.
  Qed.
  Lemma schema_sub st w0 sn x c : parse_schema SO S = Ok st w0 -> so_titles SO = true -> sget sn (sp_subs st) = Some x -> In c (header x) -> is_chain c \/ (c = sh_root x /\ c <> []).
  Proof.
    intros E Ht Hx Hc. pose proof HR as (_ & _ & _ & Hnf & _ & _ & Hid & _).
    unfold header in Hc. apply in_app_or in Hc as [Hc|Hc]; [right; destruct (sh_root x); [destruct Hc|destruct Hc as [<-|[]]; split; [reflexivity|discriminate]]|left]. apply in_app_or in Hc as [Hc|Hc].
    - apply (SchemaState.sub_ids SO S st w0 E (named_fields_named SO S Hnf) sn x Hx) in Hc. destruct Hc as (q & ids' & n & v & i & (R & T0 & HtR & Oa & Pn & Ob & ->) & _ & Hin). rewrite (top_s R HtR) in Oa.
      destruct (ids_chain SO S SchemaFields.whole T0 q Oa Ht (has_titles SO S HR) Hid [] eq_refl c Hin) as [[]|(p & ts & C & ->)]. exists (p ++ [HKey (u "id")]), ts. split; [exact C|reflexivity].
    - apply (SchemaState.sub_columns SO S st w0 E (named_fields_named SO S Hnf) sn x Hx) in Hc. destruct Hc as (q & ids' & n & v & i & f & t & (R & T0 & HtR & Oa & Pn & Ob & _) & _ & G & Sh). rewrite (top_s R HtR) in Oa.
      unfold sub_heading in Sh. rewrite Ht in Sh. destruct Sh as (a & b0 & x0 & Ea & Eb & -> & ->). destruct (gives_chain SO i f _ G x0 eq_refl) as (p & ts & C & -> & _).
      destruct (objects_chain SO S SchemaFields.whole T0 q Oa (has_titles SO S HR)) as (pq & tq & Hc & Et). rewrite Ea in Et. cbn [option_map at_titles SchemaFields.whole app] in Et. injection Et as ->.
      exists (pq ++ HKey n :: HPos 0 :: p), (tq ++ b0 :: ts). split; [apply Hc; eapply chain_array; eauto|]. rewrite joint_prefix by discriminate. rewrite joint_cons by apply (chain_ne _ _ _ _ C). reflexivity.
  Qed.
  Lemma row_keys r e h : row_ok r e -> In h (map fst r) -> is_chain h.
  Proof.
    intros (_ & Q & _ & _ & H) Hin. destruct (sget h r) as [v|] eqn:Ev; [|apply sget_None in Ev; contradiction]. apply H in Ev as (L & ts & _ & (C & _) & ->). exists (heading_path L), ts. auto.
  Qed.
  Lemma all_ents t : In t (tables s) -> exists es, Forall2 row_ok (tb_rows t) es.
  Proof. intros [<-|Ht]; [destruct main_rows as (es & F & _)|destruct (sub_rows t Ht) as (es & F & _)]; eauto. Qed.
  Lemma columns t h : In t (tables s) -> In h (tb_header t) -> is_chain h \/ exists rest, tb_header t = h :: rest.
  Proof.
    intros Ht Hh. destruct (all_ents t Ht) as (es & Hes). pose proof HT as (st & w0 & E & Hti & _ & Hsc).
    assert (Hrow : forall row, In row (tb_rows t) -> In h (map fst row) -> is_chain h).
    { intros row Hr Hk. destruct (RowRead.Forall2_in_l _ _ _ Hes row Hr) as (e & _ & He). eapply row_keys; eauto. }
    destruct (columns_told O drop pi HJ Hpres docs s w HF nfree docs_ids') as [Cm Cs]. destruct Ht as [<-|Ht].
    - left. destruct (Cm h Hh) as [(row & Hr & Hk)|(sc & Q & Hk)]; [eauto|]. rewrite Hsc in Q. injection Q as <-. exact (schema_main st w0 h E Hti Hk).
    - destruct (Cs t h Ht Hh) as [(row & Hr & Hk)|(sc & x & Q & Hx & Hk)]; [left; eauto|]. pose proof Hsc as Hsc'. rewrite Hsc in Q. injection Q as <-. cbn [sci_subs schema_info_of] in Hx.
      assert (Nd : NoDup (map fst (sp_subs st))) by (pose proof (proj1 HJ) as SR; unfold schema_ready in SR; rewrite Hsc in SR; exact (proj1 SR)).
      destruct (schema_sub st w0 _ x h E Hti (In_sget _ _ _ Nd Hx) Hk) as [C|[Er Ne]]; [left; exact C|].
      destruct (root_first O drop pi _ s w (proj1 HJ) HF t _ x Ht Hsc Hx) as [Q|(rest & Q)]; [congruence|right; exists rest; rewrite Er; exact Q].
  Qed.

  (** ** lines *)
  Lemma some_data : docs <> [] -> tn_data (t_node T 0) <> [].
  Proof.
    intros Hne. assert (Hc : exists p ts, chain SO S p ts).
    { destruct docs as [|o l] eqn:Ed; [congruence|]. assert (Ho : In o docs) by (rewrite Ed; left; reflexivity). rewrite <- Ed in *. destruct (doc_ok O docs HD o Ho) as (_ & (sc & E & Hpv) & _).
      destruct (leaf_chain SO S docs HR HA o [] idn (JS sc) Ho) as (ts & C); [cbn [app Paths.at_path]; rewrite E; reflexivity|exact (plain_basic _ Hpv)|]. eauto. }
    destruct Hc as (p & ts & C). destruct (chain_inv _ _ _ _ C) as (n & v & t & Pn & Tv & _).
    pose proof HS as (SU & st & w0 & E & Hn & Hw & Hl & _ & ET). pose proof (proj1 HR) as Hcl. apply (clear_same SO SU S (eq_sym Hn) (eq_sym Hw) (eq_sym Hl)) in Hcl.
    pose proof (schema_tree SU S st w0 E Hcl) as Tr. inversion Tr as [i0 v0 A _ E1 E2]; clear Tr. destruct (A n v t (property_same SO SU (eq_sym Hn) S n v Pn) Tv) as (j & _ & Ef & _).
    rewrite ET. unfold t_find in Ef. destruct (tn_data (t_node (sp_table st) 0)); [discriminate|]. discriminate.
  Qed.
  Definition conv (y : sheet_in) : sheet_in := {| si_name := si_name y; si_headings := si_headings y; si_lines := map (convert_line (so_lower SO) T) (si_lines y) |}.
  Lemma conv_lines H rows : docs <> [] -> map (convert_line (so_lower SO) T) (map (table_line write b H) rows) = map (fun r => make_line (map (fun h => (SStr (back SO T h), cell write b r h)) H)) rows.
  Proof.
    intros Hne. rewrite map_map. apply map_ext. intros r. unfold convert_line. pose proof (some_data Hne) as Hd. destruct (tn_data (t_node T 0)); [congruence|]. unfold table_line. rewrite map_map. f_equal.
  Qed.
  Lemma row_place r e h val : row_ok r e -> sget h r = Some val -> exists L ts, place_ok L ts /\ h = joint ts /\ full SO P T h = ctext L.
  Proof.
    intros (_ & Q & _ & _ & H) Hv. apply H in Hv as (L & ts & _ & (C & F & K) & ->). exists L, ts. split; [split; auto|]. split; [reflexivity|]. apply (full_chain SO S P T HR HS L ts C F K).
  Qed.
  Lemma row_same r e L ts : row_ok r e -> place_ok L ts -> sget (joint ts) r = sget (full SO P T (joint ts)) (e_row e).
  Proof.
    intros (Ho & Q & _ & Hs & H) (C & F & K). pose proof (full_chain SO S P T HR HS L ts C F K) as EL.
    assert (G : forall val, sget (joint ts) r = Some val <-> sget (full SO P T (joint ts)) (e_row e) = Some val).
    { intros val. rewrite EL, H, (plain_told O docs Hpres HD (e_obj e) Q (e_row e) (ctext L) val Ho Hs). split.
      - intros (L' & ts' & Hl & (C' & F' & K') & E). exists L'. split; [exact Hl|]. rewrite <- EL, E. apply (full_chain SO S P T HR HS L' ts' C' F' K').
      - intros (L' & Hl & E). destruct (lp_place (e_obj e) Q L' val Ho Hl) as (ts' & C' & F' & K'). exists L', ts'. split; [exact Hl|]. split; [split; auto|]. f_equal. exact (full_inj SO S P HR L ts L' ts' C C' K K' E). }
    destruct (sget (joint ts) r) as [v|]; [symmetry; apply G; reflexivity|]. destruct (sget (full SO P T (joint ts)) (e_row e)) as [v|]; [apply G; reflexivity|reflexivity].
  Qed.
  Theorem sheet_virtual t rows es y : In t (tables s) -> Permutation (tb_rows t) rows -> Forall2 row_ok rows es -> reads_headings t y -> si_lines y = map (table_line write b (tb_header t)) rows ->
    exists x, RtRun.sheet_of P write (cell_of O0) docs b x es /\ Filled.fits x /\ Filled.fits (conv y) /\ Forall2 (same_but_positions P) (filled_rows P x) (filled_rows P (conv y)).
  Proof.
    intros Ht Hp F Hh Hl. destruct rows as [|r0 rows0] eqn:Erows.
    { inversion F; subst. exists {| si_name := []; si_headings := None; si_lines := [] |}. split; [exists []; split; [constructor|]; split; [constructor|]; split; [left; reflexivity|reflexivity]|].
      split; [exact I|]. assert (El : si_lines (conv y) = []) by (unfold conv; cbn [si_lines]; rewrite Hl; reflexivity). split.
      - unfold Filled.fits. destruct (si_headings (conv y)); [|exact I]. rewrite El. intros line [].
      - unfold filled_rows at 2. rewrite El. destruct (si_headings (conv y)) as [[|]|]; constructor. }
    rewrite <- Erows in *. assert (Hne : docs <> []). { intros Ed. subst rows. inversion F as [|? e ? ? He]; subst. destruct He as (Ho & _). rewrite Ed in Ho. destruct Ho. }
    set (H := tb_header t) in *. set (used := fun h => existsb (fun r => shas h r) rows).
    assert (Hused : forall h, used h = true -> exists L ts, place_ok L ts /\ h = joint ts /\ full SO P T h = ctext L).
    { intros h Hu. apply existsb_exists in Hu as (r & Hr & Hs). destruct (RowRead.Forall2_in_l _ _ _ F r Hr) as (e & _ & He). unfold shas, ahas in Hs. destruct (sget h r) as [v|] eqn:Ev; [|unfold sget in Ev; rewrite Ev in Hs; discriminate]. eapply row_place; eauto. }
    assert (Hcov : forall r h v, In r rows -> sget h r = Some v -> In h H /\ used h = true).
    { intros r h v Hr Hv. split.
      - apply sget_In in Hv. eapply (flatten_covered O drop pi (proj1 HJ)); [exact HF|exact nfree|exact Ht| |exact Hv]. eapply Permutation_in; [symmetry; exact Hp|exact Hr].
      - apply existsb_exists. exists r. split; [exact Hr|]. unfold shas, ahas. unfold sget in Hv. rewrite Hv. reflexivity. }
    assert (Hnd : NoDup H) by (eapply (flatten_distinct O drop pi (proj1 HJ)); [exact HF|exact Ht]).
    destruct (same_sheets P write b H (back SO T) (full SO P T) used (at_array P) Hb) as (header' & Nd & Hin & Hall).
    - intros h Hi Hu A h' B E Eb. destruct (Hused h Hu) as (L & ts & (C & _) & -> & _). assert (Hi' : In h' H) by (rewrite E; apply in_elt). destruct (columns t h' Ht Hi') as [(p' & ts' & C' & ->)|(rest & Er)].
      + left. f_equal. symmetry. exact (back_fun SO S P T HR HS _ _ _ _ C C' (eq_sym Eb)).
      + fold H in Er. destruct A as [|a A].
        * cbn [app] in E. rewrite E in Hi. destruct Hi as [Hi|Hi]; [left; exact Hi|right; exact Hi].
        * exfalso. rewrite Er in E. cbn [app] in E. injection E as <- E. rewrite Er in Hnd. inversion Hnd as [|? ? Hn _]; subst. apply Hn. apply in_elt.
    - intros h h' Hi Hi' Hu Hu' E. destruct (Hused h Hu) as (L & ts & (C & F1 & K) & -> & E1). destruct (Hused h' Hu') as (L' & ts' & (C' & F2 & K') & -> & E2). f_equal. apply (full_inj SO S P HR L ts L' ts' C C' K K'). congruence.
    - intros h Hi Hu. destruct (Hused h Hu) as (L & ts & (C & F1 & K) & -> & _). exact (full_names SO S P T HR HS L ts C F1 K (ce_env (o_conv P))).
    - intros a. unfold at_array. destruct (str_eqb_spec (o_types P (join [slash] a)) (u "array")) as [E|E]; [left; exact E|right; reflexivity].
    - pose proof HV as (_ & _ & Er & _). rewrite Er. destruct rid as [|c0 rr] eqn:Erid; [left; reflexivity|right]. rewrite <- Erid in *. assert (Hrid : rid <> []) by (rewrite Erid; discriminate).
      assert (Hr0 : In r0 rows) by (rewrite Erows; left; reflexivity). destruct (RowRead.Forall2_in_l _ _ _ F r0 Hr0) as (e & _ & (Ho & Q & Eat & Hs & Hv)). destruct (doc_ok O docs HD _ Ho) as (_ & _ & Hrv & _). destruct (Hrv Hrid) as (sc & Esc & Hpv).
      assert (Hlp : lp O (e_obj e) Q [(rid, None)] (JS sc)).
      { destruct Q as [|st Q]; [left; exists [], rid, (JS sc)|right; exists [], (st :: Q); split; [reflexivity|]; split; [discriminate|]]; cbn [Paths.at_path]; rewrite Esc; auto. }
      destruct (lp_place _ _ _ _ Ho Hlp) as (ts & Hpl). pose proof (proj2 (Hv (joint ts) (JS sc)) (ex_intro _ _ (ex_intro _ ts (conj Hlp (conj Hpl eq_refl))))) as G. destruct (Hcov r0 _ _ Hr0 G) as [G1 G2]. destruct Hpl as (C & F1 & K).
      exists (joint ts). split; [exact G1|]. split; [exact G2|]. split; [rewrite (full_chain SO S P T HR HS _ ts C F1 K); exact (ctext_key [] rid)|]. rewrite (back_chain SO S P T HR HS _ _ C). reflexivity.
    - set (x := {| si_name := si_name y; si_headings := None; si_lines := map (table_line write b header') (map e_row es) |}). exists x. split.
      + exists header'. split; [exact Nd|]. split; [|split; [left; reflexivity|unfold x; cbn [si_lines]; rewrite map_map; reflexivity]]. apply Forall_forall. intros e He. apply Forall2_flip in F. destruct (RowRead.Forall2_in_l _ _ _ F e He) as (r & Hr & Hok). pose proof Hok as (Ho & Q & Eat & Hs & Hv).
        pose proof HV as (_ & Ei & Er & _). destruct (shown_row O0 Hpres (e_obj e) Q (e_row e) (doc_ok O docs HD _ Ho) Hs) as (A1 & B1 & C1 & _). split; [exact Ho|]. rewrite Eat. split; [exact A1|]. rewrite Ei, Er. split; [exact B1|]. split; [exact C1|].
        intros c v Hc. apply (plain_told O docs Hpres HD _ _ _ _ _ Ho Hs) in Hc as (L & Hlp & ->). destruct (lp_place _ _ _ _ Ho Hlp) as (ts & Hpl). pose proof (proj2 (Hv (joint ts) v) (ex_intro _ _ (ex_intro _ ts (conj Hlp (conj Hpl eq_refl))))) as G. destruct (Hcov r _ _ Hr G) as [G1 G2].
        destruct Hpl as (C & F1 & K). rewrite <- (full_chain SO S P T HR HS _ ts C F1 K). apply Hin; assumption.
      + apply (Hall x (conv y) rows (map e_row es)); [reflexivity|reflexivity|exact Hh| |].
        * unfold conv. cbn [si_lines]. rewrite Hl. apply conv_lines. exact Hne.
        * assert (G : forall r e, In r rows -> row_ok r e -> (forall h, In h H -> used h = true -> sget h r = sget (full SO P T h) (e_row e)) /\ (forall h, In h H -> used h = false -> sget h r = None)).
          { intros r e Hr Hok. split.
            - intros h _ Hu. destruct (Hused h Hu) as (L & ts & Hpl & -> & _). exact (row_same r e L ts Hok Hpl).
            - intros h _ Hu. destruct (sget h r) as [v|] eqn:Ev; [|reflexivity]. destruct (Hcov r h v Hr Ev) as [_ Q]. congruence. }
          clearbody used. clear - F G. induction F as [|r e rows es Hre F IH]; cbn [map]; constructor; [apply G; [left; reflexivity|exact Hre]|]. apply IH. intros r' e' Hr'. apply G. right. exact Hr'.
  Qed.
End Sheets.
