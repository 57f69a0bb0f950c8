(** The outcome of a run depends on the filled cells of its rows only. *)
From Coq Require Import Permutation Lia.
From Verif.Base Require Import PyStr PyNum PyVal PyDict Outcome.
From Verif.Model Require Import Warn Lib Convert Input.
From Verif.Spec Require Import Filled.
From Verif.Proofs Require Import TreeInd EmbedFacts Erase.
Local Open Scope res_scope.

Definition f0 (l : loc) : loc := {| l_sheet := []; l_col := []; l_row := 0%N; l_heading := l_heading l |}.
Lemma f0_heading l : l_heading (f0 l) = l_heading l. Proof. reflexivity. Qed.
Definition ecell (c : fcell) : scalar * cell := (fc_key c, mk_cell (CV (fc_value c)) {| l_sheet := []; l_col := []; l_row := 0%N; l_heading := fc_heading c |}).
Definition erow (O : opts) (r : frow) (st : main_state) : R main_state :=
  d <- unflatten_row (o_conv O) (o_types O) (o_xml O) (o_id_name O) (map ecell (fr_cells r)) ;; place O (fr_sheet r) (fr_root r) d st.
Fixpoint erun (O : opts) (rs : list frow) (st : main_state) : R main_state :=
  match rs with [] => ret st | r :: rs' => st' <- erow O r st ;; erun O rs' st' end.

Lemma line_cells_ok O sheet hs j line : forall k, match hs with None => True | Some l => (N.to_nat k + length line <= length l)%nat end ->
  exists cells, line_cells O sheet hs j k line = ret cells /\
    lline f0 cells = map ecell (headed (match hs with None => None | Some l => Some (skipn (N.to_nat k) l) end) line).
Proof.
  induction line as [|[key v] line IH]; intros k Hk; cbn [line_cells headed].
  - exists []. auto.
  - destruct hs as [l|].
    + cbn [length] in Hk. destruct (nth_error l (N.to_nat k)) as [h|] eqn:En; [|apply nth_error_None in En; lia].
      destruct (IH (k + 1)%N) as (cells & Hc & Hl); [replace (N.to_nat (k + 1)) with (S (N.to_nat k)) by lia; lia|].
      rewrite Hc. cbn. eexists. split; [reflexivity|]. cbn [lline map fst snd].
      assert (Es : skipn (N.to_nat k) l = h :: skipn (N.to_nat (k + 1)) l).
      { replace (N.to_nat (k + 1)) with (S (N.to_nat k)) by lia. clear -En. revert l En. induction (N.to_nat k) as [|n IHn]; intros [|x l] En; try discriminate; cbn in *; [congruence|apply IHn; exact En]. }
      rewrite Es. cbn [map]. f_equal. exact Hl.
    + destruct (IH (k + 1)%N I) as (cells & Hc & Hl). rewrite Hc. cbn. eexists. split; [reflexivity|]. cbn [lline map fst snd]. f_equal. exact Hl.
Qed.
Lemma build_row_filled E types xml l : forall cur, build_row E types xml (map ecell l) cur = build_row E types xml (map ecell (filter (fun c => negb (blank (fc_value c))) l)) cur.
Proof.
  induction l as [|c l IH]; intros cur; [reflexivity|]. cbn [map filter build_row ecell mk_cell c_val]. unfold cv_blank at 1.
  destruct (blank (fc_value c)) eqn:Eb; cbn [negb]; [apply IH|]. cbn [map build_row ecell mk_cell c_val]. unfold cv_blank. rewrite Eb. apply bind_ext. exact IH.
Qed.
Lemma filled_nil hs line : match hs with None => True | Some l => (length line <= length l)%nat end ->
  forallb (fun kv => blank (snd kv)) line = match filled hs line with [] => true | _ => false end.
Proof.
  unfold filled. revert hs. induction line as [|[k v] line IH]; intros hs Hl; [reflexivity|]. cbn [forallb headed snd].
  destruct hs as [[|h hs]|]; cbn [length] in Hl; [lia| |]; cbn [filter fc_value]; destruct (blank v); cbn [negb andb]; try reflexivity; apply IH; [lia|exact I].
Qed.
Lemma seen_bind {A B} h (m : R A) (k : A -> R B) : seen_as h (bind m k) = bind (seen_as h m) (fun x => seen_as h (k x)).
Proof. destruct m as [a w|e w]; simpl; [|reflexivity]. destruct (k a); simpl; rewrite flat_map_app; reflexivity. Qed.
Lemma seen_rmap {A B} h (f : A -> B) (m : R A) : seen_as h (rmap f m) = rmap f (seen_as h m).
Proof. destruct m; reflexivity. Qed.

Section Run.
  Variable O : opts.
  Notation lst := (lst f0).
  Lemma do_line_erow sheet hs j line st : match hs with None => True | Some l => (length line <= length l)%nat end ->
    rmap lst (do_line O sheet hs j line st) =
    erun O (match filled hs line with [] => [] | c => [{| fr_sheet := sheet; fr_root := line_root O line; fr_cells := c |}] end) (lst st).
  Proof.
    intros Hl. unfold do_line. rewrite (filled_nil hs line Hl). destruct (filled hs line) as [|c0 cs] eqn:Ef; [reflexivity|].
    destruct (line_cells_ok O sheet hs j line 0) as (cells & Hc & Hcells); [destruct hs; [exact Hl|exact I]|].
    assert (Hh : match hs with Some l => Some (skipn (N.to_nat 0) l) | None => None end = hs) by (destruct hs; reflexivity). rewrite Hh in Hcells.
    rewrite Hc. rewrite bind_ret_l. cbn [erun]. unfold erow. cbn [fr_cells fr_sheet fr_root].
    assert (Hu : unflatten_row (o_conv O) (o_types O) (o_xml O) (o_id_name O) (map ecell (c0 :: cs)) = rmap (ltd f0) (unflatten_row (o_conv O) (o_types O) (o_xml O) (o_id_name O) cells)).
    { rewrite <- unflatten_row_loc, Hcells. unfold unflatten_row. rewrite (build_row_filled _ _ _ (headed hs line)). unfold filled in Ef. rewrite Ef. reflexivity. }
    rewrite Hu, bind_rmap, rmap_bind.
    destruct (unflatten_row (o_conv O) (o_types O) (o_xml O) (o_id_name O) cells) as [d w|e w]; [|reflexivity]. cbn [bind].
    rewrite (place_loc f0 f0_heading). destruct (place O sheet (line_root O line) d st) as [st' w'|e w']; cbn [rmap ret bind]; rewrite ?app_nil_r; reflexivity.
  Qed.
  Lemma erun_app a b : forall st, erun O (a ++ b) st = (st' <- erun O a st ;; erun O b st').
  Proof.
    induction a as [|r a IH]; intros st; cbn [app erun]; [rewrite bind_ret_l; reflexivity|].
    destruct (erow O r st) as [st' w|e w]; cbn [bind]; [|reflexivity]. rewrite IH. destruct (erun O a st') as [st2 w2|e w2]; cbn [bind]; [|reflexivity].
    destruct (erun O b st2); rewrite app_assoc; reflexivity.
  Qed.
  Lemma do_lines_erun sheet hs lines : (forall line, In line lines -> match hs with None => True | Some l => (length line <= length l)%nat end) -> forall j st,
    rmap lst (do_lines O sheet hs j lines st) =
    erun O (flat_map (fun line => match filled hs line with [] => [] | c => [{| fr_sheet := sheet; fr_root := line_root O line; fr_cells := c |}] end) lines) (lst st).
  Proof.
    induction lines as [|line lines IH]; intros Hl j st; cbn [do_lines flat_map]; [reflexivity|].
    rewrite erun_app, <- (do_line_erow sheet hs j) by (apply Hl; left; reflexivity). rewrite bind_rmap, rmap_bind. apply bind_ext. intros st'. apply IH. intros l H. apply Hl. right. exact H.
  Qed.
  Lemma do_sheets_erun h sheets : (forall x, h x = [] \/ match x with WDuplicateHeading _ _ _ => False | _ => True end) -> Forall fits sheets -> forall st,
    seen_as h (rmap lst (do_sheets O sheets st)) = seen_as h (erun O (flat_map (filled_rows O) sheets) (lst st)).
  Proof.
    intros Hh. induction 1 as [|s sheets Hs _ IH]; intros st; cbn [do_sheets flat_map]; [reflexivity|].
    rewrite erun_app, !seen_rmap, !seen_bind, rmap_bind.
    assert (G : rmap lst (seen_as h (do_sheet O s st)) = seen_as h (erun O (filled_rows O s) (lst st))).
    { unfold do_sheet, filled_rows, fits in *. destruct (si_headings s) as [[|x hs]|]; [reflexivity| |].
      - rewrite <- (do_lines_erun (si_name s) (Some (x :: hs)) (si_lines s)) with (j := 0%N); [|exact Hs]. rewrite <- seen_rmap. cbn [bind].
        destruct (do_lines O (si_name s) (Some (x :: hs)) 0 (si_lines s) st) as [st' w|e w]; cbn [rmap seen_as]; rewrite flat_map_app;
          (replace (flat_map h (heading_warnings (si_name s) (x :: hs))) with (@nil warning); [reflexivity|]);
          unfold heading_warnings; induction (rev (found_rev (N.of_nat (length (x :: hs))) (rev (x :: hs)) [])) as [|[y cols] l IHl]; try reflexivity;
          cbn [flat_map fst snd]; destruct cols; cbn [app flat_map]; try exact IHl; (match goal with |- context [h ?z] => destruct (Hh z) as [Q|Q]; [rewrite Q; exact IHl|destruct Q] end).
      - rewrite <- (do_lines_erun (si_name s) None (si_lines s)) with (j := 0%N); [|intros; exact I]. rewrite seen_rmap. reflexivity. }
    rewrite <- G, bind_rmap. apply bind_ext. intros st'. rewrite <- seen_rmap. apply IH.
  Qed.
  Lemma unflatten_erun h sheets : (forall x, h x = [] \/ match x with WDuplicateHeading _ _ _ => False | _ => True end) -> Forall fits sheets ->
    seen_as h (unflatten O sheets) = rmap (fun st : main_state => flat_map (fun rt => map tvd (temp_items (snd rt))) st) (seen_as h (erun O (flat_map (filled_rows O) sheets) [])).
  Proof.
    intros Hh Hs. pose proof (do_sheets_erun h sheets Hh Hs []) as Hr. change (lst []) with (@nil (scalar * ttemp)) in Hr. rewrite <- Hr. clear Hr. unfold unflatten, do_unflatten.
    destruct (do_sheets O sheets []) as [st w|e w]; cbn [bind ret rmap seen_as]; [|reflexivity]. rewrite !app_nil_r. f_equal.
    induction st as [|[r t] st IH]; [reflexivity|]. cbn [flat_map lst vals map fst snd]. rewrite map_app. f_equal; [|exact IH].
    unfold temp_items, ltt, vals. cbn [fst snd]. rewrite !map_app, !map_map. f_equal; apply map_ext; intros x; cbn [fst snd]; rewrite tvd_loc; [apply dict_to_v_j|apply dict_to_v_j].
  Qed.

  Theorem filled_decides A B : Forall fits A -> Forall fits B -> flat_map (filled_rows O) A = flat_map (filled_rows O) B ->
    seen_as but_headings (unflatten O A) = seen_as but_headings (unflatten O B).
  Proof.
    intros HA HB H. rewrite !unflatten_erun; [rewrite H; reflexivity|intros []; auto|exact HB|intros []; auto|exact HA].
  Qed.

  (** ** The name of the sheet only shows up in warnings *)
  Definition dbg_at (s : str) (d : debug) : debug := {| dbg_sheet := s; dbg_root_id := dbg_root_id d; dbg_root := dbg_root d; dbg_id_name := dbg_id_name d; dbg_id := dbg_id d |}.
  Lemma merge_sheet dbg s base m : seen_as anonymous (merge (dbg_at s dbg) base m) = seen_as anonymous (merge dbg base m).
  Proof.
    set (okn := fun v => forall k base, seen_as anonymous (merge_item (dbg_at s dbg) k v base) = seen_as anonymous (merge_item dbg k v base)).
    assert (L : forall m, Pd okn m -> forall base, seen_as anonymous (merge_list (merge_item (dbg_at s dbg)) m base) = seen_as anonymous (merge_list (merge_item dbg) m base)).
    { intros m' H. induction H as [|[k v] m' Hv _ IH]; intros b; [reflexivity|]. cbn [merge_list]. cbn [snd] in Hv. rewrite !seen_bind, (Hv k b). apply bind_ext. exact IH. }
    assert (Dt : forall data, Forall (fun kd : scalar * tdict => Pd okn (snd kd)) data -> forall bdata, seen_as anonymous (merge_data (merge_item (dbg_at s dbg)) data bdata) = seen_as anonymous (merge_data (merge_item dbg) data bdata)).
    { intros data H. induction H as [|[k d] data Hd _ IH]; intros b; [reflexivity|]. cbn [merge_data]. destruct (kget k b) as [b0|]; [|apply IH].
      rewrite !seen_bind, (L _ Hd). apply bind_ext. intros. apply IH. }
    assert (All : forall v, okn v).
    { intros v. induction v as [c|d IH|data nk IHd IHn] using tnode_ind'; intros k b; cbn [merge_item]; destruct (sget k b) as [x|]; try reflexivity.
      - destruct (c_val c), x; try reflexivity; cbn [dbg_at dbg_root_id dbg_root dbg_id_name dbg_id dbg_sheet]; match goal with |- context [cv_eqb ?a ?b] => destruct (cv_eqb a b) end; reflexivity.
      - destruct x; try reflexivity. rewrite !seen_bind, (L _ IH). reflexivity.
      - destruct x; try reflexivity. rewrite !seen_bind, (Dt _ IHd). reflexivity. }
    apply L. apply Forall_forall. intros kv _. apply All.
  Qed.
  Lemma place_sheet s s' root d st : seen_as anonymous (place O s root d st) = seen_as anonymous (place O s' root d st).
  Proof.
    unfold place. cbv zeta. rewrite !seen_bind. apply bind_ext. intros k.
    destruct (match k with Some k0 => _ | None => None end) as [[k0 old]|]; [|reflexivity]. rewrite !seen_bind.
    rewrite <- (merge_sheet _ s'). reflexivity.
  Qed.
  Lemma erun_sheet a : forall b, map no_sheet a = map no_sheet b -> forall st, seen_as anonymous (erun O a st) = seen_as anonymous (erun O b st).
  Proof.
    induction a as [|x a IH]; intros [|y b] H st; try discriminate; [reflexivity|]. cbn [map] in H. injection H as H1 H2 H3. cbn [erun].
    rewrite !seen_bind. unfold erow. rewrite H1, H2. rewrite !seen_bind.
    destruct (seen_as anonymous (unflatten_row (o_conv O) (o_types O) (o_xml O) (o_id_name O) (map ecell (fr_cells y)))) as [d w|e w]; cbn [bind]; [|reflexivity].
    rewrite (place_sheet (fr_sheet x) (fr_sheet y)). destruct (seen_as anonymous (place O (fr_sheet y) (fr_root y) d st)) as [st' w'|e w']; cbn [bind]; [|reflexivity].
    rewrite (IH b H3). reflexivity.
  Qed.
  Theorem sheets_do_not_matter A B : Forall fits A -> Forall fits B -> map no_sheet (flat_map (filled_rows O) A) = map no_sheet (flat_map (filled_rows O) B) ->
    seen_as anonymous (unflatten O A) = seen_as anonymous (unflatten O B).
  Proof.
    intros HA HB H. rewrite !unflatten_erun; [|intros []; auto|exact HB|intros []; auto|exact HA]. f_equal. apply erun_sheet. exact H.
  Qed.
End Run.
