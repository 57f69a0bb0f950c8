(** The source map files of a run, beside its output (C71). *)
From Verif.Base Require Import PyStr PyNum PyVal PyDict Outcome.
From Verif.Model Require Import Warn Lib Convert Input Json SourceMap Flatten Readers Output Commands JsonText MapText.
From Verif.Spec Require Import Source Rows Cells Maps Commands JsonGrammar MapText.
From Verif.Proofs Require Import MapRun MapSound JsonScan JsonTexts CommandRun CommandMaps MapTextFacts.
Local Open Scope res_scope.
Local Open Scope list_scope.

Lemma F2_get {A B} (Q : A -> B -> Prop) (d : list (str * A)) (e : list (str * B)) k x :
  Forall2 (fun a b => fst a = fst b /\ Q (snd a) (snd b)) d e -> sget k d = Some x -> exists y, sget k e = Some y /\ Q x y.
Proof.
  intros H. induction H as [|[ka a] [kb b] d e [Hk Hq] F IH]; [discriminate|]. cbn [fst snd] in *. subst kb. unfold sget in *. cbn [aget].
  destruct (str_eqb k ka); [intros [= <-]; exists b; auto|exact IH].
Qed.
Lemma F2_nth {A B} (Q : A -> B -> Prop) l m : Forall2 Q l m -> forall i x, nth_error l i = Some x -> exists y, nth_error m i = Some y /\ Q x y.
Proof. induction 1 as [|a b l m Ha F IH]; intros [|i] x; cbn [nth_error]; try discriminate; [intros [= <-]; eauto|apply IH]. Qed.

Lemma place_said T E : forall p n j V c, record_json E n j -> out_tells T false j V -> value_at n p = Some (VLeaf c) ->
  exists jl x w, json_cell E c = Ok jl w /\ leaf_tells T false jl x /\ said_at V p = Some x.
Proof.
  induction p as [|s p IH]; intros n j V c Hr Ht Hp.
  - injection Hp as ->. inversion Hr as [c' jl [w Ej]| |]; subst. inversion Ht as [j' v Hl| |]; subst. exists jl, V, w. auto.
  - destruct s as [i|k]; cbn [value_at] in Hp.
    + destruct n as [|d|l]; try discriminate. destruct (nth_error l (N.to_nat i)) as [d|] eqn:Ei; [|discriminate].
      inversion Hr as [| |l' m F]; subst. inversion Ht as [|m' vs G|]; subst.
      destruct (F2_nth _ _ _ F _ _ Ei) as (o & Eo & Ho). destruct (F2_nth _ _ _ G _ _ Eo) as (v & Ev & Hv).
      cbn [said_at]. rewrite Ev. exact (IH (VDict d) o v c Ho Hv Hp).
    + destruct n as [|d|l]; try discriminate. destruct (sget k d) as [n'|] eqn:Ek; [|discriminate].
      inversion Hr as [|d' e F|]; subst. inversion Ht as [| |e' vs G]; subst.
      destruct (F2_get _ _ _ _ _ F Ek) as (o & Eo & Ho). destruct (F2_get _ _ _ _ _ G Eo) as (v & Ev & Hv).
      cbn [said_at]. rewrite Ev. exact (IH n' o v c Ho Hv Hp).
Qed.

Lemma row_text_inj O F sheets r m mh w : fancy_unflatten O F sheets = Ok (r, m, mh) w -> forall q q' f f' v v',
  leaf r (q ++ [PKey f]) v -> leaf r (q' ++ [PKey f']) v' -> place_text F q = place_text F q' -> q = q'.
Proof.
  intros H q q' f f' v v' Hq Hq' Eq. assert (exists tree, do_unflatten O sheets = Ok tree w /\ r = map dict_to_v tree) as (tree & Ht & ->).
  { apply fancy_inv in H as (tree & items & H & E & _). exists tree. auto. }
  pose proof (run_good_tree _ _ _ _ Ht) as G. apply leaf_cell in Hq as (c & Hc & _). apply leaf_cell in Hq' as (c' & Hc' & _). rewrite <- !path_str_place in Eq.
  eapply placed_inj; [exact (proj1 (parent_placed tree G _ _ _ Hc))|exact (proj1 (parent_placed tree G _ _ _ Hc'))|exact Eq].
Qed.
Section Run.
  Context (Wd : world).
  Notation E := (we_env (wd_wenv Wd)).
  (** the records, the output and the maps of one run *)
  Lemma run_parts U w : unflatten_file Wd U = Ok tt w -> u_xml U = false -> ~ given (u_meta U) -> u_meta_only U = false \/ u_root_list U = true ->
    let conf := default_conf (u_conf U) in
    exists fn f recs mc mh j, u_format U = Some fn /\ sget fn formats = Some f /\ main_maps Wd U f conf recs mc mh /\ json_written w (u_output U) j /\
      (exists m, Forall2 (fun x o => record_json E (VDict x) o) recs m /\
         if u_root_list U then j = OArr m else exists l, j = OObj l /\ sget (root_path U conf) l = Some (OArr m)) /\
      (u_cells U <> [] -> exists m, mc = Some m /\ cells_written w (u_cells U) m) /\
      (u_heads U <> [] -> exists h, mh = Some h /\ heads_written w (u_heads U) h).
  Proof.
    intros H Hx Hn Hm conf.
    apply unflatten_stages in H as (fn & f & b0 & s & r & cells & heads & j & w1 & w2 & w3 & w4 & H1 & H2 & H3 & Hb & Hms & Hr & Hj & Hw & Kc & Kh); [|exact Hx].
    apply no_metatab in Hms; [|exact Hn]. subst s. apply main_stage_ok in Hr as (recs & mc & mh & _ & Hr & Hf & Ec & Eh); [|exact Hm].
    cbn [us_conf us_cells us_heads us_base] in *. fold conf in Hf. exists fn, f, recs, mc, mh, j. split; [exact H1|]. split; [exact H2|]. split; [exact Hr|]. split; [exact Hw|]. split.
    - destruct (u_root_list U) eqn:El.
      + subst r. cbn [dump] in Hj. apply dump_records_ok in Hj as (m & -> & F). exists m. auto.
      + destruct Hf as (b & -> & ->). cbn [dump] in Hj. apply bind_ok in Hj as (l & w5 & w6 & Hd & Hj & ->). injection Hj as <- <-. apply dump_items_ok in Hd.
        pose proof (F2_sget (fun x y => exists w', dump_value Wd x = Ok y w') _ _ (root_path U conf) Hd) as X. rewrite sset_value in X. cbn in X. destruct (sget (root_path U conf) l) as [o|] eqn:El'; [|contradiction].
        destruct X as (w' & X). apply dump_records_ok in X as (m & -> & X). exists m. split; [exact X|]. exists l. auto.
    - destruct Hr as (sheets & O & w5 & _ & Hf'). apply fancy_maps in Hf' as [Fc Fh]. cbn [f_cells f_headings] in Fc, Fh. split; intros N.
      + destruct (Fc (filled_true _ N)) as (m & -> & Nd). exists m. split; [reflexivity|]. cbn [from_opt] in Ec. rewrite update_nil in Ec by exact Nd. subst cells.
        intros name m'. rewrite Kc. tauto.
      + destruct (Fh (filled_true _ N)) as (m & -> & Nd). exists m. split; [reflexivity|]. cbn [from_opt] in Eh. rewrite update_nil in Eh by exact Nd. subst heads.
        intros name m'. rewrite Kh. tauto.
  Qed.
  Lemma common_at O sheets l v : common_headings sheets -> raw_at O sheets l v -> common_heading (l_heading l).
  Proof.
    intros H (s & j & k & line & key & Hs & Hj & Hk & _ & _ & _ & Hh). destruct (H s Hs) as [H1 H2]. destruct (si_headings s) as [hs|].
    - exact (H1 hs _ eq_refl (nth_error_In _ _ Hh)).
    - rewrite Hh. exact (H2 line key v (nth_error_In _ _ Hj) (nth_error_In _ _ Hk)).
  Qed.
  Lemma said_root T U recs m j V path : Forall2 (fun x o => record_json E (VDict x) o) recs m ->
    (if u_root_list U then j = OArr m else exists l, j = OObj l /\ sget path l = Some (OArr m)) -> out_tells T false j V ->
    forall p c, leaf recs p c -> exists jl x w, json_cell E c = Ok jl w /\ leaf_tells T false jl x /\ said_at V (root_place U path ++ p) = Some x.
  Proof.
    intros F Hj Ht p c Hc. assert (record_json E (VList recs) (OArr m)) as Hr by (constructor; exact F). unfold root_place. destruct (u_root_list U).
    - subst j. cbn [app]. exact (place_said T E p _ _ _ c Hr Ht Hc).
    - destruct Hj as (l & -> & Hl). inversion Ht as [| |l' vs G]; subst. destruct (F2_get _ _ _ _ _ G Hl) as (v & Ev & Hv). cbn [fst snd] in *.
      cbn [app said_at]. rewrite Ev. exact (place_said T E p _ _ _ c Hr Hv Hc).
  Qed.
  Lemma F2_keys {A B} (Q : A -> B -> Prop) (d : list (str * A)) (e : list (str * B)) : Forall2 (fun a b => fst a = fst b /\ Q (snd a) (snd b)) d e -> map fst d = map fst e.
  Proof. induction 1 as [|a b d e [Hk _] _ IH]; [reflexivity|]. cbn [map]. rewrite Hk, IH. reflexivity. Qed.
  Lemma F2_in {A B} (Q : A -> B -> Prop) l m : Forall2 Q l m -> forall x, In x l -> exists y, In y m /\ Q x y.
  Proof. induction 1 as [|a b l m Ha F IH]; intros x Hx; [destruct Hx|]. destruct Hx as [<-|Hx]; [exists b; split; [left; reflexivity|exact Ha]|]. destruct (IH x Hx) as (y & Hy & Hq). exists y. split; [right; exact Hy|exact Hq]. Qed.
  Lemma F2_in' {A B} (Q : A -> B -> Prop) l m : Forall2 Q l m -> forall y, In y m -> exists x, In x l /\ Q x y.
  Proof. induction 1 as [|a b l m Ha F IH]; intros x Hx; [destruct Hx|]. destruct Hx as [<-|Hx]; [exists a; split; [left; reflexivity|exact Ha]|]. destruct (IH x Hx) as (y & Hy & Hq). exists y. split; [right; exact Hy|exact Hq]. Qed.

  (** the cell source map file leads from every value of the output to its cells *)
  Theorem cell_file T U w : floats_are_json (te_env T) -> unflatten_file Wd U = Ok tt w -> u_xml U = false -> ~ given (u_meta U) ->
    u_meta_only U = false \/ u_root_list U = true -> u_cells U <> [] ->
    let conf := default_conf (u_conf U) in let F := run_fancy U conf in
    exists f sheets O r j m wx, main_run Wd U f conf sheets O /\ unflatten O sheets = Ok r wx /\ json_written w (u_output U) j /\ cells_written w (u_cells U) m /\
      (common_headings sheets -> plain_out T j -> exists V t d, document_says false (json_text T j) V /\ cells_text T E m = Ok t [] /\ document_says false t (VObj d) /\
         NoDup (map fst d) /\
         (forall p v, leaf r p v -> exists jl x ls wj, json_cell E v = Ok jl wj /\ leaf_tells T false jl x /\ said_at V (root_place U (root_path U conf) ++ p) = Some x /\
            In (place_text F p, VArr ls) d /\ ls <> [] /\ forall y, In y ls -> exists l, cell_said T E l y /\ read_as O sheets l v) /\
         (forall q f v, leaf r (q ++ [PKey f]) v -> exists ls, In (place_text F q, VArr ls) d /\ ls <> [] /\
            forall y, In y ls -> exists f' v' l, leaf r (q ++ [PKey f']) v' /\ read_as O sheets l v' /\ row_said (l_sheet l, l_row l) y) /\
         (forall k x, In (k, x) d -> (exists p v, leaf r p v /\ k = place_text F p) \/ exists q f v, leaf r (q ++ [PKey f]) v /\ k = place_text F q) /\
         (forall g sp c, In g (fragments O sheets) -> In (sp, c) (icells (o_xml O) (o_id_name O) g) ->
            (exists p v ls y, leaf r p v /\ In (place_text F p, VArr ls) d /\ In y ls /\ cell_said T E (c_loc c) y /\ (v = c_val c \/ cv_eqb v (c_val c) = true)) \/
            exists x, In x wx /\ named_by x sp c)).
  Proof.
    intros HF H Hx Hn Hm Hc conf F.
    destruct (run_parts U w H Hx Hn Hm) as (fn & f & recs & mc & mh & j & _ & _ & (sheets & O & wx & Hrun & Hf) & Hw & (mr & Hrecs & Hj) & Hcells & _).
    fold conf in Hrun, Hf, Hj. change {| f_root_is_list := _; f_root_list_path := _; f_cells := _; f_headings := _ |} with F in Hf.
    destruct (Hcells Hc) as (m & -> & Hmw). clear Hcells.
    destruct (cell_map_sound O F sheets recs m mh wx Hf) as (Hu & Nd & Hinj & Hk & Hp). destruct (row_entries O F sheets recs m mh wx Hf) as [Hrow Hrows]. pose proof (cell_map_complete O F sheets recs m mh wx Hf) as Hall.
    exists f, sheets, O, recs, j, m, wx. split; [exact Hrun|]. split; [exact Hu|]. split; [exact Hw|]. split; [exact Hmw|]. intros Hcom Hpl.
    destruct (out_always T false j HF Hpl) as [V HV].
    destruct (cells_text_says T E HF m) as (t & v & Et & (d & -> & Hd) & Ht).
    { intros k ls l Hkl Hl. destruct (Hk k ls Hkl) as (p & v & Hlf & ->). destruct (Hp p v Hlf) as (ls' & Hls & _ & Hread).
      assert (ls' = ls) as ->. { pose proof (In_sget _ _ _ Nd Hkl) as E1. pose proof (In_sget _ _ _ Nd Hls) as E2. rewrite E1 in E2. injection E2 as <-. reflexivity. }
      destruct (Hread l Hl) as (raw & x & Hraw & _). exact (common_at O sheets l raw Hcom Hraw). }
    exists V, t, d. split; [apply text_says; exact HV|]. split; [exact Et|]. split; [exact Ht|]. split; [rewrite <- (F2_keys _ _ _ Hd); exact Nd|]. split; [|split; [|split]].
    - intros p v Hl. destruct (said_root T U recs mr j V (root_path U conf) Hrecs Hj HV p v Hl) as (jl & x & wj & Ej & Hx' & Hat).
      destruct (Hp p v Hl) as (ls & Hls & Hne & Hread). destruct (F2_in _ _ _ Hd _ Hls) as ([k y] & Hy & Hky & He). cbn [fst snd] in *. subst k.
      inversion He as [l' vs Hcs|]; subst. exists jl, x, vs, wj. split; [exact Ej|]. split; [exact Hx'|]. split; [exact Hat|]. split; [exact Hy|]. split.
      + intros ->. inversion Hcs; subst. exact (Hne eq_refl).
      + intros y Hy'. destruct (F2_in' _ _ _ Hcs y Hy') as (l & Hl' & Hsaid). exists l. split; [exact Hsaid|]. exact (Hread l Hl').
    - intros q f' v Hl. destruct (Hrows q f' v Hl) as (rs & Hrs). destruct (F2_in _ _ _ Hd _ Hrs) as ([k y] & Hy & Hky & He). cbn [fst snd] in *. subst k.
      inversion He as [|l' vs Hcs]; subst. destruct (Hrow _ _ Hrs) as (_ & q' & Eq & _ & Hin). exists vs. split; [exact Hy|]. split.
      + intros ->. inversion Hcs; subst. destruct (Hrow _ _ Hrs) as (_ & q2 & _ & (f2 & v2 & Hl2) & Hin2). destruct (Hp _ _ Hl2) as (ls2 & Hls2 & Hne2 & _).
        destruct ls2 as [|l2 ls2]; [exact (Hne2 eq_refl)|]. apply (proj2 (Hin2 (l_sheet l2) (l_row l2))). exists f2, v2, (l2 :: ls2), l2. split; [exact Hl2|]. split; [exact Hls2|]. split; [left; reflexivity|auto].
      + intros y Hy'. destruct (F2_in' _ _ _ Hcs y Hy') as ([s n] & Hl' & Hsaid). apply Hin in Hl' as (f2 & v2 & ls2 & l2 & Hl2 & Hls2 & Hl2' & <- & <-).
        destruct (Hp _ _ Hl2) as (ls3 & Hls3 & _ & Hread).
        assert (ls3 = ls2) as ->. { pose proof (In_sget _ _ _ Nd Hls2) as E1. pose proof (In_sget _ _ _ Nd Hls3) as E2. rewrite E1 in E2. injection E2 as <-. reflexivity. }
        assert (q' = q) as ->.
        { exact (row_text_inj O F sheets recs _ _ wx Hf q' q f2 f' v2 v Hl2 Hl (eq_sym Eq)). }
        exists f2, v2, l2. split; [exact Hl2|]. split; [exact (Hread l2 Hl2')|exact Hsaid].
    - intros k x Hkx. destruct (F2_in' _ _ _ Hd _ Hkx) as ([k' e] & He & Hk' & _). cbn [fst] in Hk'. subst k'. destruct e as [ls|rs].
      + left. destruct (Hk k ls He) as (p & v & Hl & ->). exists p, v. auto.
      + right. destruct (Hrow k rs He) as (_ & q & -> & (f' & v & Hl) & _). exists q, f', v. auto.
    - intros g sp c Hg Hcell. destruct (Hall g sp c Hg Hcell) as [(p & v & ls & Hl & Hls & Hin & Hv)|Hwarn]; [left|right; exact Hwarn].
      destruct (F2_in _ _ _ Hd _ Hls) as ([k y] & Hy & Hky & He). cbn [fst snd] in *. subst k. inversion He as [l' vs Hcs|]; subst.
      destruct (F2_in _ _ _ Hcs _ Hin) as (z & Hz & Hsaid). exists p, v, vs, z. auto.
  Qed.

  (** the heading source map file leads from every field to its columns *)
  Theorem heading_file T U w : floats_are_json (te_env T) -> unflatten_file Wd U = Ok tt w -> u_xml U = false -> ~ given (u_meta U) ->
    u_meta_only U = false \/ u_root_list U = true -> u_heads U <> [] ->
    let conf := default_conf (u_conf U) in let F := run_fancy U conf in
    exists f sheets O r h wx, main_run Wd U f conf sheets O /\ unflatten O sheets = Ok r wx /\ heads_written w (u_heads U) h /\
      (common_headings sheets -> exists t d, heads_text T E h = Ok t [] /\ document_says false t (VObj d) /\ NoDup (map fst d) /\
         (forall p v, leaf r p v -> exists hs, In (field_text F p, VArr hs) d) /\
         (forall k x, In (k, x) d -> exists hs, x = VArr hs /\ hs <> [] /\ (exists p v, leaf r p v /\ k = field_text F p) /\
            forall y, In y hs -> exists p v l, leaf r p v /\ field_text F p = k /\ read_as O sheets l v /\ heading_said T E (l_sheet l, l_heading l) y)).
  Proof.
    intros HF H Hx Hn Hm Hc conf F.
    destruct (run_parts U w H Hx Hn Hm) as (fn & f & recs & mc & mh & j & _ & _ & (sheets & O & wx & Hrun & Hf) & _ & _ & _ & Hheads).
    fold conf in Hrun, Hf. change {| f_root_is_list := _; f_root_list_path := _; f_cells := _; f_headings := _ |} with F in Hf.
    destruct (Hheads Hc) as (h & -> & Hmw). clear Hheads.
    assert (f_headings F = true) as Fh by (unfold F, run_fancy; cbn [f_headings]; destruct (u_heads U); [contradiction|reflexivity]).
    destruct (heading_map_sound O F sheets recs mc h wx Fh Hf) as (tree & Ht & -> & Nd & Hk & Hp & Hin).
    assert (forall k hs s x, In (k, hs) h -> In (s, x) hs -> exists p v l, leaf (map dict_to_v tree) p v /\ field_text F p = k /\ read_as O sheets l v /\ l_sheet l = s /\ l_heading l = x) as Hsrc.
    { intros k hs s x Hh Hsx. destruct (Hin k hs Hh) as (_ & Hs & _). destruct (Hs s x Hsx) as (p & l & Ep & (c & Hc' & Hl) & <- & <-).
      exists p, (c_val c), l. split; [apply leaf_cell; eauto|]. split; [exact Ep|]. split; [|auto]. exact (recorded_read O sheets tree wx p l c Ht Hc' Hl). }
    exists f, sheets, O, (map dict_to_v tree), h, wx. split; [exact Hrun|]. split; [apply unflatten_of_tree; exact Ht|]. split; [exact Hmw|]. intros Hcom.
    destruct (heads_text_says T E HF h) as (t & v & Et & (d & -> & Hd) & Hsays).
    { intros k hs s x Hh Hsx. destruct (Hsrc k hs s x Hh Hsx) as (p & v & l & _ & _ & (raw & y & Hraw & _) & _ & <-). exact (common_at O sheets l raw Hcom Hraw). }
    exists t, d. split; [exact Et|]. split; [exact Hsays|]. split; [rewrite <- (F2_keys (fun hs v => exists vs, v = VArr vs /\ Forall2 (heading_said T E) hs vs) _ _ Hd); exact Nd|]. split.
    - intros p v Hl. destruct (Hp p v Hl) as (hs & Hhs). destruct (F2_in _ _ _ Hd _ Hhs) as ([k y] & Hy & Hky & vs & Ey & Hvs). cbn [fst snd] in *. subst k y. exists vs. exact Hy.
    - intros k x Hkx. destruct (F2_in' _ _ _ Hd _ Hkx) as ([k' hs] & Hh & Hk' & vs & Ex & Hvs). cbn [fst snd] in *. subst k' x. exists vs. split; [reflexivity|]. split.
      + intros ->. inversion Hvs; subst. destruct (Hk _ _ Hh) as (p & v & Hl & ->). destruct (Hin _ _ Hh) as (_ & _ & Hrec). apply leaf_cell in Hl as (c & Hc' & _).
        destruct (Hrec p (c_loc c) eq_refl) as (z & Hz & _); [exists c; split; [exact Hc'|left; reflexivity]|]. destruct Hz.
      + split; [destruct (Hk _ _ Hh) as (p & v & Hl & ->); eauto|]. intros y Hy. destruct (F2_in' _ _ _ Hvs y Hy) as ([s z] & Hsz & Hsaid).
        destruct (Hsrc k hs s z Hh Hsz) as (p & v & l & Hl & Ep & Hread & <- & <-). exists p, v, l. auto.
  Qed.
End Run.
