(** unflatten to XML, then flatten from it: the records. *)
From Verif.Base Require Import PyStr PyNum PyVal PyDict Outcome.
From Verif.Model Require Import Warn Lib Convert Input Flatten Readers SortXml XmlInput XmlOut XmlDict Output Schema Commands.
From Verif.Spec Require Import Paths Commands Trip XmlData XmlTrip FlattenRun.
From Verif.Spec Require XmlTags.
From Verif.Proofs Require Import SortXmlFacts XmlOutFacts CommandRun XmlTripFacts FlattenCommand.
From Verif.Proofs Require XmlTagsFacts.
Local Open Scope res_scope.

(** ** an element whose tag is the root list path is in a list *)
Section Force.
  Variable f : str.
  Hypothesis Hf : hd 0%N f <> 64%N /\ f <> u "#text".
  Definition listed (d : jobj) : Prop := sget f d = None \/ exists l, sget f d = Some (JA l).
  Lemma push_listed d k v : listed d -> (k = f \/ k <> f) -> listed (push_data (Some f) d k v).
  Proof.
    intros [H|(l & H)] [->|N]; unfold listed; try (rewrite push_other by congruence; eauto); right; unfold push_data; rewrite H.
    - unfold forced. rewrite str_eqb_refl. rewrite sget_sset_eq. eauto.
    - rewrite sget_sset_eq. eauto.
  Qed.
  Lemma value_listed e : listed (keys_of (element_value (Some f) e)).
  Proof.
    destruct e as [t a x cs]. cbn [element_value]. fold (attr_items a). assert (H : forall l d, listed d -> listed (fold_left (fun d kv => push_data (Some f) d (fst kv) (snd kv)) l d)).
    { induction l as [|[k v] l IH]; intros d H; [exact H|]. cbn [fold_left]. apply IH, push_listed; [exact H|]. destruct (str_eqb_spec k f); auto. }
    specialize (H (map (fun c => (x_tag c, element_value (Some f) c)) cs) (attr_items a)). specialize (H (or_introl (attr_not a f (proj1 Hf)))).
    set (d := fold_left _ _ _) in *. clearbody d. destruct d as [|p d], (strip is_ws _) as [|c s]; cbn [keys_of]; try exact H; apply push_listed; (exact H || right; destruct Hf as [_ N]; intros X; apply N; rewrite <- X; reflexivity).
  Qed.
  Lemma relisted_listed rep v v' : listed (keys_of v) -> XmlTags.relisted rep [] v v' -> listed (keys_of v').
  Proof.
    intros H R. inversion R as [p d d' F|p x No]; subst; [|exact H]. destruct (relisted_keys _ _ _ _ F) as [_ K]. specialize (K f). cbn [keys_of] in *. unfold listed in *.
    destruct H as [H|(l & H)]; rewrite H in K; destruct (sget f d') as [y|]; try contradiction; [left; reflexivity|]. inversion K; subst. right. eauto.
  Qed.
End Force.

(** ** the elements under a tag *)
Lemma put_one d k l : NoDup (map fst d) -> sget k d = Some (JA l) -> put k d = l.
Proof.
  intros N H. apply sget_In in H. unfold put, element_entries. induction d as [|[k' v] d IH]; [destruct H|]. cbn [map concat]. rewrite filter_app, map_app. cbn [fst snd] in *. inversion N as [|? ? N1 N2]; subst.
  destruct H as [[= -> ->]|H].
  - assert (Z : filter (fun kv : str * jv => str_eqb (fst kv) k) (concat (map (fun kv : str * jv => match snd kv with JA l0 => map (fun y => (fst kv, y)) l0 | JO _ => [kv] | JS _ => [] end) d)) = []).
    { clear - N1. induction d as [|[k' v] d IH]; [reflexivity|]. cbn [map concat fst snd] in *. rewrite filter_app, IH by (intros X; apply N1; right; exact X). rewrite app_nil_r.
      assert (Ne : str_eqb k' k = false) by (apply str_eqb_neq; intros ->; apply N1; left; reflexivity).
      destruct v as [s|l|e]; [reflexivity| |cbn [filter fst]; rewrite Ne; reflexivity]. clear - Ne. induction l as [|y l IHl]; [reflexivity|]. cbn [map filter fst]. rewrite Ne. exact IHl. }
    rewrite Z. cbn [map]. rewrite app_nil_r. clear. induction l as [|y l IHl]; [reflexivity|]. cbn [map filter fst]. rewrite str_eqb_refl. cbn [map snd]. f_equal. exact IHl.
  - rewrite (IH N2 H). assert (Ne : str_eqb k' k = false) by (apply str_eqb_neq; intros ->; apply N1; apply (in_map fst) in H; exact H).
    assert (Z : filter (fun kv : str * jv => str_eqb (fst kv) k) (match v with JA l0 => map (fun y => (k', y)) l0 | JO _ => [(k', v)] | JS _ => [] end) = []).
    { destruct v as [s|l0|e]; [reflexivity| |cbn [filter fst]; rewrite Ne; reflexivity]. clear - Ne. induction l0 as [|y l0 IHl]; [reflexivity|]. cbn [map filter fst]. rewrite Ne. exact IHl. }
    rewrite Z. reflexivity.
Qed.

Section Read.
  Variables (E : xenv) (d : list (str * jv)) (tag : str) (r : xel) (Wd : world) (F : flopts).
  Hypothesis Hs : shaped [(u "xml", u "http://www.w3.org/XML/1998/namespace")] (JO d).
  Hypothesis Hr : reread (xe_env E) (JO d) (element_value (Some (f_path F)) r).
  Hypothesis Ht : x_tag r = tag /\ tag <> f_path F.
  Hypothesis Hp : xml_step (f_path F) /\ hd 0%N (f_path F) <> at_sign /\ f_path F <> u "#text".
  Hypothesis Hx : f_xml F = true /\ f_root_list F = false.
  Hypothesis Hw : wd_xml Wd (Some (f_path F)) (f_input F) = inr (root_value (Some (f_path F)) r).
  Lemma read_records recs : records_read Wd F recs -> Forall2 (reread (xe_env E)) (put (f_path F) d) recs.
  Proof.
    destruct Hx as [X1 X2], Hp as (P1 & P2 & P3). unfold records_read. rewrite X1, X2. intros (v & v' & Hv & R & K). rewrite Hw in Hv. injection Hv as <-.
    assert (Q : root_value (Some (f_path F)) r = element_value (Some (f_path F)) r).
    { unfold root_value, forced. destruct Ht as [-> N]. destruct (str_eqb_spec tag (f_path F)); [contradiction|reflexivity]. }
    rewrite Q in R. pose proof (relisted_reread E _ _ Hs _ _ _ _ Hr R) as Rv.
    pose proof (relisted_listed (f_path F) _ _ _ (value_listed (f_path F) (conj P2 P3) r) R) as L.
    specialize (K [f_path F] eq_refl). assert (N : [f_path F] <> []) by discriminate. specialize (K N eq_refl (Forall_cons _ P1 (Forall_nil _))).
    inversion Rv as [d0 v0 _ _ G _ V]; subst d0 v0. specialize (G (f_path F) P2 P3). unfold got, listed in *.
    assert (A : at_path v' (down [f_path F]) = sget (f_path F) (keys_of v')).
    { destruct V as [->|(d' & -> & _)]; [reflexivity|]. cbn [at_path down map keys_of]. destruct (sget (f_path F) d'); reflexivity. }
    rewrite A in K. destruct L as [L|(l & L)]; rewrite L in *; subst recs; exact G.
  Qed.
End Read.

(** ** what unflatten writes *)
Lemma toxml_ok E x tag schema comment rc w0 : toxml E x tag schema comment = Ok rc w0 -> (exists o, dict_to_xml E x tag [(u "xml", u "http://www.w3.org/XML/1998/namespace")] = Ok o w0).
Proof.
  intros H. unfold toxml in H. apply bind_ok in H as (o & w1 & w2 & H1 & H2 & ->). exists o. rewrite H1. f_equal.
  destruct schema as [[d w|e w]|]; [|discriminate H2|]; destruct (fst o) as [[t a y cs]|]; try discriminate H2; injection H2 as _ <-; rewrite app_nil_r; reflexivity.
Qed.
Lemma unflatten_xml Wd U w : unflatten_file Wd U = Ok tt w -> u_xml U = true -> u_root_list U = false -> u_meta_only U = false -> ~ given (u_meta U) ->
  let conf := default_conf (u_conf U) in let path := root_path U conf in
  exists f recs b schema root comment wx, (exists w1, read_base Wd U = Ok (inr b) w1) /\ main_records Wd U f conf recs /\
    toxml (wd_xenv Wd) (JO (map (fun kv => (fst kv, xml_value (snd kv))) (sset path (BRecords recs) b))) (root_tag conf) schema (u_comment U) = Ok (root, comment) wx /\
    In (Wrote (u_output U) (CXml root comment)) w /\ (forall t, In t wx -> In (Warned (AXml t)) w).
Proof.
  intros H Hx Hl Ho Hn conf path. unfold unflatten_file in H. destruct (u_format U) as [fn|]; [|discriminate].
  destruct (sget fn formats) as [f|] eqn:Ef; [|discriminate]. destruct (truthy (u_meta U) && truthy (u_base U)) eqn:Et; [discriminate|].
  apply bind_ok in H as (b0 & w1 & w1' & Hb & H & ->). apply bind_ok in H as (s & w2 & w2' & Hm & H & ->).
  apply bind_ok in H as ([[r cells] heads] & w3 & w3' & Hr & H & ->). cbv zeta in H. rewrite Hx in H.
  apply bind_ok in H as ([] & w5 & w6 & Hj & H & ->). apply no_metatab in Hm; [|exact Hn]. subst s.
  apply main_stage_ok in Hr as (recs & mc & mh & Hrec & _ & Hr & _); [|now left]. rewrite Hl in Hr. cbn [us_base us_conf] in *. destruct Hr as (b & -> & ->). fold conf path in Hrec, Hj |- *.
  unfold xml_stage in Hj. apply bind_ok in Hj as (o & w7 & w8 & Ho' & Hj & ->). apply bind_ok in Hj as (schema & w9 & w10 & _ & Hj & ->). apply bind_ok in Hj as (x & w11 & w12 & Hx' & Hj & ->).
  cbn [xml_final] in *. fold (root_tag conf) in *.
  destruct (toxml (wd_xenv Wd) _ (root_tag conf) schema (u_comment U)) as [[root comment] wx|e wx] eqn:Etx; [|discriminate Hx'].
  injection Hx' as <- <-. unfold write in Hj. injection Hj as <-. exists f, recs, b, schema, root, comment, wx. split; [eauto|]. split; [exact Hrec|]. split; [exact Etx|].
  destruct (toxml_ok _ _ _ _ _ _ _ Etx) as (o2 & Eo). rewrite Eo in Ho'. cbn [lift] in Ho'. injection Ho' as _ <-. cbn [fst snd]. split.
  - rewrite !in_app_iff. right. right. right. left. right. right. right. left. reflexivity.
  - intros t Ht. rewrite !in_app_iff. right. right. right. left. left. apply in_map_iff. eauto.
Qed.

Theorem xml_files Wd U w : unflatten_file Wd U = Ok tt w -> u_xml U = true -> u_root_list U = false -> u_meta_only U = false -> ~ given (u_meta U) ->
  let conf := default_conf (u_conf U) in let path := root_path U conf in
  (forall t, ~ In (Warned (AXml t)) w) -> hd 0%N (root_tag conf) <> at_sign -> ~ In 58%N (root_tag conf) -> root_tag conf <> path ->
  xml_step path -> hd 0%N path <> at_sign -> path <> u "#text" ->
  exists f recs b root comment, (exists w1, read_base Wd U = Ok (inr b) w1) /\ main_records Wd U f conf recs /\ In (Wrote (u_output U) (CXml root comment)) w /\
    let data := JO (map (fun kv => (fst kv, xml_value (snd kv))) (sset path (BRecords recs) b)) in
    (shaped [(u "xml", u "http://www.w3.org/XML/1998/namespace")] data -> plain_xml data -> forall Wd' F, f_xml F = true -> f_root_list F = false -> f_path F = path ->
     wd_xml Wd' (Some path) (f_input F) = inr (root_value (Some path) root) -> forall l, records_read Wd' F l ->
     Forall2 (fun d v => reread (xe_env (wd_xenv Wd)) (JO (map (fun kv => (fst kv, xml_node (snd kv))) d)) v) recs l).
Proof.
  intros H Hx Hl Ho Hn conf path Hw T1 T2 T3 P1 P2 P3. destruct (unflatten_xml Wd U w H Hx Hl Ho Hn) as (f & recs & b & schema & root & comment & wx & Hb & Hrec & Et & Hin & Hwx). fold conf path in Hrec, Et.
  exists f, recs, b, root, comment. split; [exact Hb|]. split; [exact Hrec|]. split; [exact Hin|]. cbv zeta. intros S P Wd' F F1 F2 F3 Hf l Hl'.
  assert (wx = []) as -> by (destruct wx as [|t wx]; [reflexivity|]; destruct (Hw t (Hwx t (or_introl eq_refl)))).
  assert (Fo : Some path <> Some (u "#text")) by congruence.
  destruct (xml_trip _ _ _ _ _ _ _ (Some path) T1 T2 S P Fo Et) as (X1 & X2 & _).
  pose proof S as S0. inversion S0 as [d0 Nd _ _ _]; subst d0.
  assert (Pl : put path (map (fun kv => (fst kv, xml_value (snd kv))) (sset path (BRecords recs) b)) = map (fun d => JO (map (fun kv => (fst kv, xml_node (snd kv))) d)) recs).
  { apply put_one; [exact Nd|]. assert (G : forall B, sget path (map (fun kv => (fst kv, xml_value (snd kv))) B) = option_map xml_value (sget path B)).
    { induction B as [|[k v] B IH]; [reflexivity|]. unfold sget in *. cbn [map aget fst snd]. destruct (str_eqb path k); [reflexivity|exact IH]. }
    rewrite G, sget_sset_eq. reflexivity. }
  assert (Q : Forall2 (reread (xe_env (wd_xenv Wd))) (put path (map (fun kv => (fst kv, xml_value (snd kv))) (sset path (BRecords recs) b))) l).
  { subst path. rewrite <- F3 in *. eapply (read_records (wd_xenv Wd)) with (r := root); eauto. }
  rewrite Pl in Q. clear - Q. revert l Q. induction recs as [|d recs IH]; intros l Q; inversion Q; subst; constructor; [assumption|]. apply IH. assumption.
Qed.

Theorem xml_commands Wd U w Wd' F w' : unflatten_file Wd U = Ok tt w -> u_xml U = true -> u_root_list U = false -> u_meta_only U = false -> ~ given (u_meta U) ->
  let conf := default_conf (u_conf U) in let path := root_path U conf in
  (forall t, ~ In (Warned (AXml t)) w) -> hd 0%N (root_tag conf) <> 64%N -> ~ In 58%N (root_tag conf) -> root_tag conf <> path ->
  xml_step path -> hd 0%N path <> 64%N -> path <> u "#text" ->
  flatten_file Wd' F = Ok tt w' -> not_mixed (f_roll F) -> f_xml F = true -> f_root_list F = false -> f_path F = path ->
  exists f recs b root comment, (exists w1, read_base Wd U = Ok (inr b) w1) /\ main_records Wd U f conf recs /\ In (Wrote (u_output U) (CXml root comment)) w /\
    let data := JO (map (fun kv => (fst kv, xml_value (snd kv))) (sset path (BRecords recs) b)) in
    (shaped [(u "xml", u "http://www.w3.org/XML/1998/namespace")] data -> plain_xml data ->
     wd_xml Wd' (Some path) (f_input F) = inr (root_value (Some path) root) ->
     exists schema roll lines l s v, run_inputs Wd' F schema roll lines l /\ flatten (run_opts Wd' F schema roll lines) (f_drop F) (requests lines) l = Ok s v /\
       Forall2 (fun d v => reread (xe_env (wd_xenv Wd)) (JO (map (fun kv => (fst kv, xml_node (snd kv))) d)) v) recs l).
Proof.
  intros H Hx Hl Ho Hn conf path Hw T1 T2 T3 P1 P2 P3 Hf Hm F1 F2 F3. destruct (xml_files Wd U w H Hx Hl Ho Hn Hw T1 T2 T3 P1 P2 P3) as (f & recs & b & root & comment & A & B & C & D).
  exists f, recs, b, root, comment. split; [exact A|]. split; [exact B|]. split; [exact C|]. cbv zeta in D |- *. intros S P Hr.
  destruct (flatten_means Wd' F w' Hf Hm) as (t & schema & roll & lines & l & s & v & _ & Hi & Hs & _). exists schema, roll, lines, l, s, v.
  split; [exact Hi|]. split; [exact Hs|]. apply (D S P Wd' F F1 F2 F3 Hr). apply Hi.
Qed.
