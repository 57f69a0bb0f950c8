(** Spreadsheets whose headings are good for XML give data of the right shape. *)
From Verif.Base Require Import PyStr PyNum PyVal PyDict Outcome.
From Verif.Model Require Import Warn Lib Convert Input Flatten Readers SortXml XmlInput XmlOut XmlDict Output Schema Commands.
From Verif.Spec Require Import Paths Commands Trip XmlData XmlTrip XmlSheets FlattenRun.
From Verif.Proofs Require Import TreeInd RowWf XmlRows XmlTripFacts XmlTripRun.

Definition xd (d : vdict) : jv := JO (map (fun kv => (fst kv, xml_node (snd kv))) d).
Lemma starts_at x : startswith x (u "@") = true <-> hd 0%N x = at_sign.
Proof.
  rewrite startswith_spec. change (u "@") with [64%N]. split.
  - intros [t ->]. reflexivity.
  - destruct x as [|c x]; cbn [hd]; [discriminate|]. intros ->. exists x. reflexivity.
Qed.

Section Shaped.
  Variables (A K : str -> Prop) (ns : nsmap).
  Hypothesis HA : forall k, A k -> k = u "text()" \/ exists a, k = at_sign :: a /\ startswith a (u "xmlns") = false.
  Hypothesis HK : forall k, K k -> hd 0%N k <> at_sign.
  Hypothesis Hu : forall k k' a, A (at_sign :: k) -> A (at_sign :: k') -> full_name ns k a -> full_name ns k' a -> k = k'.
  Definition good (x : jv) : Prop := shaped ns x /\ ((forall k, A k \/ K k -> ~ In 58%N k /\ k <> u "#text") -> plain_xml x).
  Definition good_node (n : tnode) : Prop := tkey A K n -> match n with TCell _ => True | TDict d => good (xd (tvd d)) | TTemp data nk => forall d, In d (map snd data ++ nk) -> good (xd (tvd d)) end.
  Lemma good_dict d : Pd good_node d -> tkeyd A K d -> good (xd (tvd d)).
  Proof.
    intros HF [Hnd Hd]. unfold Pd in HF. rewrite Forall_forall in HF.
    set (d' := map (fun kv => (fst kv, xml_node (snd kv))) (tvd d)).
    assert (Hin : forall k v, In (k, v) d' -> exists n, In (k, n) d /\ v = xml_node (tv n)).
    { intros k v H. apply in_map_iff in H as ([k1 v1] & [= <- <-] & H). apply in_map_iff in H as ([k2 n] & [= <- <-] & H). exists n. auto. }
    assert (Hkeys : map fst d' = map fst d) by (unfold d', tvd; rewrite !map_map; reflexivity).
    assert (En : forall k x, In (k, x) (element_entries d') -> K k /\ good x).
    { intros k x X. unfold element_entries in X. apply in_concat in X as (l & Hl & X). apply in_map_iff in Hl as ([k' v] & <- & Hv). apply Hin in Hv as (n & Hn & ->). cbn [fst snd] in X.
      destruct (Hd _ _ Hn) as [Ho Ht]. pose proof (HF _ Hn Ht) as G. cbn [snd] in G. destruct n as [c|e|data nk].
      - destruct Ho as [_ (s & Hs)]. rewrite tv_cell, Hs in X. destruct X.
      - rewrite tv_dict in X. destruct X as [[= <- <-]|[]]. split; [exact Ho|exact G].
      - rewrite tv_temp in X. cbn [xml_node] in X. rewrite !map_map in X. apply in_map_iff in X as (y & [= <- <-] & Hy). split; [exact Ho|apply G, Hy]. }
    assert (Nk : forall k v, In (k, v) d' -> A k \/ K k).
    { intros k v Hv. apply Hin in Hv as (n & Hn & _). destruct (Hd _ _ Hn) as [Ho _]. destruct n; [left; exact (proj1 Ho)|right; exact Ho|right; exact Ho]. }
    split.
    - constructor.
      + fold d'. rewrite Hkeys. exact Hnd.
      + fold d'. intros k v Hv. apply Hin in Hv as (n & Hn & ->). destruct (Hd _ _ Hn) as [Ho _]. destruct n as [c|e|data nk].
        * destruct Ho as [Ha (s & Hs)]. left. exists s. split; [rewrite tv_cell, Hs; reflexivity|]. apply HA, Ha.
        * right. split; [apply HK, Ho|]. left. rewrite tv_dict. eexists. reflexivity.
        * right. split; [apply HK, Ho|]. right. rewrite tv_temp. eexists. split; [reflexivity|]. intros y Hy. apply in_map_iff in Hy as (z & <- & _). eauto.
      + fold d'. intros k k' v v' a H1 H2 F1 F2. apply (Hu k k' a); [| |exact F1|exact F2].
        * destruct (Nk _ _ H1) as [X|X]; [exact X|]. destruct (HK _ X). reflexivity.
        * destruct (Nk _ _ H2) as [X|X]; [exact X|]. destruct (HK _ X). reflexivity.
      + fold d'. intros k x X. exact (proj1 (proj2 (En _ _ X))).
    - intros P. constructor; fold d'.
      + intros k v Hv. apply P. exact (Nk _ _ Hv).
      + intros k x X. exact (proj2 (proj2 (En _ _ X)) P).
  Qed.
  Lemma good_tnode n : good_node n.
  Proof.
    induction n as [c|d IH|data nk IHd IHn] using tnode_ind'; intros H.
    - exact I.
    - apply good_dict; [exact IH|apply tkey_dict_iff; exact H].
    - intros d Hd. pose proof (proj1 (tkey_temp_iff _ _ _ _) H d Hd) as Ht. apply good_dict; [|exact Ht].
      rewrite Forall_forall in IHd, IHn. apply in_app_or in Hd as [Hd|Hd]; [|exact (IHn _ Hd)].
      apply in_map_iff in Hd as ([k e] & <- & Hd). exact (IHd _ Hd).
  Qed.
  Lemma good_record d : tkeyd A K d -> good (xd (tvd d)).
  Proof. intros H. apply good_dict; [|exact H]. apply Forall_forall. intros kv _. apply good_tnode. Qed.
End Shaped.

Section Sheets.
  Variables (O : opts) (sheets : list sheet_in) (ns : nsmap).
  Hypothesis Hx : o_xml O = true.
  Hypothesis Htypes : forall p, o_types O p = [].
  Let E : env := o_conv O.
  Hypothesis Hl : attributes_last E sheets.
  Hypothesis Ha : attributes_apart E sheets ns.
  Definition of_value (k : str) : Prop := k = u "text()" \/ (exists a, k = at_sign :: a /\ startswith a (u "xmlns") = false) /\ part E sheets k.
  Definition of_element (k : str) : Prop := hd 0%N k <> at_sign /\ part E sheets k.
  Theorem sheets_good r w : unflatten O sheets = Ok r w -> forall d, In d r -> shaped ns (xd d) /\ (plain_parts E sheets -> plain_xml (xd d)).
  Proof.
    intros H. destruct (records_ok of_value of_element O sheets Hx Htypes) with (r := r) (w := w) as (l & -> & Hr).
    - left. reflexivity.
    - intros k [Hk _]. destruct (startswith k (u "@")) eqn:Es; [|reflexivity]. apply starts_at in Es. contradiction.
    - intros s l h v Hs Hll Hv pre x post Hp _. assert (Hh : has_heading sheets h) by (exists s, l, v; auto).
      assert (Px : part E sheets x) by (exists h; split; [exact Hh|]; unfold E; rewrite Hp; apply in_or_app; right; left; reflexivity).
      destruct (startswith x (u "@")) eqn:Es.
      + right. pose proof (proj1 (starts_at _) Es) as Eh. destruct (Hl h pre x post Hh Hp Eh) as [-> Ens]. split; [reflexivity|]. split; [reflexivity|]. right. split; [|exact Px].
        destruct x as [|c x]; [discriminate Es|]. cbn [hd tl] in *. subst c. eauto.
      + left. split; [|exact Px]. intros X. apply starts_at in X. congruence.
    - exact H.
    - intros d Hd. apply in_map_iff in Hd as (e & <- & He).
      destruct (good_record of_value of_element ns) with (d := e) as [G1 G2].
      + intros k [->|[Hk _]]; [left; reflexivity|right; exact Hk].
      + intros k Hk. exact (proj1 Hk).
      + intros k k' a Hk Hk' F1 F2. destruct Hk as [Hk|[_ Hk]]; [discriminate Hk|]. destruct Hk' as [Hk'|[_ Hk']]; [discriminate Hk'|]. exact (Ha _ _ _ Hk Hk' F1 F2).
      + exact (Hr _ He).
      + split; [exact G1|]. intros P. apply G2. intros k [[->|[_ Hk]]|[_ Hk]]; [|exact (P _ Hk)|exact (P _ Hk)].
        split; [|discriminate]. intros X. vm_compute in X. repeat (destruct X as [X|X]; [discriminate X|]). exact X.
  Qed.
End Sheets.
Lemma plain_apart E sheets ns : plain_parts E sheets -> attributes_apart E sheets ns.
Proof.
  intros P x y a Px Py F1 F2. apply P in Px as [Px _]. apply P in Py as [Py _].
  rewrite <- (full_plain ns x a), <- (full_plain ns y a); [reflexivity| |exact F2| |exact F1]; intros X; [apply Py|apply Px]; right; exact X.
Qed.

(** ** the command *)
Lemma records_data ns path recs : hd 0%N path <> at_sign ->
  (forall d, In d recs -> shaped ns (xd d)) ->
  let data := JO (map (fun kv => (fst kv, xml_value (snd kv))) (sset path (BRecords recs) [])) in
  shaped ns data /\ (~ In 58%N path -> path <> u "#text" -> (forall d, In d recs -> plain_xml (xd d)) -> plain_xml data).
Proof.
  intros Hp Hs data. set (dd := [(path, JA (map xd recs))]). assert (Ed : data = JO dd) by (unfold data, dd, xd; cbn [sset aset map fst snd xml_value]; unfold xml_records; cbn [xml_node]; rewrite ?map_map; reflexivity).
  assert (En : forall k x, In (k, x) (element_entries dd) -> k = path /\ exists d, In d recs /\ x = xd d).
  { intros k x H. unfold element_entries, dd in H. cbn [map concat fst snd] in H. rewrite app_nil_r, map_map in H. apply in_map_iff in H as (d & [= <- <-] & H). eauto. }
  clearbody data. subst data. split.
  - constructor.
    + cbn. constructor; [intros []|constructor].
    + intros k v [[= <- <-]|[]]. right. split; [exact Hp|]. right. eexists. split; [reflexivity|]. intros y Hy. apply in_map_iff in Hy as (d & <- & _). unfold xd. eauto.
    + intros k k' v v' a [[= E1 _]|[]]. exfalso. apply Hp. rewrite E1. reflexivity.
    + intros k x H. apply En in H as (_ & d & Hd & ->). auto.
  - intros H1 H2 H3. constructor.
    + intros k v [[= <- <-]|[]]. auto.
    + intros k x H. apply En in H as (_ & d & Hd & ->). auto.
Qed.
Theorem xml_sheets Wd U w Wd' F w' : unflatten_file Wd U = Ok tt w -> u_xml U = true -> u_root_list U = false -> u_meta_only U = false -> ~ given (u_meta U) ->
  ~ given (u_base U) -> u_schema U = [] ->
  let conf := default_conf (u_conf U) in let path := root_path U conf in
  (forall t, ~ In (Warned (AXml t)) w) -> hd 0%N (root_tag conf) <> 64%N -> ~ In 58%N (root_tag conf) -> root_tag conf <> path ->
  xml_step path -> hd 0%N path <> 64%N -> path <> u "#text" -> ~ In 58%N path ->
  flatten_file Wd' F = Ok tt w' -> not_mixed (f_roll F) -> f_xml F = true -> f_root_list F = false -> f_path F = path ->
  exists f sheets O recs w0 root comment, main_run Wd U f conf sheets O /\ unflatten O sheets = Ok recs w0 /\ In (Wrote (u_output U) (CXml root comment)) w /\
    (attributes_last (o_conv O) sheets -> plain_parts (o_conv O) sheets -> wd_xml Wd' (Some path) (f_input F) = inr (root_value (Some path) root) ->
     exists schema roll lines l s v, run_inputs Wd' F schema roll lines l /\ flatten (run_opts Wd' F schema roll lines) (f_drop F) (requests lines) l = Ok s v /\
       Forall2 (fun d v => reread (xe_env (wd_xenv Wd)) (JO (map (fun kv => (fst kv, xml_node (snd kv))) d)) v) recs l).
Proof.
  intros H Hx Hl Ho Hn Hb Hsch conf path Hw T1 T2 T3 P1 P2 P3 P4 Hf Hm F1 F2 F3.
  destruct (xml_commands Wd U w Wd' F w' H Hx Hl Ho Hn Hw T1 T2 T3 P1 P2 P3 Hf Hm F1 F2 F3) as (f & recs & b & root & comment & (w1 & A) & (sheets & O & w0 & B & B') & C & D).
  exists f, sheets, O, recs, w0, root, comment. split; [exact B|]. split; [exact B'|]. split; [exact C|]. intros L P Hr.
  assert (b = []) as ->.
  { unfold read_base in A. rewrite Hl in A. destruct (u_base U) as [[|c s]|] eqn:Eb; [| |]; try (injection A as <- _; reflexivity). exfalso. apply Hb. eexists. split; [reflexivity|discriminate]. }
  destruct B as (schema & Hs & _ & EO).
  assert (Ox : o_xml O = true) by (subst O; exact Hx).
  assert (Ot : forall p, o_types O p = []). { destruct Hs as [[_ ->]|[X _]]; [|contradiction]. subst O. reflexivity. }
  pose proof (sheets_good O sheets [(u "xml", u "http://www.w3.org/XML/1998/namespace")] Ox Ot L (plain_apart _ _ _ P) recs w0 B') as G.
  destruct (records_data [(u "xml", u "http://www.w3.org/XML/1998/namespace")] path recs P2) as [S1 S2]; [intros d Hd; exact (proj1 (G d Hd))|].
  apply D; [exact S1| |exact Hr]. apply S2; [exact P4|exact P3|]. intros d Hd. exact (proj2 (G d Hd) P).
Qed.

(** ** a check of the headings *)
Fixpoint items_ok (l : list str) : bool :=
  match l with
  | [] => true
  | x :: r => negb (existsb (N.eqb 58) x) && negb (str_eqb x (u "#text")) &&
      (if (hd 0%N x =? at_sign)%N then (match r with [] => true | _ => false end) && negb (startswith (tl x) (u "xmlns")) else true) && items_ok r
  end.
Lemma items_sound l : items_ok l = true -> (forall pre x post, l = pre ++ x :: post -> hd 0%N x = at_sign -> post = [] /\ startswith (tl x) (u "xmlns") = false) /\ (forall x, In x l -> ~ In 58%N x /\ x <> u "#text").
Proof.
  induction l as [|y l IH]; intros H; [split; [intros [|? ?] ? ? X; discriminate X|intros x []]|]. cbn [items_ok] in H.
  apply andb_true_iff in H as [H H4]. apply andb_true_iff in H as [H H3]. apply andb_true_iff in H as [H1 H2]. destruct (IH H4) as [I1 I2]. split.
  - intros [|z pre] x post [= E1 E2] Hx.
    + subst y l. rewrite Hx in H3. rewrite N.eqb_refl in H3. apply andb_true_iff in H3 as [H3 H5]. apply negb_true_iff in H5. destruct post; [auto|discriminate].
    + exact (I1 _ _ _ E2 Hx).
  - intros x [<-|Hx]; [|exact (I2 _ Hx)]. split.
    + intros X. assert (Q : existsb (N.eqb 58) y = true) by (apply existsb_exists; exists 58%N; split; [exact X|reflexivity]). rewrite Q in H1. discriminate.
    + intros ->. rewrite str_eqb_refl in H2. discriminate.
Qed.
Definition headings_ok (E : env) (sheets : list sheet_in) : bool := forallb (fun s => forallb (fun l => forallb (fun hv => items_ok (path_items E (fst hv))) l) (si_lines s)) sheets.
Theorem headings_sound E sheets : headings_ok E sheets = true -> attributes_last E sheets /\ plain_parts E sheets.
Proof.
  intros H. assert (Hh : forall h, has_heading sheets h -> items_ok (path_items E h) = true).
  { intros h (s & l & v & Hs & Hl & Hv). unfold headings_ok in H. rewrite forallb_forall in H. specialize (H _ Hs). rewrite forallb_forall in H. specialize (H _ Hl). rewrite forallb_forall in H. exact (H _ Hv). }
  split.
  - intros h pre x post X Hp Hx. exact (proj1 (items_sound _ (Hh _ X)) _ _ _ Hp Hx).
  - intros x (h & X & Hi). exact (proj2 (items_sound _ (Hh _ X)) _ Hi).
Qed.
