(** flatten and unflatten one after the other, from JSON text to JSON text. *)
From Coq Require Import Permutation Lia.
From Verif.Base Require Import PyStr PyNum PyVal PyDict Outcome.
From Verif.Model Require Import Lib Convert Input Json Flatten Readers Csv Output Schema Commands JsonText.
From Verif.Spec Require Import Sites Paths Grids CsvText Written Commands RoundTrip Typed Trip JsonGrammar JsonTrip.
From Verif.Proofs Require Import TripEnd JsonScan JsonWrite JsonTexts.
Local Open Scope list_scope.

(** the records, in the list that unflatten writes *)
Lemma found_at v ks x : value_at v ks = Some x -> at_path (data_of v) (down ks) = Some (data_of x).
Proof.
  revert v. induction ks as [|k ks IH]; intros v H; cbn [value_at down map at_path] in *; [injection H as <-; reflexivity|].
  destruct v as [| | | | | | |d]; try discriminate H. destruct (sget k d) as [y|] eqn:E; [|discriminate H]. cbn [data_of]. rewrite sget_data, E. cbn [option_map]. exact (IH y H).
Qed.
Lemma listed_told T U j x : out_tells T false j x -> keys_once x -> exists y, out_tells T false (listed U j) y /\ keys_once y /\
  y = if u_root_list U then x else VObj [(root_path U empty_conf, x)].
Proof.
  intros H Hk. unfold listed. destruct (u_root_list U).
  - exists x. split; [exact H|]. split; [exact Hk|reflexivity].
  - eexists. split; [|split; [|reflexivity]].
    + constructor. constructor; [|constructor]. split; [reflexivity|exact H].
    + constructor; [cbn; constructor; [intros []|constructor]|]. constructor; [exact Hk|constructor].
Qed.
(** JSON has no infinities *)
Lemma no_odd_finite v : ~ has_odd v -> numbers_finite (data_of v).
Proof.
  unfold numbers_finite. induction v as [v Hv|l IH|d IH] using jval_ind'; intros Ho s Hs Hn.
  - assert (data_of v = JS s) as E by (destruct v; cbn [data_of] in *; try destruct Hv; inversion Hs; reflexivity).
    destruct v; cbn [data_of] in E; try destruct Hv; injection E as <-; try discriminate Hn; try exact I. exfalso. apply Ho. constructor.
  - cbn [data_of] in Hs. inversion Hs as [|l' x Hx Hs'|]; subst. apply in_map_iff in Hx as (v & <- & Hv).
    apply (proj1 (Forall_forall _ _) IH v Hv); [|exact Hs'|exact Hn]. intros X. apply Ho. exact (ho_array v l Hv X).
  - cbn [data_of] in Hs. inversion Hs as [| |d' k x Hx Hs']; subst. apply in_map_iff in Hx as ([k' v] & E & Hv). cbn [fst snd] in E. injection E as -> <-.
    apply (proj1 (Forall_forall _ _) IH (k, v) Hv); [|exact Hs'|exact Hn]. intros X. apply Ho. exact (ho_object k v d Hv X).
Qed.
Lemma odd_at v ks x : value_at v ks = Some x -> has_odd x -> has_odd v.
Proof.
  revert v. induction ks as [|k ks IH]; intros v H Hx; cbn [value_at] in H; [injection H as <-; exact Hx|].
  destruct v as [| | | | | | |d]; try discriminate H. destruct (sget k d) as [y|] eqn:E; [|discriminate H]. apply sget_In in E. exact (ho_object k y d E (IH y H Hx)).
Qed.

Section Text.
  Variables (Wd : world) (F : flopts) (schema : option sps) (T : tenv) (t0 : str) (v0 : jval) (ks : list str) (rs : list jval) (docs : list jobj) (tm : term).
  Notation O := (flatten_opts Wd F schema).
  Hypothesis HF : to_csv F.
  Hypothesis HS : schema_read Wd (f_local_off F) (f_schema F) (flatten_schema_opts Wd F) schema.
  Hypothesis Ht0 : file_has Wd (f_input F) t0.
  Hypothesis Hsay : document_says false t0 v0.
  Hypothesis Hone : keys_once v0.
  Hypothesis Hnh : no_halves v0.
  Hypothesis Hpl : place_of F (data_of v0) ks.
  Hypothesis Hrs : value_at v0 ks = Some (VArr rs).
  Hypothesis Hdocs : map data_of rs = map JO docs.
  Hypothesis Ht : sget (f_term F) terminators = Some tm.
  Hypothesis HW : whole O.
  Hypothesis HD : documents O docs.
  Hypothesis HC : csv_ready O (writer_opts F tm) (wd_wenv Wd) docs.
  Lemma there : records_at F (data_of v0) (map JO docs).
  Proof. exists ks. split; [exact Hpl|]. rewrite (found_at v0 ks (VArr rs) Hrs). cbn [data_of]. rewrite Hdocs. reflexivity. Qed.
  Lemma finite_docs : Forall (fun d => numbers_finite (JO d)) docs.
  Proof.
    assert (numbers_finite (JA (map JO docs))) as H.
    { rewrite <- Hdocs. change (JA (map data_of rs)) with (data_of (VArr rs)). apply no_odd_finite. intros Ho. pose proof (odd_at v0 ks (VArr rs) Hrs Ho) as Hv.
      destruct Hsay as (a & m & b & _ & _ & Hm & _). exact (proj1 strict_no_odd m v0 Hm Hv). }
    apply Forall_forall. intros d Hd s Hs Hn. apply (H s); [|exact Hn]. apply (in_items s (map JO docs) (JO d)); [apply in_map; exact Hd|exact Hs].
  Qed.
  Lemma told_back (arrJ : list jv -> list jv -> Prop) (arrV : list jval -> list jval -> Prop) U w' j :
    (forall l m, arrJ (map data_of l) m -> exists l', m = map data_of l' /\ arrV l l') -> (forall l l', arrV l l' -> forall x, In x l' -> In x l) -> (forall l, arrV l l) ->
    json_written w' (u_output U) (listed U j) -> same_json arrJ (JA (map JO docs)) j -> all_digits_kept T (VArr rs) ->
    exists t1 v1 ms, text_out T w' (u_output U) t1 /\ document_says false t1 v1 /\ loads t1 = Some v1 /\
      v1 = (if u_root_list U then VArr ms else VObj [(root_path U empty_conf, VArr ms)]) /\ same_data arrV (VArr rs) (VArr ms).
  Proof.
    intros H1 H2 H3 Hj Hs Hk. rewrite <- Hdocs in Hs. change (JA (map data_of rs)) with (data_of (VArr rs)) in Hs.
    destruct (json_told T arrJ arrV H1 H2 H3 (VArr rs) j Hs Hk) as (x & Hx & Hsame). pose proof (same_once _ _ _ Hsame) as Ho.
    assert (exists ms, x = VArr ms) as [ms ->].
    { inversion Hsame as [| |a b (p & q & X & _)|l l' m Ha Hm|]; subst; [discriminate X|]. exists m. reflexivity. }
    destruct (listed_told T U j (VArr ms) Hx Ho) as (y & Hy & Hyo & Ey). exists (json_text T (listed U j)), y, ms.
    split; [exists (listed U j); split; [exact Hj|reflexivity]|]. split; [apply text_says; exact Hy|]. split; [exact (text_loads T false _ y Hy Hyo)|].
    split; [exact Ey|exact Hsame].
  Qed.
  Theorem text_any : exists w, flatten_file Wd F = Ok tt w /\ forall Wd' U schema',
    from_csv U -> u_input U = output_dir F -> directory_has Wd' (u_input U) (texts_written w) ->
    schema_read Wd' (u_local_off U) (u_schema U) (unflatten_schema_opts Wd' U) schema' ->
    survive O (unflatten_opts Wd' U schema') (csv_cell (wd_wenv Wd)) docs -> all_digits_kept T (VArr rs) ->
    exists w' t1 v1 ms, unflatten_file Wd' U = Ok tt w' /\ text_out T w' (u_output U) t1 /\ document_says false t1 v1 /\ loads t1 = Some v1 /\
      v1 = (if u_root_list U then VArr ms else VObj [(root_path U empty_conf, VArr ms)]) /\ same_data (@Permutation jval) (VArr rs) (VArr ms).
  Proof.
    destruct (end_any Wd F schema (data_of v0) docs tm HF HS (Ht0 v0 Hsay Hone Hnh) there Ht HW HD HC) as (w & Hw & Hback). exists w. split; [exact Hw|].
    intros Wd' U schema' HU Hi Hdir HS' Hsv Hk. destruct (Hback Wd' U schema' HU Hi Hdir HS' Hsv) as (w' & j & Hu & Hj & Hs).
    { exact finite_docs. }
    destruct (told_back (@Permutation jv) (@Permutation jval) U w' j) as (t1 & v1 & ms & A & B & C & D & G); try assumption.
    - intros l m P. apply Permutation_sym in P. destruct (Permutation_map_inv _ _ P) as (l' & -> & P'). exists l'. split; [reflexivity|exact P'].
    - intros l l' P x Hx. eapply Permutation_in; [apply Permutation_sym; exact P|exact Hx].
    - intros l. apply Permutation_refl.
    - exists w', t1, v1, ms. repeat (split; [assumption|]). assumption.
  Qed.
  Theorem text_ordered : main_first O (writer_opts F tm) docs -> roots_together O docs -> short_names O docs -> exists w, flatten_file Wd F = Ok tt w /\ forall Wd' U schema',
    from_csv U -> u_input U = output_dir F -> directory_has Wd' (u_input U) (texts_written w) ->
    schema_read Wd' (u_local_off U) (u_schema U) (unflatten_schema_opts Wd' U) schema' ->
    survive O (unflatten_opts Wd' U schema') (csv_cell (wd_wenv Wd)) docs -> all_digits_kept T (VArr rs) ->
    exists w' t1 v1 ms, unflatten_file Wd' U = Ok tt w' /\ text_out T w' (u_output U) t1 /\ document_says false t1 v1 /\ loads t1 = Some v1 /\
      v1 = (if u_root_list U then VArr ms else VObj [(root_path U empty_conf, VArr ms)]) /\ same_data eq (VArr rs) (VArr ms).
  Proof.
    intros M1 M2 M3.
    destruct (end_ordered Wd F schema (data_of v0) docs tm HF HS (Ht0 v0 Hsay Hone Hnh) there Ht HW HD HC M1 M2 M3) as (w & Hw & Hback). exists w. split; [exact Hw|].
    intros Wd' U schema' HU Hi Hdir HS' Hsv Hk. destruct (Hback Wd' U schema' HU Hi Hdir HS' Hsv finite_docs) as (w' & j & Hu & Hj & Hs).
    destruct (told_back eq eq U w' j) as (t1 & v1 & ms & A & B & C & D & G); try assumption.
    - intros l m <-. exists l. split; reflexivity.
    - intros l l' <- x Hx. exact Hx.
    - reflexivity.
    - exists w', t1, v1, ms. repeat (split; [assumption|]). assumption.
  Qed.
End Text.
