(** C75: when a run of flatten succeeds.  [can_flatten], [data_fits] and [taken] are
    in Spec/FlattenOutcome.v. *)
From Coq Require Import String.
From Verif.Base Require Import PyStr PyNum PyVal PyDict Outcome.
From Verif.Model Require Import Warn Lib Convert Input Readers Flatten Csv Schema Output Commands.
From Verif.Spec Require Import Flat Paths Commands Trip FlattenRun Written FlattenOutcome.
From Verif.Tests Require Import TestLib CommandLib.
From Verif.Proofs Require Import FlattenOutcome.
From Verif.Props Require Import FlattenRun.
Local Open Scope list_scope.

(** data of plain values, lists of them, objects and arrays of objects is flattened,
    with or without roll-ups, titles, filter, schema *)
Theorem C75_data : forall O, po_xml O = false -> forall drop ask l, data_fits O l -> exists s w, flatten O drop ask l = Ok s w.
Proof. exact data_flattened. Qed.
Print Assumptions C75_data.
(** so if all input can be read and the data fits, the run succeeds, provided the
    libraries take the tables (and for CSV, no array of objects has an empty name) *)
Theorem C75_run : forall Wd F f t schema roll lines recs, can_flatten Wd F f t schema roll lines recs -> data_fits (run_opts Wd F schema roll lines) recs ->
  exists s w, flatten (run_opts Wd F schema roll lines) (f_drop F) (requests lines) recs = Ok s w /\
    ((f = Csv -> schema_ready (run_opts Wd F schema roll lines) /\ name_free (run_opts Wd F schema roll lines) s) ->
     (forall x, In x (named (f_main F) (main_table s) :: sub_tables s) -> taken (wd_wenv Wd) (run_writer F f t) f x) -> exists w', flatten_file Wd F = Ok tt w').
Proof. exact flatten_outcome. Qed.
Print Assumptions C75_run.
(** in any case the run succeeds or fails as flattening does; if it fails nothing is
    written *)
Theorem C75_succeeds : forall Wd F f t schema roll lines recs, can_flatten Wd F f t schema roll lines recs ->
  forall s w, flatten (run_opts Wd F schema roll lines) (f_drop F) (requests lines) recs = Ok s w ->
    (f = Csv -> schema_ready (run_opts Wd F schema roll lines) /\ name_free (run_opts Wd F schema roll lines) s) ->
    (forall x, In x (named (f_main F) (main_table s) :: sub_tables s) -> taken (wd_wenv Wd) (run_writer F f t) f x) -> exists w', flatten_file Wd F = Ok tt w'.
Proof. exact flatten_succeeds_with. Qed.
Print Assumptions C75_succeeds.
Theorem C75_fails : forall Wd F f t schema roll lines recs, can_flatten Wd F f t schema roll lines recs ->
  forall e w, flatten (run_opts Wd F schema roll lines) (f_drop F) (requests lines) recs = Raise e w -> exists w', flatten_file Wd F = Raise e w' /\ silent w'.
Proof. exact flatten_fails_with. Qed.
Print Assumptions C75_fails.

(** ** cases *)
Local Open Scope string_scope.
Local Open Scope list_scope.
Definition text75 (s : string) : jv := JS (SStr (u s)).
(** a roll-up of one item, one of several, a nested array, a list, null items *)
Definition recs75 : list jv :=
  [JO [(u "id", text75 "1"); (u "p", JA [JO [(u "x", text75 "2"); (u "y", JS (SInt 3))]]); (u "l", JA [text75 "a"; JS SNone])];
   JS SNone;
   JO [(u "id", text75 "2"); (u "p", JA [JO [(u "x", text75 "2")]; JO [(u "z", JO [(u "q", JA [JS SNone; JO [(u "r", JS (SBool true))]])])]]); (u "n", JA [JA [text75 "a"]; JA []])]].
Definition world75 (recs : list jv) : world :=
  {| wd_schema := fun _ _ => inr schema56; wd_json := fun _ => inr (JO [(u "r", JO [(u "main", JA recs)])]); wd_base := fun _ => inl EOther; wd_xml := fun _ _ => inl EOther;
     wd_lines := fun f => inl EOther; wd_isfile := fun f => false; wd_book := fun _ _ => inl EOther; wd_xsd := fun _ => inl EOther; wd_xsd_fuel := 0;
     wd_xenv := cmd_xenv; wd_wenv := cmd_wenv; wd_lower := lower; wd_shape := None; wd_set_order := fun l => l; wd_conv := fun _ _ => test_cenv |}.
Definition opts75 (format : string) : flopts := opts56 [] [] (None, None) (RollList [RPath (u "p")]) false (u format).
Lemma can75 format f recs : sget (u format) formats = Some f -> can_flatten (world75 recs) (opts75 format) f LF None [u "p"] [] recs.
Proof.
  intros Hf. split; [reflexivity|]. split; [reflexivity|]. split; [exact Hf|]. split; [split; reflexivity|].
  assert (P : place_of (opts75 format) (JO [(u "r", JO [(u "main", JA recs)])]) [u "r"; u "main"]).
  { split; [split; [discriminate|reflexivity]|]. split; [repeat (constructor; [vm_compute; intuition discriminate|]); constructor|].
    intros ks1 ks2 d E A. assert (D : d = [(u "r", JO [(u "main", JA recs)])] \/ d = [(u "main", JA recs)]).
    { destruct ks1 as [|k1 [|k2 [|k3 ks1]]]; cbn [app] in E; [|injection E as <- _|injection E as <- <- _|discriminate E].
      - injection A as <-. left. reflexivity.
      - injection A as <-. right. reflexivity.
      - discriminate A. }
    destruct D as [-> | ->]; (split; [repeat constructor; intros []|intros k [<-|[]]; vm_compute; intuition discriminate]). }
  split; [|eexists; eexists; split; [reflexivity|exact P]]. split.
  - exists true. split; [split; [intros _; right; eexists; split; [reflexivity|discriminate]|reflexivity]|]. left. split; reflexivity.
  - apply ru_path; reflexivity.
  - left. split; reflexivity.
  - eexists. split; [reflexivity|]. intros ks Hp. destruct Hp as ((Hn & Hj) & Hk & _). destruct P as ((_ & Hj') & Hk' & _).
    assert (E : ks = [u "r"; u "main"]).
    { rewrite Hj' in Hj. apply (f_equal (split_on 47%N)) in Hj. change (u "/") with [47%N] in Hj. rewrite !split_join in Hj; [symmetry; exact Hj|exact Hn| |discriminate| ].
      - intros x Hx. rewrite Forall_forall in Hk. apply (Hk x Hx).
      - intros x Hx. rewrite Forall_forall in Hk'. apply (Hk' x Hx). }
    subst ks. reflexivity.
Qed.
Lemma fits75 format : data_fits (run_opts (world75 recs75) (opts75 format) None [u "p"] []) recs75.
Proof.
  split; [|intros d _ [Q _]; discriminate Q]. intros d [[= <-]|[Q|[[= <-]|[]]]]; [|discriminate Q|]; (split; [|right; split; [discriminate|]]).
  - cbn. split; [reflexivity|]. split; [|split; [|exact I]].
    + right. right. split; [|split; [|exact I]]; [|cbn; auto]. intros v [<-|[]]. right. eexists. reflexivity.
    + left. intros v [<-|[<-|[]]]; reflexivity.
  - intros key l o Hk Ho. cbn in Hk. destruct Hk as [Q|[Q|[Q|[]]]]; try discriminate Q; injection Q as <- <-.
    + split; [intros v [<-|[]]; eexists; reflexivity|]. intros E. injection E as <-. intros k x [[= <- <-]|[[= <- <-]|[]]]; left; reflexivity.
    + destruct Ho as [Q|[Q|[]]]; discriminate Q.
  - cbn. split; [reflexivity|]. split; [|split; [|exact I]].
    + right. right. split; [intros v [<-|[<-|[]]]; right; eexists; reflexivity|]. split; [cbn; auto|]. split; [|exact I]. split; [|exact I]. split; [|exact I].
      right. right. split; [intros v [<-|[<-|[]]]; [left; reflexivity|right; eexists; reflexivity]|]. split; [reflexivity|]. split; [cbn; auto|exact I].
    + right. left. intros v [<-|[<-|[]]]; eexists; left; (split; [reflexivity|]); intros x Hx; [destruct Hx as [<-|[]]; reflexivity|destruct Hx].
  - intros key l o Hk Ho. cbn in Hk. destruct Hk as [Q|[Q|[Q|[]]]]; try discriminate Q; injection Q as <- <-.
    + split; [intros v [<-|[<-|[]]]; eexists; reflexivity|]. discriminate.
    + destruct Ho as [Q|[Q|[]]]; discriminate Q.
Qed.
Definition written75 (format : string) : option (list (str * str)) := texts (flatten_file (world75 recs75) (opts75 format)).
Example C75_run_meets : can_flatten (world75 recs75) (opts75 "csv") Csv LF None [u "p"] [] recs75 /\
  data_fits (run_opts (world75 recs75) (opts75 "csv") None [u "p"] []) recs75 /\
  (exists w, flatten_file (world75 recs75) (opts75 "csv") = Ok tt w /\ ~ silent w) /\
  (exists w, flatten_file (world75 recs75) (opts75 "xlsx") = Ok tt w) /\ (exists w, flatten_file (world75 recs75) (opts75 "ods") = Ok tt w).
Proof.
  split; [apply can75; reflexivity|]. split; [apply fits75|]. split; [|split; eexists; vm_compute; reflexivity].
  eexists. split; [vm_compute; reflexivity|]. intros S. eapply S. unfold written. right. right. right. left. reflexivity.
Qed.
(** the tables of that run are taken, in each format *)
Example C75_taken_meets : exists s w, flatten (run_opts (world75 recs75) (opts75 "csv") None [u "p"] []) false [] recs75 = Ok s w /\
  name_free (run_opts (world75 recs75) (opts75 "csv") None [u "p"] []) s /\
  forall f x, In x (named (u "main") (main_table s) :: sub_tables s) -> taken cmd_wenv (run_writer (opts75 "csv") f LF) f x.
Proof.
  eexists. eexists. split; [vm_compute; reflexivity|]. split; [intros _; vm_compute; intuition discriminate|]. intros f x Hx.
  assert (NR : forall s e, cmd_floats s <> FloatRaise e) by (intros s e; unfold cmd_floats; destruct s; try discriminate; repeat match goal with |- context [match ?m with _ => _ end] => destruct m end; discriminate).
  destruct f; [reflexivity|split; [reflexivity|]; split; reflexivity|]. split; [intros h _; right; eexists; split; [reflexivity|apply NR]|].
  intros row h v v' Hrow _ Hv Hc. assert (K : forall k y, In (k, y) row -> exists s0, y = JS s0).
  { intros k y Hy. assert (G : forallb (fun kv : str * jv => match snd kv with JS _ => true | _ => false end) row = true).
    { repeat destruct Hx as [<-|Hx]; try destruct Hx; vm_compute in Hrow; repeat destruct Hrow as [<-|Hrow]; try destruct Hrow; reflexivity. }
    rewrite forallb_forall in G. specialize (G _ Hy). cbn [snd] in G. destruct y; try discriminate G. eexists. reflexivity. }
  assert (exists s0, v = JS s0) as (s0 & ->) by (destruct Hv as [Hv|[_ ->]]; [exact (K _ _ Hv)|eexists; reflexivity]).
  assert (exists s1, v' = JS s1) as (s1 & ->).
  { cbn in Hc. destruct s0; try (subst v'; eexists; reflexivity). destruct Hc as (s' & _ & ->). eexists. reflexivity. }
  right. exists s1. split; [reflexivity|apply NR].
Qed.
(** an array that holds objects and values is not flattened: nothing is written *)
Definition mixed75 : list jv := [JO [(u "a", JA [JO [(u "x", text75 "1")]; text75 "2"])]].
Example C75_fails_meets : can_flatten (world75 mixed75) (opts75 "csv") Csv LF None [u "p"] [] mixed75 /\
  exists e w, flatten (run_opts (world75 mixed75) (opts75 "csv") None [u "p"] []) false [] mixed75 = Raise e w.
Proof. split; [apply can75; reflexivity|]. eexists. eexists. vm_compute. reflexivity. Qed.
(** with WKT: a field may be a geometry, a record may not *)
Definition wkt75 : popts :=
  {| po_str := test_env; po_titles := false; po_schema := None; po_root_id := []; po_id_name := u "id"; po_xml := false; po_filter := None; po_preserve := []; po_rollup := [];
     po_trunc := 3; po_wkt := true; po_shape := Some (fun _ => Some (u "POINT (1 2)")); po_set_order := fun l => l |}.
Definition point75 : jobj := [(u "type", text75 "Point"); (u "coordinates", JA [JS (SInt 1); JS (SInt 2)])].
Lemma io_array_inv l d : item_of (JA l) d -> In (JO d) l \/ exists v, In v l /\ item_of v d.
Proof. intros H. inversion H; subst; eauto. Qed.
Lemma io_object_inv o d : item_of (JO o) d -> exists k v, In (k, v) o /\ item_of v d.
Proof. intros H. inversion H; subst; eauto. Qed.
Example C75_geometry_meets : data_fits wkt75 [JO [(u "g", JO point75)]] /\
  exists s w, flatten wkt75 false [] [JO [(u "g", JO point75)]] = Ok s w /\ tb_rows (main_table s) = [[(u "g", text75 "POINT (1 2)")]].
Proof.
  split; [|eexists; eexists; split; [vm_compute; reflexivity|vm_compute; reflexivity]]. split.
  - intros d [[= <-]|[]]. split; [|left; reflexivity]. cbn. split; [|exact I]. split; [reflexivity|]. split; [|exact I]. left. intros v [<-|[<-|[]]]; reflexivity.
  - intros d Hd (_ & H & _). apply io_array_inv in Hd as [[Q|[]]|(v & [<-|[]] & Hv)]; [injection Q as <-; destruct H as [H|[]]; discriminate H|].
    apply io_object_inv in Hv as (k & v & [Q|[]] & Hv). injection Q as _ <-. apply io_object_inv in Hv as (k1 & v & [Q|[Q|[]]] & Hv); injection Q as _ <-; [inversion Hv|].
    apply io_array_inv in Hv as [[Q|[Q|[]]]|(v & [<-|[<-|[]]] & Hv)]; [discriminate Q|discriminate Q|inversion Hv|inversion Hv].
Qed.
Theorem C75_geometry_refuted : exists O l e w, po_xml O = false /\ (forall d, In (JO d) l -> regular (JO d) /\ rollable O d) /\ flatten O false [] l = Raise e w.
Proof.
  exists wkt75, [JO point75]. eexists. eexists. split; [reflexivity|]. split; [|vm_compute; reflexivity].
  intros d [[= <-]|[]]. split; [|left; reflexivity]. cbn. split; [reflexivity|]. split; [|exact I]. left. intros v [<-|[<-|[]]]; reflexivity.
Qed.
Print Assumptions C75_geometry_refuted.
