(** C54: flattening geometries.  The notions used in the statements are in Spec/Wkt.v. *)
From Coq Require Import String Permutation.
From Verif.Base Require Import PyStr PyNum PyVal PyDict Outcome.
From Verif.Model Require Import Flatten.
From Verif.Spec Require Import Wkt.
From Verif.Tests Require Import TestLib FlattenLib.
From Verif.Proofs Require Import WktFlat WktAbsent.
Local Open Scope list_scope.

(** with WKT conversion, flattening gives what flattening without it gives for the
    document in which every geometry is replaced by its text *)
Theorem C54_flatten : forall O shape, po_wkt O = true -> po_shape O = Some shape -> po_rollup O = [] -> po_xml O = false ->
  ~ In (po_id_name O) [u "type"; u "coordinates"] -> ~ In (po_root_id O) [u "type"; u "coordinates"] ->
  forall drop pi l, (forall v, In v l -> drawable shape (keep_of O) false v) ->
  flatten O drop pi l = flatten (without_wkt O) drop pi (map (in_wkt shape) l).
Proof. exact flatten_wkt. Qed.
Print Assumptions C54_flatten.
(** if shapely is missing, the option only adds warnings *)
Theorem C54_absent : forall O, po_shape O = None ->
  forall drop pi l, quiet (flatten O drop pi l) = quiet (flatten (without_wkt O) drop pi l).
Proof. exact flatten_q. Qed.
Print Assumptions C54_absent.

(** ** cases *)
Definition g_shape (d : jobj) : option str := match sget (u "type") d with Some (JS (SStr t)) => if str_eqb t (u "Point") then Some (u "POINT (1 2)") else None | _ => None end.
Definition g_opts : popts :=
  {| po_str := test_env; po_titles := false; po_schema := None; po_root_id := u "ocid"; po_id_name := u "id"; po_xml := false;
     po_filter := None; po_preserve := []; po_rollup := []; po_trunc := 3; po_wkt := true; po_shape := Some g_shape;
     po_set_order := fun l => l |}.
Definition g_point : jobj := [(u "coordinates", JA [JS (SInt 1); JS (SInt 2)]); (u "type", JS (SStr (u "Point")))].
Definition g_record : jv := JO [(u "id", JS (SStr (u "r1"))); (u "place", JO [(u "name", JS (SStr (u "Here"))); (u "geometry", JO g_point)]);
  (u "sites", JA [JO [(u "id", JS (SInt 7)); (u "at", JO g_point)]])].
Example C54_meets : drawable g_shape (keep_of g_opts) false g_record.
Proof.
  assert (Hp : Permutation (map fst g_point) [u "type"; u "coordinates"]) by apply perm_swap.
  assert (Hg : drawable g_shape (keep_of g_opts) true (JO g_point)) by (apply dr_geometry; [exact Hp|discriminate]).
  assert (F : forall k (c : str), existsb (N.eqb 47%N) k = false -> ~ In 47%N k).
  { intros k _ E Q. assert (existsb (N.eqb 47%N) k = true) by (apply existsb_exists; exists 47%N; split; [exact Q|reflexivity]). congruence. }
  assert (G : forall k, existsb (fun x => str_eqb x k) (keep_of g_opts) = false -> ~ In k (keep_of g_opts)).
  { intros k E Q. assert (existsb (fun x => str_eqb x k) (keep_of g_opts) = true) by (apply existsb_exists; exists k; split; [exact Q|apply str_eqb_eq; reflexivity]). congruence. }
  apply dr_object; [reflexivity|]. intros k v [[= <- <-]|[[= <- <-]|[[= <- <-]|[]]]];
    (split; [discriminate|split; [apply (F _ []); reflexivity|split]]).
  - constructor.
  - reflexivity.
  - apply dr_object; [reflexivity|]. intros k v [[= <- <-]|[[= <- <-]|[]]]; (split; [discriminate|split; [apply (F _ []); reflexivity|split]]);
      [constructor|reflexivity|exact Hg|intros Q; exfalso; revert Q; apply G; reflexivity].
  - intros Q. exfalso. revert Q. apply G. reflexivity.
  - apply dr_array. intros v [<-|[]]. apply dr_object; [reflexivity|]. intros k v [[= <- <-]|[[= <- <-]|[]]];
      (split; [discriminate|split; [apply (F _ []); reflexivity|split]]); [constructor|reflexivity|exact Hg|intros Q; exfalso; revert Q; apply G; reflexivity].
  - intros Q. exfalso. revert Q. apply G. reflexivity.
Qed.
Example C54_text : option_map snd (match flatten g_opts false [] [g_record] with
    | Ok s _ => Some (tb_header (main_table s), (tb_rows (main_table s), map (fun t => tb_rows t) (sub_tables s))) | Raise _ _ => None end) =
  Some ([[(u "id", JS (SStr (u "r1"))); (u "place/name", JS (SStr (u "Here"))); (u "place/geometry", JS (SStr (u "POINT (1 2)")))]],
        [[[(u "id", JS (SStr (u "r1"))); (u "sites/0/id", JS (SInt 7)); (u "sites/0/at", JS (SStr (u "POINT (1 2)")))]]]).
Proof. vm_compute. reflexivity. Qed.

(** a geometry that is an item of an array, or a record, makes flatten fail *)
Theorem C54_item_refuted : exists O l m w w', po_wkt O = true /\ (exists sh d, po_shape O = Some sh /\ sh d <> None /\ l = [JO [(u "places", JA [JO d])]] /\ m = [JO d]) /\
  flatten O false [] l = Raise ETypeError w /\ flatten O false [] m = Raise ETypeError w' /\
  exists s w1, flatten (without_wkt O) false [] l = Ok s w1.
Proof.
  exists g_opts. eexists. eexists. exists []. exists []. split; [reflexivity|].
  split; [exists g_shape, g_point; split; [reflexivity|split; [discriminate|split; reflexivity]]|].
  split; [vm_compute; reflexivity|]. split; [vm_compute; reflexivity|]. eexists. eexists. vm_compute. reflexivity.
Qed.
Print Assumptions C54_item_refuted.
(** a geometry that is not valid is left out with a warning, but its column stays *)
Theorem C54_invalid_refuted : exists O k d s, po_wkt O = true /\ geometry d = true /\
  flatten O false [] [JO [(u "id", JS (SInt 1)); (k, JO d)]] = Ok s [FInvalidGeoJSON] /\
  tb_header (main_table s) = [u "id"; k] /\ tb_rows (main_table s) = [[(u "id", JS (SInt 1))]].
Proof.
  exists g_opts, (u "at"), [(u "type", JS (SStr (u "Blob"))); (u "coordinates", JA [])]. eexists.
  repeat split; vm_compute; reflexivity.
Qed.
Print Assumptions C54_invalid_refuted.
