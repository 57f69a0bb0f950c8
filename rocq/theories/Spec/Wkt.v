(** Documents with geometries, and the same documents with the geometries written as WKT text. *)
From Coq Require Import List Permutation.
Import ListNotations.
From Verif.Base Require Import PyStr PyVal PyDict Outcome.
From Verif.Model Require Import Flatten.

(** an object that looks like a GeoJSON geometry *)
Definition geometry (d : jobj) : bool := shas (u "type") d && shas (u "coordinates") d.

Section Wkt.
  (** the WKT text of a geometry; [None] if it is not a valid one *)
  Variable shape : jobj -> option str.
  (** the document with every geometry replaced by its text *)
  Fixpoint in_wkt (v : jv) : jv :=
    match v with
    | JS s => JS s
    | JA l => JA (map in_wkt l)
    | JO d =>
      if geometry d then match shape d with Some t => JS (SStr t) | None => JO d end
      else JO (map (fun kv => (fst kv, in_wkt (snd kv))) d)
    end.

  (** [drawable keep field v]: every geometry in [v] is valid, has no other keys than
      "type" and "coordinates", and is the value of a field (not an item of an array);
      field names are not empty and have no slash; there are no geometries in the fields
      named in [keep] *)
  Inductive drawable (keep : list str) : bool -> jv -> Prop :=
  | dr_value b s : drawable keep b (JS s)
  | dr_array b l : (forall v, In v l -> drawable keep false v) -> drawable keep b (JA l)
  | dr_geometry d : Permutation (map fst d) [u "type"; u "coordinates"] -> shape d <> None -> drawable keep true (JO d)
  | dr_object b d : geometry d = false ->
      (forall k v, In (k, v) d -> k <> [] /\ ~ In 47%N k /\ drawable keep true v /\ (In k keep -> in_wkt v = v)) -> drawable keep b (JO d).
End Wkt.

(** the same options, geometries left as they are *)
Definition without_wkt (O : popts) : popts :=
  {| po_str := po_str O; po_titles := po_titles O; po_schema := po_schema O; po_root_id := po_root_id O; po_id_name := po_id_name O;
     po_xml := po_xml O; po_filter := po_filter O; po_preserve := po_preserve O; po_rollup := po_rollup O; po_trunc := po_trunc O;
     po_wkt := false; po_shape := po_shape O; po_set_order := po_set_order O |}.
(** the fields that identify records: ids, the root id, the field filtered by *)
Definition keep_of (O : popts) : list str :=
  po_id_name O :: po_root_id O :: match po_filter O with Some (f, _) => [f] | None => [] end.
(** the warning that shapely is missing, and an outcome without such warnings *)
Definition no_shapely (w : fwarning) : bool := match w with FGeoDependencies => true | _ => false end.
Definition quiet {A} (m : FR A) : FR A :=
  match m with
  | Ok a w => Ok a (filter (fun x => negb (no_shapely x)) w)
  | Raise e w => Raise e (filter (fun x => negb (no_shapely x)) w)
  end.
