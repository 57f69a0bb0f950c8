(** Rolling arrays up into the main sheet. *)
From Verif.Base Require Import PyStr PyNum PyVal PyDict Outcome.
From Verif.Model Require Import Flatten.
From Verif.Spec Require Import Sites Paths.

Definition without_rollup (O : popts) : popts :=
  {| po_str := po_str O; po_titles := po_titles O; po_schema := po_schema O; po_root_id := po_root_id O; po_id_name := po_id_name O;
     po_xml := po_xml O; po_filter := po_filter O; po_preserve := po_preserve O; po_rollup := []; po_trunc := po_trunc O;
     po_wkt := po_wkt O; po_shape := po_shape O; po_set_order := po_set_order O |}.
(** The cells rolled up from a record [d]: for an array of objects under a key
    [k] that is to be rolled up, the columns k/0/f for the fields f of its items
    (with preserved fields: those requested); the value of a single item is
    copied, of several items there is only a fixed text. *)
Definition rolled_up (O : popts) (d : jobj) (c : str) (v : jv) : Prop :=
  exists k l f, sget k d = Some (JA l) /\ In k (po_rollup O) /\ keeps O [(k, None)] = true /\
    (po_preserve O = [] \/ In (k ++ u "/" ++ f) (po_preserve O)) /\ c = k ++ u "/0/" ++ f /\
    ((exists e, l = [JO e] /\ sget f e = Some v) \/
     ((2 <= length l)%nat /\ (exists e, In (JO e) l /\ In f (map fst e)) /\ v = JS (SStr rollup_text))).
(** what a main row says: the leaves of the record and what is rolled up, no more *)
Definition roll_shown (O : popts) (d : jobj) (row : frow) : Prop :=
  shows_leaves (leaf_cell O) (keeps O) [] d row /\
  (forall c v, rolled_up O d c v -> sget c row = Some v) /\
  (forall c v, sget c row = Some v -> rolled_up O d c v \/
     exists ks k y, at_path (JO d) (down (ks ++ [k])) = Some y /\ leaf_cell O y = Some v /\ keeps O (down (ks ++ [k])) = true /\ c = pre (down ks) ++ k).
