(** The notions of Spec/RoundTrip.v for any relation [alike] between the values of
    the documents and the values that come back ([same_leaf] there). *)
From Verif.Base Require Import PyStr PyNum PyVal PyDict Outcome.
From Verif.Model Require Import Warn Lib Convert Input Flatten.
From Verif.Spec Require Import Sites Paths Headings RoundTrip.

Section Alike.
  Variable alike : jv -> cellval -> Prop.
  (** what one value comes back as is equal; geometries are not among it *)
  Definition fair : Prop := (forall y v w, leaf y -> alike y v -> alike y w -> cv_eqb v w = true) /\ forall y g, ~ alike y (CGeo g).
  Definition cell_comes (P : opts) (write : scalar -> scalar) (p : hpath) (y : jv) (c : scalar) : Prop :=
    fits (o_types P) p /\ blank (write c) = false /\
    exists v, convert_type (o_conv P) (o_types P (path_text p)) (CV (write c)) = Ok v [] /\ cv_blank v = false /\ alike y v /\
      (last p (HPos 0) = HKey (o_id_name P) -> v = CV c).
  Definition come (O : popts) (P : opts) (write : scalar -> scalar) (docs : list jobj) : Prop :=
    o_xml P = false /\ o_id_name P = po_id_name O /\ o_root_id P = po_root_id O /\
    (forall d Q k y c, In d docs -> at_path (JO d) (Q ++ [(k, None)]) = Some y -> leaf y -> leaf_cell O y = Some (JS c) ->
       cell_comes P write (heading_path (Q ++ [(k, None)])) y c) /\
    (forall d e s t, In d docs -> In e docs -> root_key O d = Some (JS s) -> root_key O e = Some (JS t) ->
       plain_value (write s) /\ (write s = write t -> s = t)).
  Inductive comes (arranged : list jv -> list jv -> Prop) : jv -> vnode -> Prop :=
  | comes_leaf y v : alike y v -> comes arranged y (VLeaf v)
  | comes_object o d : NoDup (map fst d) -> (forall k, In k (map fst o) <-> In k (map fst d)) ->
      (forall k x n, sget k o = Some x -> sget k d = Some n -> comes arranged x n) -> comes arranged (JO o) (VDict d)
  | comes_array l l' m : arranged l l' -> Forall2 (fun x d => comes arranged x (VDict d)) l' m -> comes arranged (JA l) (VList m).
  Definition records_come (arranged : list jv -> list jv -> Prop) (docs : list jobj) (out : list vdict) : Prop :=
    comes arranged (JA (map JO docs)) (VList out).
End Alike.
