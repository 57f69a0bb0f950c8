(** Spreadsheets for XML: what the headings must be like. *)
From Verif.Base Require Import PyStr PyNum PyVal PyDict Outcome.
From Verif.Model Require Import Warn Lib Convert Input SortXml XmlOut.
From Verif.Spec Require Import XmlData XmlTrip.

Section Headings.
  Variables (E : env) (sheets : list sheet_in).
  (** [h] is the heading of some cell *)
  Definition has_heading (h : scalar) : Prop := exists s l v, In s sheets /\ In l (si_lines s) /\ In (h, v) l.
  (** the parts of the headings, between the "/" *)
  Definition part (x : str) : Prop := exists h, has_heading h /\ In x (path_items E h).
  (** "@name" only at the end, and no namespaces *)
  Definition attributes_last : Prop := forall h pre x post, has_heading h -> path_items E h = pre ++ x :: post -> hd 0%N x = at_sign -> post = [] /\ startswith (tl x) (u "xmlns") = false.
  (** no attribute is written in two ways *)
  Definition attributes_apart (ns : nsmap) : Prop := forall x y a, part (at_sign :: x) -> part (at_sign :: y) -> full_name ns x a -> full_name ns y a -> x = y.
  (** no prefixes, and no "#text" *)
  Definition plain_parts : Prop := forall x, part x -> ~ In 58%N x /\ x <> u "#text".
End Headings.
