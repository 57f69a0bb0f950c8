(** Data written as XML and read back. *)
From Verif.Base Require Import PyStr PyNum PyVal PyDict Outcome.
From Verif.Model Require Import Lib Input Flatten SortXml XmlOut Commands.
From Verif.Spec Require Import XmlData.

(** no name has a prefix, and no tag is "#text" *)
Inductive plain_xml : jv -> Prop :=
| plain_el d : (forall k v, In (k, v) d -> ~ In 58%N k /\ k <> u "#text") -> (forall k x, In (k, x) (element_entries d) -> plain_xml x) -> plain_xml (JO d).
(** the elements with the tag [k], in order: in the data that are written, and
    in what is read, where one element may stand for a list of one *)
Definition put (k : str) (d : list (str * jv)) : list jv := map snd (filter (fun kv => str_eqb (fst kv) k) (element_entries d)).
Definition keys_of (v : jv) : list (str * jv) := match v with JO d => d | _ => [] end.
Definition got (k : str) (v : jv) : list jv := match sget k (keys_of v) with Some (JA l) => l | Some y => [y] | None => [] end.

Section Reread.
  Variable E : env.
  (** [reread x v]: [v] is [x] as read back.  The attributes are the same, as
      texts; the text is the same without white space around, under "#text", if
      anything of it is left; under every tag are the same elements in the same
      order; there is nothing else.  An element with nothing in it is None. *)
  Inductive reread : jv -> jv -> Prop :=
  | reread_el d v :
      (forall a y, sget (at_sign :: a) (keys_of v) = Some y <-> exists s, In (at_sign :: a, JS s) d /\ y = JS (SStr (py_str E s))) ->
      (forall y, sget (u "#text") (keys_of v) = Some y <->
         exists s, In (u "text()", JS s) d /\ strip is_ws (py_str E s) <> [] /\ y = JS (SStr (strip is_ws (py_str E s)))) ->
      (forall k, hd 0%N k <> at_sign -> k <> u "#text" -> Forall2 reread (put k d) (got k v)) ->
      NoDup (map fst (keys_of v)) ->
      (v = JS SNone \/ exists d', v = JO d' /\ d' <> []) ->
      reread (JO d) v.
End Reread.
(** the tag of the root element: from the configuration *)
Definition root_tag (conf : sheet_conf) : str := match sc_xmlroot conf with Some t => t | None => u "iati-activities" end.
