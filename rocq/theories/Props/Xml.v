(** C34, C35, C36: XML.  Orders are defined in Spec/XmlOrder.v, elements for data
    in Spec/XmlData.v, tag paths in Spec/XmlTags.v. *)
From Coq Require Import Sorted Permutation Lia.
From Verif.Base Require Import PyStr PyNum PyVal PyDict Outcome.
From Verif.Model Require Import Warn Lib Flatten SortXml XmlInput XmlOut.
From Verif.Spec Require Import XmlOrder XmlTags XmlData.
From Verif.Tests Require Import TestLib.
From Verif.Proofs Require Import SortXmlFacts XmlTagsFacts XmlOutFacts.

(** ** C34 *)
Theorem C34_sorted : forall e d, proper d -> sorted_as d e (sort_element e d).
Proof. exact sort_sorted. Qed.
Print Assumptions C34_sorted.
(** the order is that of the declarations in the schemas *)
Theorem C34_schema : forall trees n name d w, no_extensions trees -> create_schema_dict trees n name None = Ok d w ->
  exists o, defined trees (u "element") name o /\ describes trees o d /\ proper d.
Proof. exact schema_described. Qed.
Print Assumptions C34_schema.

Definition el (t : str) (cs : list xel) : xel := El t [] None cs.
Definition order_ex : sdict := SD [(u "b", SD [(u "y", SD []); (u "x", SD [])]); (u "a", SD [])].
Definition xml_ex : xel := El (u "r") [(u "k", u "v")] (Some (u "t")) [el (u "z") []; El (u "a") [] (Some (u "1")) []; el (u "b") [el (u "x") []; el (u "q") []; el (u "y") []]; El (u "a") [] (Some (u "2")) []].
Example C34_meets : proper order_ex /\
  sort_element xml_ex order_ex = El (u "r") [(u "k", u "v")] (Some (u "t")) [el (u "b") [el (u "y") []; el (u "x") []; el (u "q") []]; El (u "a") [] (Some (u "1")) []; El (u "a") [] (Some (u "2")) []; el (u "z") []].
Proof.
  split; [|vm_compute; reflexivity].
  assert (E0 : proper (SD [])) by (constructor; [constructor|intros ? ? []]).
  constructor; [repeat constructor; cbn; intuition discriminate|]. intros t d [[= <- <-]|[[= <- <-]|[]]]; [|exact E0].
  constructor; [repeat constructor; cbn; intuition discriminate|]. intros t d [[= <- <-]|[[= <- <-]|[]]]; exact E0.
Qed.
(** a schema with an inline sequence, a reference, and a named type *)
Definition decl (k v : str) (extra : list (str * str)) (cs : list xel) : xel := El (u "xsd:element") ((k, v) :: extra) None cs.
Definition seq_of (cs : list xel) : xel := El (u "xsd:complexType") [] None [El (u "xsd:sequence") [] None cs].
Definition schema_ex : list xel :=
  [El (u "xsd:schema") [] None
     [decl (u "name") (u "act") [] [seq_of [decl (u "ref") (u "title") [] []; decl (u "name") (u "party") [(u "type", u "partyType")] []]];
      decl (u "name") (u "title") [] [seq_of [decl (u "name") (u "narrative") [] []]];
      El (u "xsd:complexType") [(u "name", u "partyType")] None [El (u "xsd:sequence") [] None [decl (u "name") (u "first") [] []; decl (u "name") (u "last") [] []]]]].
Example C34_schema_meets : no_extensions schema_ex /\
  create_schema_dict schema_ex 10 (u "act") None = Ok (SD [(u "title", SD [(u "narrative", SD [])]); (u "party", SD [(u "first", SD []); (u "last", SD [])])]) [].
Proof.
  split; [|vm_compute; reflexivity]. intros t ct [<-|[]] [<-|[<-|[<-|[]]]] Ht cc Hcc; try discriminate Ht. destruct Hcc as [<-|[]]. discriminate.
Qed.
(** the elements of an extended type are those of its base only: "own" is not
    known, and is put after everything else *)
Definition ext_type : xel :=
  El (u "xsd:complexType") [(u "name", u "derived")] None
     [El (u "xsd:complexContent") [] None [El (u "xsd:extension") [(u "base", u "base")] None [El (u "xsd:sequence") [] None [decl (u "name") (u "own") [] []]]]].
Theorem C34_extension_refuted : exists trees, In ext_type (concat (map x_children trees)) /\
  create_schema_dict trees 10 (u "act") None = Ok (SD [(u "inherited", SD [])]) [].
Proof.
  exists [El (u "xsd:schema") [] None
     [decl (u "name") (u "act") [(u "type", u "derived")] []; ext_type;
      El (u "xsd:complexType") [(u "name", u "base")] None [El (u "xsd:sequence") [] None [decl (u "name") (u "inherited") [] []]]]].
  split; [right; left; reflexivity|vm_compute; reflexivity].
Qed.
Print Assumptions C34_extension_refuted.

(** ** C35 *)
(** data of the right shape, with names and texts lxml accepts, is written
    without warnings: every value once, in its place *)
Theorem C35_written : forall E ns x tag, hd 0%N tag <> at_sign -> shaped ns x -> allowed E ns tag x ->
  exists c, dict_to_xml E x tag ns = Ok (Some c, ns) [] /\ mirrors E ns x tag c.
Proof. exact xml_written. Qed.
Print Assumptions C35_written.
(** whatever lxml accepts: without warnings nothing is lost *)
Theorem C35_no_loss : forall E ns x tag o ns', hd 0%N tag <> at_sign -> shaped ns x -> dict_to_xml E x tag ns = Ok (o, ns') [] ->
  exists c, o = Some c /\ mirrors E ns x tag c.
Proof. exact xml_no_loss. Qed.
Print Assumptions C35_no_loss.
(** the document: the same, the children of the root sorted by the schema *)
Theorem C35_document : forall E x tag schema comment r c, hd 0%N tag <> at_sign -> shaped [(u "xml", u "http://www.w3.org/XML/1998/namespace")] x ->
  (forall d w, schema = Some (Ok d w) -> proper d) -> toxml E x tag schema comment = Ok (r, c) [] ->
  exists r0, mirrors E [(u "xml", u "http://www.w3.org/XML/1998/namespace")] x tag r0 /\
    x_tag r = x_tag r0 /\ x_attrib r = x_attrib r0 /\ x_text r = x_text r0 /\
    match schema with
    | None => x_children r = x_children r0
    | Some (Ok d _) => Forall2 (sorted_as d) (x_children r0) (x_children r)
    | Some (Raise _ _) => False
    end.
Proof. exact toxml_written. Qed.
Print Assumptions C35_document.

Definition test_xenv : xenv := {| xe_env := test_env; xe_list_str := fun _ => []; xe_tag := fun _ => true; xe_attr := fun _ v => negb (existsb (N.eqb 0) v); xe_nsmap := fun _ => true; xe_text := fun t => negb (existsb (N.eqb 0) t) |}.
Definition js (s : str) : jv := JS (SStr s).
Definition data_ex : jv :=
  JO [(u "title", JO [(u "text()", js (u "T")); (u "@xml:lang", js (u "en"))]); (u "@version", js (u "2")); (u "p", JA [JO [(u "text()", js (u "a"))]; JO [(u "@b", js (u "c"))]])].
Definition xml_uri : str := u "http://www.w3.org/XML/1998/namespace".
Ltac one_name := let Ha := fresh in let Hb := fresh in intros ? ? ? ? ? Ha Hb ? ?;
  repeat (destruct Ha as [Ha|Ha]; [try discriminate Ha|]); repeat (destruct Hb as [Hb|Hb]; [try discriminate Hb|]); try (destruct Ha; fail); try (destruct Hb; fail); congruence.
Example C35_meets : shaped [(u "xml", xml_uri)] data_ex /\ allowed test_xenv [(u "xml", xml_uri)] (u "r") data_ex /\
  toxml test_xenv data_ex (u "r") (Some (Ok (SD [(u "y", SD [])]) [])) None =
  Ok (El (u "r") [(u "version", u "2")] None
        [El (u "title") [(u "{" ++ xml_uri ++ u "}lang", u "en")] (Some (u "T")) []; El (u "p") [] (Some (u "a")) []; El (u "p") [(u "b", u "c")] None []], u "XML generated by flatten-tool") [].
Proof.
  assert (S1 : forall k s, k = u "text()" \/ (exists a, k = at_sign :: a /\ startswith a (u "xmlns") = false) -> shaped [(u "xml", xml_uri)] (JO [(k, JS s)])).
  { intros k s Hk. constructor.
    - repeat constructor. intros [].
    - intros k' v' [[= <- <-]|[]]. left. eauto.
    - one_name.
    - intros ? ? []. }
  split; [|split; [|vm_compute; reflexivity]].
  - constructor.
    + repeat constructor; cbn; intuition discriminate.
    + intros k v [[= <- <-]|[[= <- <-]|[[= <- <-]|[]]]].
      * right. split; [discriminate|]. left. eauto.
      * left. eexists. split; [reflexivity|]. right. eexists. split; reflexivity.
      * right. split; [discriminate|]. right. eexists. split; [reflexivity|]. intros y [<-|[<-|[]]]; eauto.
    + one_name.
    + intros k x [[= <- <-]|[[= <- <-]|[[= <- <-]|[]]]].
      * constructor.
        -- repeat constructor; cbn; intuition discriminate.
        -- intros k v [[= <- <-]|[[= <- <-]|[]]]; left; (eexists; split; [reflexivity|]); [left; reflexivity|right; eexists; split; reflexivity].
        -- one_name.
        -- intros ? ? [].
      * apply S1. left. reflexivity.
      * apply S1. right. eexists. split; reflexivity.
  - constructor; try reflexivity.
    + intros k a s [H|[H|[H|[]]]] _; try discriminate H. injection H as _ <-. reflexivity.
    + intros s [H|[H|[H|[]]]]; discriminate H.
    + intros k x [[= <- <-]|[[= <- <-]|[[= <- <-]|[]]]]; (constructor; [reflexivity|reflexivity| | |intros ? ? []]).
      * intros k a s [H|[H|[]]] _; try discriminate H. injection H as _ <-. reflexivity.
      * intros s [H|[H|[]]]; try discriminate H. injection H as <-. reflexivity.
      * intros k a s [H|[]] _. discriminate H.
      * intros s [H|[]]. injection H as <-. reflexivity.
      * intros k a s [H|[]] _. injection H as _ <-. reflexivity.
      * intros s [H|[]]. discriminate H.
Qed.

(** several values for an attribute: all but the last are lost, without a warning *)
Theorem C35_attribute_list_refuted : exists x, x = JO [(u "@a", JA [js (u "1"); js (u "2")])] /\ dict_to_xml test_xenv x (u "r") [] = Ok (Some (El (u "r") [(u "a", u "2")] None []), []) [].
Proof. eexists. split; [reflexivity|vm_compute; reflexivity]. Qed.
Print Assumptions C35_attribute_list_refuted.
(** an attribute that is not accepted: the element and all that is in it is left
    out (with a warning) *)
Theorem C35_bad_attribute_refuted : exists x, x = JO [(u "e", JO [(u "@a", js [0%N]); (u "f", JO [(u "text()", js (u "lost"))])])] /\
  dict_to_xml test_xenv x (u "r") [] = Ok (Some (El (u "r") [] None []), []) [u "e"].
Proof. eexists. split; [reflexivity|vm_compute; reflexivity]. Qed.
Print Assumptions C35_bad_attribute_refuted.
(** a text that is not accepted makes the whole document fail *)
Theorem C35_bad_text_refuted : exists x, x = JO [(u "e", JO [(u "text()", js [0%N])])] /\ dict_to_xml test_xenv x (u "r") [] = Raise EValueError [].
Proof. eexists. split; [reflexivity|vm_compute; reflexivity]. Qed.
Print Assumptions C35_bad_text_refuted.
(** attributes are taken by name: one with a prefix sorted before "xmlns" does
    not see the namespace declared in its own element *)
Theorem C35_own_namespace_refuted : exists x, x = JO [(u "@xmlns:a", js (u "URI")); (u "@a:b", js (u "v"))] /\
  dict_to_xml test_xenv x (u "r") [] = Ok (Some (El (u "r") [(u "{}b", u "v")] None []), [(u "a", u "URI")]) [].
Proof. eexists. split; [reflexivity|vm_compute; reflexivity]. Qed.
Print Assumptions C35_own_namespace_refuted.
(** a default namespace makes it fail *)
Theorem C35_default_namespace_refuted : exists x, x = JO [(u "@xmlns", js (u "URI"))] /\ dict_to_xml test_xenv x (u "r") [] = Raise EIndexError [].
Proof. eexists. split; [reflexivity|vm_compute; reflexivity]. Qed.
Print Assumptions C35_default_namespace_refuted.

(** ** C36 *)
Theorem C36_exact : forall x, relisted (repeated x) [] x (list_dict_consistency x).
Proof. exact consistency_exact. Qed.
Print Assumptions C36_exact.
Theorem C36_consistent : forall x p v, repeated x p -> at_path (list_dict_consistency x) p v -> forall e, v <> JO e.
Proof. exact consistency_none. Qed.
Print Assumptions C36_consistent.
Theorem C36_twice : forall x, list_dict_consistency (list_dict_consistency x) = list_dict_consistency x.
Proof. exact consistency_twice. Qed.
Print Assumptions C36_twice.
Definition doc_ex : jv := JO [(u "a", JA [JO [(u "b", JO [(u "c", js (u "1"))])]; JO [(u "b", JA [JO []; JO [(u "c", js (u "2"))]])]; JS SNone])].
Example C36_meets : repeated doc_ex [u "a"; u "b"] /\ at_path doc_ex [u "a"; u "b"] (JO [(u "c", js (u "1"))]) /\
  list_dict_consistency doc_ex = JO [(u "a", JA [JO [(u "b", JA [JO [(u "c", js (u "1"))]])]; JO [(u "b", JA [JO []; JO [(u "c", js (u "2"))]])]; JS SNone])].
Proof.
  split; [|split; [|vm_compute; reflexivity]].
  - eapply rep_list; [left; reflexivity|do 2 eexists; reflexivity|right; left; reflexivity|]. eapply rep_key; [left; reflexivity|]. do 2 eexists. reflexivity.
  - eapply at_list; [left; reflexivity|left; reflexivity|]. apply at_key. left. reflexivity.
Qed.
(** a list starting with an empty element does not count: "b" is a list in one
    place and an element in another *)
Theorem C36_empty_first_refuted : exists x e l, at_path x [u "a"; u "b"] (JO e) /\ at_path x [u "a"; u "b"] (JA l) /\ In (JO e) l /\ list_dict_consistency x = x.
Proof.
  exists (JO [(u "a", JA [JO [(u "b", JO [])]; JO [(u "b", JA [JS SNone; JO []])]])]), [], [JS SNone; JO []].
  split; [eapply at_list; [left; reflexivity|left; reflexivity|apply at_key; left; reflexivity]|]. split; [eapply at_list; [left; reflexivity|right; left; reflexivity|apply at_key; left; reflexivity]|]. split; [right; left; reflexivity|vm_compute; reflexivity].
Qed.
Print Assumptions C36_empty_first_refuted.
