(** Writing XML.

    Modelled code: flattentool/xml_output.py, with lxml.  What lxml accepts as
    tag, attributes, namespaces and text is an oracle; the serialisation
    ([ET.tostring]) is not modelled: the result is the root element. *)
From Verif.Base Require Import PyStr PyNum PyVal PyDict Outcome.
From Verif.Model Require Import Warn Lib Flatten SortXml.
Local Open Scope res_scope.

Definition nsmap := list (str * str).
Record xenv := {
  xe_env : env;
  xe_list_str : list jv -> str;                                    (** str(list) *)
  xe_tag : str -> bool;                                            (** ET.Element accepts this tag, *)
  xe_attr : str -> str -> bool;                                    (** this attribute, *)
  xe_nsmap : nsmap -> bool;                                        (** these namespaces *)
  xe_text : str -> bool                                            (** [el.text = text] is accepted *)
}.
(** warnings: an element with this tag could not be created *)
Definition XR := res str.

(** [":" in s] *)
Definition has_colon (s : str) : bool := existsb (N.eqb 58) s.
(** [s.split(":", 1)] of a text with a colon *)
Fixpoint split_colon (s : str) : str * str :=
  match s with [] => ([], []) | c :: s' => if (c =? 58)%N then ([], s') else let '(a, b) := split_colon s' in (c :: a, b) end.
(** xml_output.py:60-67, 79-85: "prefix:name" to "{namespace}name" *)
Definition expand (ns : nsmap) (name : str) : str :=
  if has_colon name then
    let '(p, n) := split_colon name in
    u "{" ++ (match sget p ns with Some x => x | None => [] end) ++ u "}" ++ n
  else name.

(** state of the loop at xml_output.py:92-110 *)
Record xst := { xs_children : list xel; xs_attrib : list (str * str); xs_text : option str; xs_ns : nsmap }.

(** xml_output.py:53-72 child_to_xml for anything but a dict *)
Definition leaf_to_xml (tagname value : str) (st : xst) : XR xst :=
  if startswith tagname (u "@") then
    if startswith tagname (u "@xmlns") then
      (if has_colon (tl tagname)
       then ret {| xs_children := xs_children st; xs_attrib := xs_attrib st; xs_text := xs_text st;
                   xs_ns := sset (snd (split_colon (tl tagname))) value (xs_ns st) |}
       else Raise EIndexError [])
    else ret {| xs_children := xs_children st; xs_attrib := sset (expand (xs_ns st) (tl tagname)) value (xs_attrib st);
                xs_text := xs_text st; xs_ns := xs_ns st |}
  else if str_eqb tagname (u "text()") then
    ret {| xs_children := xs_children st; xs_attrib := xs_attrib st;
           xs_text := match value with [] => xs_text st | _ => Some value end; xs_ns := xs_ns st |}
  else Raise EFlattenToolError [].

(** xml_output.py:30-37 sort_attributes: attributes first, sorted by name.
    (A dict has each name once, so [sorted] never compares values.) *)
Fixpoint insert_key {A} (x : str * A) (l : list (str * A)) : list (str * A) :=
  match l with [] => [x] | y :: l' => if str_leb (fst x) (fst y) then x :: l else y :: insert_key x l' end.
Definition sort_keys {A} (l : list (str * A)) : list (str * A) := fold_right insert_key [] l.
Definition is_attr {A} (x : str * A) : bool := startswith (fst x) (u "@").
Definition sort_attributes {A} (l : list (str * A)) : list (str * A) :=
  sort_keys (filter is_attr l) ++ filter (fun x => negb (is_attr x)) l.

Fixpoint run_all {A} (l : list (str * (A -> XR A))) (st : A) : XR A :=
  match l with [] => ret st | (_, f) :: l' => st' <- f st ;; run_all l' st' end.
Definition add_child (o : option xel * nsmap) (st : xst) : xst :=
  {| xs_children := xs_children st ++ match fst o with Some e => [e] | None => [] end;
     xs_attrib := xs_attrib st; xs_text := xs_text st; xs_ns := snd o |}.

Section Xml.
  Variable E : xenv.
  (** xml_output.py:112-130: the element itself *)
  Definition make_element (tagname : str) (st : xst) : XR (option xel * nsmap) :=
    if xe_tag E tagname && forallb (fun kv => xe_attr E (fst kv) (snd kv)) (xs_attrib st) && xe_nsmap E (xs_ns st) then
      match xs_text st with
      | Some t => if xe_text E t then ret (Some (El tagname (xs_attrib st) (Some t) (xs_children st)), xs_ns st) else Raise EValueError []
      | None => ret (Some (El tagname (xs_attrib st) None (xs_children st)), xs_ns st)
      end
    else Ok (None, xs_ns st) [tagname].

  (** xml_output.py:40-52 and 76-110 dict_to_xml.  [nsmap] is one dict shared by
      all elements: it is threaded through.  The code sorts the items of a dict
      and then goes through them; here each item is first turned into what it
      will do to the state, which then happens in sorted order. *)
  Fixpoint dict_to_xml (x : jv) (tagname : str) (ns : nsmap) {struct x} : XR (option xel * nsmap) :=
    match x with
    | JO d =>
      st <- run_all (sort_attributes (map (fun kv : str * jv =>
              let '(k, v) := kv in
              (k, fun st : xst =>
                    match v with
                    | JA l => (fix items (l : list jv) (st : xst) : XR xst :=
                                 match l with
                                 | [] => ret st
                                 | y :: l' =>
                                   st' <- (match y with
                                           | JO _ => o <- dict_to_xml y k (xs_ns st) ;; ret (add_child o st)
                                           | JS s => leaf_to_xml k (py_str (xe_env E) s) st
                                           | JA ll => leaf_to_xml k (xe_list_str E ll) st
                                           end) ;;
                                   items l' st'
                                 end) l st
                    | JO _ => o <- dict_to_xml v k (xs_ns st) ;; ret (add_child o st)
                    | JS s => leaf_to_xml k (py_str (xe_env E) s) st
                    end)) d)) {| xs_children := []; xs_attrib := []; xs_text := None; xs_ns := ns |} ;;
      make_element (if startswith tagname (u "@xmlns") then tagname else expand ns tagname) st
    | _ => Raise EAttributeError []      (* no .items() *)
    end.

  (** xml_output.py:132-160 toxml: the root element and its comment (inserted
      before the other children).  [schema]: what [create_schema_dict] gives,
      if there are schemas. *)
  Definition toxml (data : jv) (xml_root_tag : str) (schema : option (res warning sdict)) (xml_comment : option str) : XR (xel * str) :=
    o <- dict_to_xml data xml_root_tag [(u "xml", u "http://www.w3.org/XML/1998/namespace")] ;;
    let comment := match xml_comment with Some c => c | None => u "XML generated by flatten-tool" end in
    match schema with
    | Some (Raise e _) => Raise e []
    | Some (Ok d _) =>
      match fst o with
      | Some (El t a x cs) => ret (El t a x (map (fun c => sort_element c d) cs), comment)
      | None => Raise ETypeError []
      end
    | None => match fst o with Some r => ret (r, comment) | None => Raise EAttributeError [] end
    end.
End Xml.
