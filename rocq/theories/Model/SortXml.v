(** XML elements and sorting them by a schema.

    Modelled code: flattentool/sort_xml.py.  Elements are those of lxml, with
    attributes, text and children; tail texts do not occur in what is sorted
    (xml_output.py creates none) and are not used in schemas.  Comments and
    processing instructions in schemas are left out (no [find] returns them). *)
From Verif.Base Require Import PyStr PyNum PyVal PyDict Outcome.
From Verif.Model Require Import Warn Lib.
Local Open Scope res_scope.

Inductive xel := El (tag : str) (attrib : list (str * str)) (text : option str) (children : list xel).
Definition x_tag (e : xel) : str := let 'El t _ _ _ := e in t.
Definition x_attrib (e : xel) : list (str * str) := let 'El _ a _ _ := e in a.
Definition x_text (e : xel) : option str := let 'El _ _ t _ := e in t.
Definition x_children (e : xel) : list xel := let 'El _ _ _ c := e in c.

(** the nested OrderedDict of sort_xml.py:134-149 *)
Inductive sdict := SD (entries : list (str * sdict)).
Definition sd_entries (d : sdict) : list (str * sdict) := let 'SD l := d in l.
Definition sd_keys (d : sdict) : list str := map fst (sd_entries d).

(** [keys.index(tag)] *)
Fixpoint index_of (t : str) (l : list str) : option nat :=
  match l with [] => None | k :: l' => if str_eqb t k then Some 0%nat else match index_of t l' with Some n => Some (S n) | None => None end end.
(** sort_xml.py:161-165 index_key *)
Definition index_key (keys : list str) (t : str) : nat := match index_of t keys with Some n => n | None => (length keys + 1)%nat end.
(** [sorted(children, key=index_key)]: a stable sort *)
Section Sorted.
  Context {A : Type} (key : A -> nat).
  Fixpoint insert_by (x : A) (l : list A) : list A :=
    match l with [] => [x] | y :: l' => if (key x <=? key y)%nat then x :: l else y :: insert_by x l' end.
  Definition sort_by (l : list A) : list A := fold_right insert_by [] l.
End Sorted.
(** [schema_subdict.get(child.tag, {})] *)
Definition sd_get (d : sdict) (t : str) : sdict := match sget t (sd_entries d) with Some d' => d' | None => SD [] end.
(** sort_xml.py:152-170 sort_element.  The code sorts the children and then
    sorts inside each; here it is the other way round, which is the same as the
    key of a child is its tag. *)
Fixpoint sort_element (e : xel) (d : sdict) : xel :=
  match e with
  | El t a x cs => El t a x (sort_by (fun c => index_key (sd_keys d) (x_tag c)) (map (fun c => sort_element c (sd_get d (x_tag c))) cs))
  end.

(** ** Reading the order from XML schemas.
    Names of schema elements are written with the prefix xsd:. *)
(** [element.findall("a/b/c")] *)
Fixpoint findall (path : list str) (e : xel) : list xel :=
  match path with
  | [] => [e]
  | t :: path' => flat_map (findall path') (filter (fun c => str_eqb (x_tag c) t) (x_children e))
  end.
(** [element.find(...)] *)
Definition find (path : list str) (e : xel) : option xel := hd_error (findall path e).
Definition attr (k : str) (e : xel) : option str := sget k (x_attrib e).
(** sort_xml.py:65-82 get_schema_element; [trees]: the root elements *)
Fixpoint get_schema_element (trees : list xel) (tag name : str) : option xel :=
  match trees with
  | [] => None
  | t :: trees' =>
    match hd_error (filter (fun c => str_eqb (x_tag c) (u "xsd:" ++ tag) && match attr (u "name") c with Some n => str_eqb n name | None => false end) (x_children t)) with
    | Some e => Some e
    | None => get_schema_element trees' tag name
    end
  end.
(** sort_xml.py:84-99 handle_complexType.  [if extension:] is false for an
    element without children.  Without a "base" attribute no type is found
    (no type is called "None", it is assumed), and then [findall] fails.
    [n] bounds the depth; beyond it there is a RecursionError. *)
Fixpoint handle_complexType (trees : list xel) (n : nat) (ct : option xel) : R (list xel) :=
  match n, ct with
  | 0%nat, _ => Raise EOther []
  | S _, None => ret []
  | S n', Some ct =>
    let own (c : xel) := findall [u "xsd:choice"; u "xsd:element"] c ++ findall [u "xsd:sequence"; u "xsd:element"] c in
    match find [u "xsd:complexContent"; u "xsd:extension"] ct with
    | Some (El _ a _ (_ :: _)) =>
      let base := match sget (u "base") a with Some b => get_schema_element trees (u "complexType") b | None => None end in
      l <- handle_complexType trees n' base ;;
      match base with Some b => ret (l ++ own b) | None => Raise EAttributeError [] end
    | _ => ret (own ct)
    end
  end.
(** sort_xml.py:101-132 element_loop: names of the children with their
    declarations (None: declared elsewhere) *)
Fixpoint child_tuples (l : list xel) : R (list (str * option xel)) :=
  match l with
  | [] => ret []
  | c :: l' =>
    x <- (match attr (u "name") c with
          | Some n => ret (n, Some c)
          | None => match attr (u "ref") c with Some r => ret (r, None) | None => Raise EKeyError [] end
          end) ;;
    r <- child_tuples l' ;; ret (x :: r)
  end.
Definition element_loop (trees : list xel) (n : nat) (e : xel) : R (list (str * option xel)) :=
  types <- (match attr (u "type") e with
            | Some t => handle_complexType trees n (get_schema_element trees (u "complexType") t)
            | None => ret []
            end) ;;
  child_tuples (findall [u "xsd:complexType"; u "xsd:choice"; u "xsd:element"] e ++
                findall [u "xsd:complexType"; u "xsd:sequence"; u "xsd:element"] e ++
                findall [u "xsd:complexType"; u "xsd:all"; u "xsd:element"] e ++ types).
(** [OrderedDict([...])] *)
Definition make_sdict (l : list (str * sdict)) : sdict := SD (fold_left (fun d kv => sset (fst kv) (snd kv) d) l []).
(** sort_xml.py:134-149 create_schema_dict *)
Fixpoint create_schema_dict (trees : list xel) (n : nat) (name : str) (parent : option xel) : R sdict :=
  match n with
  | 0%nat => Raise EOther []
  | S n' =>
    match (match parent with Some e => Some e | None => get_schema_element trees (u "element") name end) with
    | None => ret (SD [])
    | Some e =>
      ts <- element_loop trees n' e ;;
      l <- (fix go (ts : list (str * option xel)) : R (list (str * sdict)) :=
              match ts with
              | [] => ret []
              | (k, c) :: ts' => d <- create_schema_dict trees n' k c ;; r <- go ts' ;; ret ((k, d) :: r)
              end) ts ;;
      ret (make_sdict l)
    end
  end.
