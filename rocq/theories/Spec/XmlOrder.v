(** The order of XML elements given by a schema. *)
From Coq Require Import Sorted Permutation.
From Verif.Base Require Import PyStr PyNum PyVal PyDict Outcome.
From Verif.Model Require Import SortXml.

(** the tag [t] is listed in [d], with [d'] for the elements inside *)
Definition listed (d : sdict) (t : str) (d' : sdict) : Prop := In (t, d') (sd_entries d).
Definition unlisted (d : sdict) (t : str) : Prop := ~ In t (map fst (sd_entries d)).
(** [d] requires the tag [a] to come before the tag [b]: it is listed first, or
    the only one listed *)
Definition comes_before (d : sdict) (a b : str) : Prop :=
  (exists l1 l2 l3, map fst (sd_entries d) = l1 ++ a :: l2 ++ b :: l3) \/ (In a (map fst (sd_entries d)) /\ unlisted d b).
(** the order for the elements inside an element with the tag [t] *)
Inductive inside (d : sdict) (t : str) : sdict -> Prop :=
| inside_listed d' : listed d t d' -> inside d t d'
| inside_unlisted : unlisted d t -> inside d t (SD []).

(** [sorted_as d e e']: [e'] is [e] sorted by [d].  [l] are the children of [e]
    in their new order, each with what has become of it: they are all of the
    children, sorted; those with the same tag are in their old order, as
    are those with unlisted tags; and each is sorted itself. *)
Inductive sorted_as : sdict -> xel -> xel -> Prop :=
| sorted_el d tag attrib text cs (l : list (xel * xel)) :
    Permutation cs (map fst l) ->
    StronglySorted (fun a b => ~ comes_before d (x_tag b) (x_tag a)) (map fst l) ->
    (forall t, filter (fun c => str_eqb (x_tag c) t) (map fst l) = filter (fun c => str_eqb (x_tag c) t) cs) ->
    filter (fun c => negb (str_mem (x_tag c) (map fst (sd_entries d)))) (map fst l) = filter (fun c => negb (str_mem (x_tag c) (map fst (sd_entries d)))) cs ->
    (forall c c', In (c, c') l -> exists d', inside d (x_tag c) d' /\ sorted_as d' c c') ->
    sorted_as d (El tag attrib text cs) (El tag attrib text (map snd l)).
(** a schema order: no tag is listed twice, at any level *)
Inductive proper : sdict -> Prop :=
| proper_sd l : NoDup (map fst l) -> (forall t d, In (t, d) l -> proper d) -> proper (SD l).

(** ** What a schema says *)
Section Schema.
  Variable trees : list xel.     (** the schemas, in order *)
  Definition called (tag name : str) (e : xel) : Prop := x_tag e = u "xsd:" ++ tag /\ sget (u "name") (x_attrib e) = Some name.
  (** the first definition of the given kind and name at the top level of a schema *)
  Definition defined (tag name : str) (o : option xel) : Prop :=
    match o with
    | Some e => exists ts t ts' l l', trees = ts ++ t :: ts' /\ x_children t = l ++ e :: l' /\ called tag name e /\
        (forall c, In c l -> ~ called tag name c) /\ (forall t' c, In t' ts -> In c (x_children t') -> ~ called tag name c)
    | None => forall t c, In t trees -> In c (x_children t) -> ~ called tag name c
    end.
  (** the elements inside the groups with the given tag in [e] *)
  Definition group (tag : str) (e : xel) : list xel :=
    concat (map (fun g => filter (fun c => str_eqb (x_tag c) (u "xsd:element")) (x_children g)) (filter (fun c => str_eqb (x_tag c) tag) (x_children e))).
  Definition all_groups (tag : str) (l : list xel) : list xel := concat (map (group tag) l).
  Definition complex_types (e : xel) : list xel := filter (fun c => str_eqb (x_tag c) (u "xsd:complexType")) (x_children e).
  (** the declarations of the children of an element, in order: those of its own
      complexType (choice, sequence, all), then those of its named type *)
  Definition declares (e : xel) (cs : list xel) : Prop :=
    exists ct, (match sget (u "type") (x_attrib e) with Some t => defined (u "complexType") t ct | None => ct = None end) /\
      cs = all_groups (u "xsd:choice") (complex_types e) ++ all_groups (u "xsd:sequence") (complex_types e) ++ all_groups (u "xsd:all") (complex_types e) ++
           match ct with Some t => group (u "xsd:choice") t ++ group (u "xsd:sequence") t | None => [] end.
  (** a declaration gives the name of the element, or refers to one *)
  Inductive declared : xel -> str -> option xel -> Prop :=
  | declared_here c n : sget (u "name") (x_attrib c) = Some n -> declared c n (Some c)
  | declared_there c n o : sget (u "name") (x_attrib c) = None -> sget (u "ref") (x_attrib c) = Some n -> defined (u "element") n o -> declared c n o.
  (** each key once, where it comes first, with its last value *)
  Fixpoint firsts (l : list str) : list str := match l with [] => [] | x :: l' => x :: filter (fun y => negb (str_eqb x y)) (firsts l') end.
  Definition collects (l d : list (str * sdict)) : Prop := map fst d = firsts (map fst l) /\ forall k, sget k d = sget k (rev l).
  (** [describes e d]: [d] has the children of [e], recursively *)
  Inductive describes : option xel -> sdict -> Prop :=
  | describes_nothing : describes None (SD [])
  | describes_element e cs l d : declares e cs ->
      Forall2 (fun c kd => exists o, declared c (fst kd) o /\ describes o (snd kd)) cs l -> collects l d -> describes (Some e) (SD d).
  Definition no_extensions : Prop := forall t ct, In t trees -> In ct (x_children t) -> x_tag ct = u "xsd:complexType" ->
    forall cc, In cc (x_children ct) -> x_tag cc <> u "xsd:complexContent".
End Schema.
