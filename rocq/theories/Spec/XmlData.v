(** XML elements for nested data. *)
From Verif.Base Require Import PyStr PyNum PyVal PyDict Outcome.
From Verif.Model Require Import Flatten SortXml XmlOut.

Section Data.
  Variable E : xenv.
  Variable ns : nsmap.    (** the namespaces *)
  (** [name] with its prefix replaced by the namespace in braces (which are
      empty if the prefix is unknown) *)
  Inductive full_name : str -> str -> Prop :=
  | plain_name n : ~ In 58%N n -> full_name n n
  | prefixed_name p n x : ~ In 58%N p -> (sget p ns = Some x \/ sget p ns = None /\ x = []) -> full_name (p ++ 58%N :: n) (u "{" ++ x ++ u "}" ++ n).

  Definition at_sign : N := 64%N.
  (** the entries of a dict that become elements, in order: tag and content *)
  Definition element_entries (d : list (str * jv)) : list (str * jv) :=
    concat (map (fun kv : str * jv => match snd kv with JA l => map (fun y => (fst kv, y)) l | JO _ => [kv] | JS _ => [] end) d).
  (** [mirrors d tag e]: [e] has the given tag; its attributes are the entries
      "@name", its text is the entry "text()", its children are the other
      entries, in order (a list is one child after the other) *)
  Inductive mirrors : jv -> str -> xel -> Prop :=
  | mirror d tag tag' attrs text cs :
      full_name tag tag' ->
      NoDup (map fst attrs) ->
      (forall a v, In (a, v) attrs <-> exists k s, In (at_sign :: k, JS s) d /\ full_name k a /\ v = py_str (xe_env E) s) ->
      (forall t, text = Some t <-> exists s, In (u "text()", JS s) d /\ t = py_str (xe_env E) s /\ t <> []) ->
      Forall2 (fun kv c => mirrors (snd kv) (fst kv) c) (element_entries d) cs ->
      mirrors (JO d) tag (El tag' attrs text cs).

  (** [shaped x]: every "@name" and "text()" is a single value, everything else
      is an element or a list of elements; no namespace is declared; no two
      attributes of an element have the same name *)
  Inductive shaped : jv -> Prop :=
  | shape d : NoDup (map fst d) ->
      (forall k v, In (k, v) d ->
         (exists s, v = JS s /\ (k = u "text()" \/ exists a, k = at_sign :: a /\ startswith a (u "xmlns") = false)) \/
         (hd 0%N k <> at_sign /\ ((exists e, v = JO e) \/ (exists l, v = JA l /\ forall y, In y l -> exists e, y = JO e)))) ->
      (forall k k' v v' a, In (at_sign :: k, v) d -> In (at_sign :: k', v') d -> full_name k a -> full_name k' a -> k = k') ->
      (forall k x, In (k, x) (element_entries d) -> shaped x) ->
      shaped (JO d).
  (** [allowed tag x]: lxml accepts all the names and texts *)
  Inductive allowed : str -> jv -> Prop :=
  | allow tag d : (forall t, full_name tag t -> xe_tag E t = true) -> xe_nsmap E ns = true ->
      (forall k a s, In (at_sign :: k, JS s) d -> full_name k a -> xe_attr E a (py_str (xe_env E) s) = true) ->
      (forall s, In (u "text()", JS s) d -> xe_text E (py_str (xe_env E) s) = true) ->
      (forall k x, In (k, x) (element_entries d) -> allowed k x) ->
      allowed tag (JO d).
End Data.
