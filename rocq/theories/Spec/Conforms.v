(** Documents that conform to a JSON schema. *)
From Verif.Base Require Import PyStr PyNum PyVal PyDict Outcome.
From Verif.Model Require Import Flatten Schema.
From Verif.Spec Require Import Headings SchemaFields Typed.

(** values that need no schema: texts, and objects and arrays of objects of these *)
Inductive free : jv -> Prop :=
| free_text t : t <> [] -> free (text t)
| free_object d : (forall k y, In (k, y) d -> field_name k /\ ~ In 47%N k /\ free y) -> free (JO d)
| free_array l : (forall x, In x l -> exists d, x = JO d /\ free x) -> free (JA l).

(** [valid O S d]: each field of the object [d] has a value that the schema allows for
    the property; a field for which the schema has no property has a value that needs
    no schema *)
Inductive valid (O : sopts) : sv -> jobj -> Prop :=
| valid_object S d :
    (forall k y, In (k, y) d ->
       (exists v, property O S k v /\ valid_value O v y) \/
       ((forall v, ~ property O S k v) /\ field_name k /\ ~ In 47%N k /\ free y)) -> valid O S d
(** [valid_value O v y]: [y] is a value for a property with schema [v] *)
with valid_value (O : sopts) : sv -> jv -> Prop :=
| value_leaf v ty y : leaf O v ty -> of_type ty y -> valid_value O v y
| value_object v d : an_object O v -> valid O v d -> valid_value O v (JO d)
| value_objects v i l : objects v i -> (forall x, In x l -> exists d, x = JO d /\ valid O i d) -> valid_value O v (JA l).

(** a schema whose fields can be told apart: field names without slashes, no key twice
    in an object, no alternatives for the records *)
Definition plain_schema (O : sopts) (S : sv) : Prop :=
  plain_names O S /\ keys_once O S /\ forall o, ~ alternatives S o.
(** the property [n] of the objects with schema [T] is not of one of these types *)
Definition not_typed (O : sopts) (T : sv) (n : str) (ts : list str) : Prop :=
  forall v ty, property O T n v -> leaf O v ty -> ~ In ty ts.
