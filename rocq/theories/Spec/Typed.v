(** Documents that agree with a schema: what values a type of the schema is for. *)
From Verif.Base Require Import PyStr PyNum PyVal PyDict Outcome.
From Verif.Model Require Import Convert Input Flatten.
From Verif.Spec Require Import Paths Headings RoundTrip.

(** numbers: whole numbers and decimals, not infinite *)
Definition finite (s : scalar) : Prop := match s with SInt _ | SDec (DFin _ _ _) => True | _ => False end.
(** texts without the characters that separate the items of an array in a cell *)
Definition no_separator (t : str) : Prop := ~ In 59%N t /\ ~ In 44%N t.
Definition text (t : str) : jv := JS (SStr t).

(** the values of a type.  An array of arrays has an item with more than one
    element (in a cell, items are separated by ";" and elements by ",": without a
    comma there is no telling ["a"] from "a") *)
Inductive of_type : str -> jv -> Prop :=
| of_text ty t : In ty [[]; u "string"; u "date"] -> t <> [] -> of_type ty (text t)
| of_integer z : of_type (u "integer") (JS (SInt z))
| of_number s : finite s -> of_type (u "number") (JS s)
| of_boolean b : of_type (u "boolean") (JS (SBool b))
| of_texts ty l : In ty [u "string_array"; u "array_array"] -> l <> [] -> l <> [[]] -> Forall no_separator l -> of_type ty (JA (map text l))
| of_numbers l : l <> [] -> Forall finite l -> of_type (u "number_array") (JA (map JS l))
| of_rows ty L : In ty [u "string_array"; u "array_array"] -> Forall (fun l => l <> [] /\ Forall no_separator l) L ->
    (exists a b c l, In l L /\ l = a :: b :: c) -> of_type ty (JA (map (fun l => JA (map text l)) L))
| of_number_rows L : Forall (fun l => l <> [] /\ Forall finite l) L ->
    (exists a b c l, In l L /\ l = a :: b :: c) -> of_type (u "number_array") (JA (map (fun l => JA (map JS l)) L)).

(** the type of the schema for a place: by its field names *)
Definition type_at (types : str -> str) (Q : jpath) : str := types (path_text (heading_path Q)).
(** every field of the document has the type of the schema *)
Definition has_types (types : str -> str) (d : jobj) : Prop :=
  forall Q k y, at_path (JO d) (Q ++ [(k, None)]) = Some y ->
    let ty := type_at types (Q ++ [(k, None)]) in
    match y with
    | JO _ => ty = [] \/ ty = u "object"
    | JS _ => of_type ty y
    | JA l => if forallb (fun x => match x with JO _ => true | _ => false end) l then ty = [] \/ ty = u "array" else of_type ty y
    end.

(** the cell of a value of type [ty], written for [c], is read as [w]: as it was
    put there, as its text, or (numbers) as an equal float *)
Definition cell_gives (E : env) (ty : str) (c w : scalar) : Prop :=
  w = c \/ w = SStr (py_str E c) \/ exists f, w = SFlt f /\ py_eqb c w = true /\ (ty = u "number" \/ ty = u "integer").
