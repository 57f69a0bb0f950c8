(** XML documents read with xmltodict: tags that are repeated somewhere.

    Modelled code: flattentool/json_input.py:79-115.  Parsing with xmltodict is
    not modelled: a document is the dict it gives. *)
From Verif.Base Require Import PyStr PyNum PyVal PyDict Outcome.
From Verif.Model Require Import Flatten.

(** json_input.py:79-88 lists_of_dicts_paths, as a list *)
Fixpoint lists_of_dicts_paths (x : jv) : list (list str) :=
  match x with
  | JO d =>
    flat_map (fun kv : str * jv =>
      let '(key, value) := kv in
      match value with
      | JA l => match l with JO _ :: _ => [key] :: map (cons key) (flat_map lists_of_dicts_paths l) | _ => [] end
      | JO _ => map (cons key) (lists_of_dicts_paths value)
      | _ => []
      end) d
  | _ => []
  end.

Fixpoint path_eqb (p q : list str) : bool :=
  match p, q with
  | [], [] => true
  | a :: p', b :: q' => str_eqb a b && path_eqb p' q'
  | _, _ => false
  end.
(** json_input.py:91-102 dicts_to_list_of_dicts (in place in the code; inside a
    value first, then the value itself) *)
Fixpoint dicts_to_list_of_dicts (paths : list (list str)) (x : jv) (path : list str) : jv :=
  match x with
  | JO d =>
    JO (map (fun kv : str * jv =>
      let '(key, value) := kv in
      (key, match value with
            | JA l => JA (map (fun y => match y with JO _ => dicts_to_list_of_dicts paths y (path ++ [key]) | _ => y end) l)
            | JO _ => let value' := dicts_to_list_of_dicts paths value (path ++ [key]) in
                      if existsb (path_eqb (path ++ [key])) paths then JA [value'] else value'
            | _ => value
            end)) d)
  | _ => x
  end.
(** json_input.py:105-115 list_dict_consistency *)
Definition list_dict_consistency (x : jv) : jv := dicts_to_list_of_dicts (lists_of_dicts_paths x) x [].
