(** Repeated tags in XML documents (as dicts). *)
From Verif.Base Require Import PyStr PyNum PyVal PyDict Outcome.
From Verif.Model Require Import Flatten.

(** [at_path x p v]: [v] is the value of an element with the tag path [p] in [x] *)
Inductive at_path : jv -> list str -> jv -> Prop :=
| at_key d k v : In (k, v) d -> at_path (JO d) [k] v
| at_dict d k e p v : In (k, JO e) d -> at_path (JO e) p v -> at_path (JO d) (k :: p) v
| at_list d k l e p v : In (k, JA l) d -> In (JO e) l -> at_path (JO e) p v -> at_path (JO d) (k :: p) v.
(** a list of elements, the first of which is not empty and not just text *)
Definition elements (v : jv) : Prop := exists e l, v = JA (JO e :: l).
(** [repeated x p]: somewhere in [x] there is such a list at [p], inside nothing
    but elements and such lists *)
Inductive repeated : jv -> list str -> Prop :=
| rep_key d k v : In (k, v) d -> elements v -> repeated (JO d) [k]
| rep_dict d k e p : In (k, JO e) d -> repeated (JO e) p -> repeated (JO d) (k :: p)
| rep_list d k l e p : In (k, JA l) d -> elements (JA l) -> In (JO e) l -> repeated (JO e) p -> repeated (JO d) (k :: p).

(** [relisted rep p x x']: [x'] is [x] with the elements at the paths [rep]
    replaced by lists of one element, and no other change; [p] is the path of [x] *)
Inductive relisted (rep : list str -> Prop) : list str -> jv -> jv -> Prop :=
| rl_dict p d d' : Forall2 (fun kv kv' => fst kv = fst kv' /\ relisted_value rep (p ++ [fst kv]) (snd kv) (snd kv')) d d' -> relisted rep p (JO d) (JO d')
| rl_other p x : (forall d, x <> JO d) -> relisted rep p x x
with relisted_value (rep : list str -> Prop) : list str -> jv -> jv -> Prop :=
| rv_scalar p s : relisted_value rep p (JS s) (JS s)
| rv_list p l l' : Forall2 (relisted rep p) l l' -> relisted_value rep p (JA l) (JA l')
| rv_one p e x' : rep p -> relisted rep p (JO e) x' -> relisted_value rep p (JO e) (JA [x'])
| rv_dict p e x' : ~ rep p -> relisted rep p (JO e) x' -> relisted_value rep p (JO e) x'.
