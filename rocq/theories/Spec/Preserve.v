(** Requests for preserved fields, as paths of keys. *)
From Verif.Base Require Import PyStr.
From Verif.Spec Require Import Paths.

(** a request: the keys from the record down to the field; array positions are not mentioned *)
Definition request := list str.
Definition request_ok (r : request) : Prop := r <> [] /\ Forall (fun k => k <> [] /\ key_ok k) r.
(** the file has one request per line, keys separated by "/" *)
Definition written (line : str) (r : request) : Prop := strip is_ws line = join (u "/") r.
(** a path was asked for: it is requested, or is the object around a requested field *)
Definition asked (R : list request) (ks : list str) : Prop := exists r, In r R /\ (r = ks \/ exists x, r = ks ++ [x]).
(** the keys on the way to a place *)
Definition keys_of (Q : jpath) : list str := map fst Q.
(** keys that do not look like an array position when written after a "/" *)
Definition not_zero (k : str) : Prop := match k with c :: _ => c <> 48%N | [] => True end.
Definition keys_ok (Q : jpath) : Prop := Forall (fun k => key_ok k /\ not_zero k) (keys_of Q).
(** the text of the path of an object *)
Definition slashed (ks : list str) : str := flat_map (fun k => k ++ u "/") ks.
