(** Identifiers in the output: which objects of an output array have equal ids. *)
From Coq Require Import QArith.
From Verif.Base Require Import PyStr PyNum PyVal PyDict.
From Verif.Model Require Import Input.

(** the id of an output object: its [id_name] field (for XML data the text of
    that element) *)
Definition vid (xml : bool) (id_name : str) (d : vdict) : option scalar :=
  match sget id_name d with
  | Some (VLeaf (CV s)) => Some s
  | Some (VDict e) => if xml then match sget text_key e with Some (VLeaf (CV s)) => Some s | _ => None end else None
  | _ => None
  end.
Definition same_id (xml : bool) (id_name : str) (a b : vdict) : Prop :=
  exists x y, vid xml id_name a = Some x /\ vid xml id_name b = Some y /\ py_eqb x y = true.
(** no two objects (at different positions) have equal ids *)
Definition ids_differ (xml : bool) (id_name : str) (l : list vdict) : Prop :=
  forall a x b y c, l = a ++ x :: b ++ y :: c -> ~ same_id xml id_name x y.

(** [inside n m]: [n] occurs in [m], at any depth *)
Inductive inside (n : vnode) : vnode -> Prop :=
| in_here : inside n n
| in_dict k m d : In (k, m) d -> inside n m -> inside n (VDict d)
| in_list k m d l : In d l -> In (k, m) d -> inside n m -> inside n (VList l).

(** ** Identifiers of objects under construction *)
(** the id of an object: the value of its [id_name] field (for XML the text of
    that element) *)
Definition id_of (xml : bool) (id_name : str) (d : tdict) : option scalar :=
  match sget id_name d with
  | Some (TCell c) => match c_val c with CV s => Some s | _ => None end
  | Some (TDict e) =>
    if xml then match sget text_key e with
                | Some (TCell c) => match c_val c with CV s => Some s | _ => None end
                | _ => None
                end
    else None
  | _ => None
  end.

(** a canonical form of ids: Python-equal values (1, True, 1.0) get the same one *)
Inductive kid := KNum (q : Q) | KInf (neg : bool) | KNan | KOther (s : scalar).
Definition kid_of (s : scalar) : kid :=
  match num_val s with
  | Some (XFin q) => KNum (Qred q)
  | Some (XInf b) => KInf b
  | Some XNan => KNan
  | None => KOther s
  end.
