(** From JSON text to JSON text (C66): what a text says, as [flatten] reads it; when
    two texts say the same. *)
From Coq Require Import QArith.
From Verif.Base Require Import PyStr PyNum PyVal PyDict.
From Verif.Model Require Import Flatten Commands JsonText.
From Verif.Spec Require Import Commands JsonGrammar.
Local Open Scope list_scope.

(** ijson: whole numbers are ints, others Decimals *)
Fixpoint data_of (v : jval) : jv :=
  match v with
  | VNull => JS SNone
  | VBool b => JS (SBool b)
  | VInt z => JS (SInt z)
  | VReal neg c e => JS (SDec (DFin neg c e))
  | VOdd s => JS (SFlt FNan)   (* not JSON *)
  | VStr s => JS (SStr s)
  | VArr l => JA (map data_of l)
  | VObj d => JO (map (fun kx => (fst kx, data_of (snd kx))) d)
  end.
(** the code points of a text; half a surrogate pair is none *)
Definition no_half (s : str) : Prop := Forall (fun c => (c < 55296 \/ 57343 < c)%N) s.
Inductive no_halves : jval -> Prop :=
| nh_str s : no_half s -> no_halves (VStr s)
| nh_array l : Forall no_halves l -> no_halves (VArr l)
| nh_object d : Forall (fun kx => no_half (fst kx) /\ no_halves (snd kx)) d -> no_halves (VObj d)
| nh_other v : match v with VStr _ | VArr _ | VObj _ => False | _ => True end -> no_halves v.
(** a file has this text: if it is JSON, [flatten] gets what it says *)
Definition file_has (Wd : world) (file t : str) : Prop :=
  forall v, document_says false t v -> keys_once v -> no_halves v -> wd_json Wd file = inr (data_of v).
(** the JSON text that a run of [unflatten] writes *)
Definition text_out (T : tenv) (w : list event) (file : option str) (t : str) : Prop :=
  exists j, json_written w file j /\ t = json_text T j.

(** ** The same values *)
Definition quantity (v : jval) : option Q :=
  match v with
  | VInt z => Some (inject_Z z)
  | VReal neg c e => Some (inject_Z (signed neg c) * Qpower (10 # 1) e)%Q
  | _ => None
  end.
Definition same_number (a b : jval) : Prop := exists p q, quantity a = Some p /\ quantity b = Some q /\ (p == q)%Q.
(** same texts, truth values and numbers; same keys, in any order; arrays [arranged]
    alike *)
Inductive same_data (arranged : list jval -> list jval -> Prop) : jval -> jval -> Prop :=
| sd_str s : same_data arranged (VStr s) (VStr s)
| sd_bool b : same_data arranged (VBool b) (VBool b)
| sd_number a b : same_number a b -> same_data arranged a b
| sd_array l l' m : arranged l l' -> Forall2 (same_data arranged) l' m -> same_data arranged (VArr l) (VArr m)
| sd_object o e : NoDup (map fst e) -> (forall k, In k (map fst o) <-> In k (map fst e)) ->
    (forall k x y, sget k o = Some x -> sget k e = Some y -> same_data arranged x y) -> same_data arranged (VObj o) (VObj e).

(** ** Doubles *)
(** a double [f] for a number: the one for a Decimal that is this number, if it is
    not whole, or the number itself *)
Definition double_for (T : tenv) (v : jval) (f : flt) : Prop :=
  exists q, quantity v = Some q /\
    ((exists d p, f = te_double T d /\ num_val (SDec d) = Some (XFin p) /\ (p == q)%Q /\ (forall z, ~ (q == inject_Z z)%Q)) \/
     (exists p, num_val (SFlt f) = Some (XFin p) /\ (p == q)%Q)).
(** the digits of a number are kept: the shortest digits of its double are the
    number (with doubles as Python has them: numbers of at most 15 digits, not too
    big or small) *)
Definition digits_kept (T : tenv) (v : jval) : Prop :=
  forall f, double_for T v f -> exists n m x b, f = FFin n m x /\ number_says (float_str (te_env T) f) b /\ same_number v b.
Inductive value_in (x : jval) : jval -> Prop :=
| vi_here : value_in x x
| vi_array l y : In y l -> value_in x y -> value_in x (VArr l)
| vi_object d k y : In (k, y) d -> value_in x y -> value_in x (VObj d).
Definition all_digits_kept (T : tenv) (v : jval) : Prop := forall x, value_in x v -> digits_kept T x.

(** ** Places *)
Fixpoint value_at (v : jval) (ks : list str) : option jval :=
  match ks with
  | [] => Some v
  | k :: ks' => match v with VObj d => match sget k d with Some x => value_at x ks' | None => None end | _ => None end
  end.
