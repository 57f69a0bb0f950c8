(** What a typed cell means: the specification of conversion. *)
From Verif.Base Require Import PyStr PyNum PyVal Outcome.
From Verif.Model Require Import Warn.
From Coq Require Import QArith.

(** the types the schema parser assigns to columns that hold values (schema.py:
    283-319, 435-457) plus "" (no schema, or an unknown column); "geojson" is
    treated separately, "object" columns are never converted *)
Definition value_types : list str :=
  [u ""; u "string"; u "date"; u "number"; u "integer"; u "boolean"; u "array"; u "string_array"; u "number_array"; u "array_array"].
Definition array_types : list str := [u "array"; u "string_array"; u "array_array"].

(** neither an infinity nor a NaN float *)
Definition ordinary (s : scalar) : Prop :=
  match s with SFlt (FInf _) | SFlt FNan | SDec (DInf _) => False | _ => True end.

(** [z] is [q] truncated towards zero *)
Definition truncates (q : Q) (z : Z) : Prop :=
  (0 <= q -> inject_Z z <= q /\ q < inject_Z z + 1)%Q /\ (q <= 0 -> q <= inject_Z z /\ inject_Z z - 1 < q)%Q.

(** [d] is the number cell [s] stands for *)
Definition reads_decimal (s : scalar) (d : dec) : Prop :=
  match s with
  | SStr t => parse_dec t = Some d
  | _ => match num_val s, num_val (SDec d) with
         | Some (XFin p), Some (XFin q) => (p == q)%Q
         | Some (XInf m), Some (XInf n) => m = n
         | Some XNan, Some XNan => True
         | _, _ => False
         end
  end.
Definition reads_integer (s : scalar) (z : Z) : Prop :=
  match s with
  | SStr t => parse_int t = Some z
  | _ => match num_val s with Some (XFin q) => truncates q z | _ => False end
  end.
Definition says_true (t : str) : Prop := lower t = u "true" \/ t = u "1".
Definition says_false (t : str) : Prop := lower t = u "false" \/ t = u "0".

Definition sep_items : N := 59.   (* ; *)
Definition sep_inner : N := 44.   (* , *)
(** [l] are the pieces of [t] between semicolons; [t] has no commas *)
Definition pieces (t : str) (l : list str) : Prop :=
  ~ In sep_inner t /\ l <> [] /\ join [sep_items] l = t /\ (forall x, In x l -> ~ In sep_items x).
(** the same with commas inside *)
Definition pieces2 (t : str) (l : list (list str)) : Prop :=
  In sep_inner t /\ l <> [] /\ join [sep_items] (map (join [sep_inner]) l) = t /\
  (forall xs, In xs l -> xs <> [] /\ forall x, In x xs -> ~ In sep_items x /\ ~ In sep_inner x).
Inductive splits (t : str) : cellval -> Prop :=
| splits1 l : pieces t l -> splits t (CList (map SStr l))
| splits2 l : pieces2 t l -> splits t (CList2 (map (map SStr) l)).
Inductive splits_numbers (t : str) : cellval -> Prop :=
| splitsn1 l ds : pieces t l -> Forall2 (fun x d => parse_dec x = Some d) l ds -> splits_numbers t (CList (map SDec ds))
| splitsn2 l ds : pieces2 t l -> Forall2 (Forall2 (fun x d => parse_dec x = Some d)) l ds -> splits_numbers t (CList2 (map (map SDec) ds)).

(** [denotes E ty s r]: [r] is what cell [s] says in a column of type [ty] *)
Inductive denotes (E : env) : str -> scalar -> cellval -> Prop :=
| den_moment d ty : In ty [u ""; u "string"] -> denotes E ty (SDt d) (CV (SStr (dt_local_iso E d)))
| den_date d : denotes E (u "date") (SDt d) (CV (SStr (dt_date_iso E d)))
| den_text s ty : In ty [u "string"; u "date"] -> (forall d, s <> SDt d) -> denotes E ty s (CV (SStr (py_str E s)))
| den_int z : denotes E (u "") (SInt z) (CV (SInt z))
| den_whole f z : py_eqb (SInt z) (SFlt f) = true -> denotes E (u "") (SFlt f) (CV (SInt z))
| den_other s : (forall d, s <> SDt d) -> (forall z, s <> SInt z) ->
    (forall f, s = SFlt f -> forall z, py_eqb (SInt z) s = false) -> denotes E (u "") s (CV (SStr (py_str E s)))
| den_number s d : reads_decimal s d -> denotes E (u "number") s (CV (SDec d))
| den_integer s z : reads_integer s z -> denotes E (u "integer") s (CV (SInt z))
| den_true s : says_true (py_str E s) -> denotes E (u "boolean") s (CV (SBool true))
| den_false s : says_false (py_str E s) -> denotes E (u "boolean") s (CV (SBool false))
| den_array s ty r : In ty array_types -> splits (py_str E s) r -> denotes E ty s r
| den_number_array s r : splits_numbers (py_str E s) r -> denotes E (u "number_array") s r.

(** the text kept, with a warning, when the cell does not say a value of the type *)
Inductive kept_as_text (E : env) : str -> scalar -> cellval -> warning -> Prop :=
| kept_number s : (forall d, ~ reads_decimal s d) -> kept_as_text E (u "number") s (CV (SStr (py_str E s))) (WNonNumeric (CV s))
| kept_integer s : (forall z, ~ reads_integer s z) -> kept_as_text E (u "integer") s (CV (SStr (py_str E s))) (WNonInteger (CV s))
| kept_boolean s : ~ says_true (py_str E s) -> ~ says_false (py_str E s) ->
    kept_as_text E (u "boolean") s (CV (SStr (py_str E s))) (WBadBoolean (py_str E s))
| kept_number_array s r : (forall q, ~ splits_numbers (py_str E s) q) -> splits (py_str E s) r ->
    kept_as_text E (u "number_array") s r (WNonNumericArray (py_str E s)).

(** no infinite or NaN number inside *)
Definition finite_scalar (s : scalar) : bool := match s with SDec (DInf _) | SDec (DNan _ _ _) => false | _ => true end.
Definition finite_cell (c : cellval) : bool :=
  match c with CV s => finite_scalar s | CList l => forallb finite_scalar l | CList2 l => forallb (forallb finite_scalar) l | CGeo _ => true end.

