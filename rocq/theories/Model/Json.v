(** Model of [decimal_datetime_default], __init__.py:181-212, as used by
    [json.dump(base, ..., default=decimal_datetime_default)], __init__.py:378-393:
    which JSON value a value of the output becomes. *)
From Verif.Base Require Import PyStr PyNum PyVal Outcome.
From Verif.Model Require Import Warn Lib Convert.
Local Open Scope res_scope.

(** JSON as written.  [JDouble d]: a NumberStr, that is a float subclass made
    from the Decimal [d]: the json module writes [float.__repr__] of it, so the
    digits that appear are those of the double nearest to [d]. *)
Inductive jsonv :=
| JNull | JBool (b : bool) | JInt (z : Z) | JDouble (d : dec) | JFlt (f : flt) | JStr (s : str)
| JArr (l : list jsonv) | JGeo (g : str).

(** __init__.py:197-203: [int(o) == o] raises on infinities and NaNs *)
Definition json_decimal (d : dec) : R jsonv :=
  match d with
  | DFin n c e =>
    let z := dec_trunc n c e in
    if py_eqb (SInt z) (SDec d) then ret (JInt z) else ret (JDouble d)
  | DInf _ => Raise EOverflowError []
  | DNan _ _ _ => Raise EValueError []
  end.
Definition json_scalar (E : env) (s : scalar) : R jsonv :=
  match s with
  | SNone => ret JNull
  | SBool b => ret (JBool b)
  | SInt z => ret (JInt z)
  | SDec d => json_decimal d
  | SFlt f => ret (JFlt f)            (* never produced by convert_type *)
  | SStr t => ret (JStr t)
  | SDt d => ret (JStr (dt_str E d))  (* __init__.py:204-205 *)
  end.
Fixpoint json_list {A} (f : A -> R jsonv) (l : list A) : R (list jsonv) :=
  match l with
  | [] => ret []
  | x :: l' => y <- f x ;; r <- json_list f l' ;; ret (y :: r)
  end.
Definition json_cell (E : env) (c : cellval) : R jsonv :=
  match c with
  | CV s => json_scalar E s
  | CList l => r <- json_list (json_scalar E) l ;; ret (JArr r)
  | CList2 l => r <- json_list (fun x => y <- json_list (json_scalar E) x ;; ret (JArr y)) l ;; ret (JArr r)
  | CGeo g => ret (JGeo g)
  end.
