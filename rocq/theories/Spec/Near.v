(** Documents whose numbers come back as the nearest ones a file format can hold. *)
From Verif.Base Require Import PyStr PyNum PyVal PyDict Outcome.
From Verif.Model Require Import Lib Convert Input Flatten.
From Verif.Spec Require Import RoundTrip Typed.

Section Near.
  Variable near : scalar -> scalar.
  (** the document with [near c] for the value [c] of a field (values inside arrays
      of texts or numbers are as they were: such an array is a text in its cell) *)
  Fixpoint nearby (v : jv) : jv :=
    match v with
    | JS s => JS (near s)
    | JA l => JA (map (fun x => match x with JO _ => nearby x | _ => x end) l)
    | JO o => JO (map (fun kv => (fst kv, nearby (snd kv))) o)
    end.
  Definition nearby_doc (o : jobj) : jobj := map (fun kv => (fst kv, nearby (snd kv))) o.
  Definition near_leaf (y : jv) (v : cellval) : Prop := same_leaf (match y with JS a => JS (near a) | _ => y end) v.
End Near.

(** [back c]: what is read in the cell for [c]; a number read as a float counts as
    the exact value of that float *)
Definition float_near (back : scalar -> scalar) (c : scalar) : scalar :=
  match c, back c with
  | SInt _, SFlt f | SDec _, SFlt f => SDec (flt_dec f)
  | _, _ => c
  end.
(** the cell of a value of type [ty], written for [c], is read as [w]: as it was put
    there, as its text, or (numbers) as some float, a whole one if whole numbers are
    asked for *)
Definition cell_gives_near (E : env) (ty : str) (c w : scalar) : Prop :=
  w = c \/ w = SStr (py_str E c) \/
  exists n m e, w = SFlt (FFin n m e) /\ (ty = u "number" \/ ty = u "integer" /\ exists z, py_eqb (SInt z) w = true).
