(** The warnings the code emits, as data (the fields are the values that the
    message is formatted with). *)
From Verif.Base Require Import PyStr PyVal.

(** Cell location, the tuple built at input.py:450-463: sheet name, column
    letter (or number), row number, heading. *)
Record loc := { l_sheet : str; l_col : str; l_row : N; l_heading : scalar }.

Inductive why :=
| WhyArray (key : str)    (** "because it treats {} as an array, but another column does not" *)
| WhyObject (key : str)   (** "because it treats {} as an object, but another column does not" *)
| WhyContainer.           (** "because another column treats it as an array or object" *)

Inductive warning :=
(* input.py:70-165 convert_type *)
| WNonNumeric (v : cellval)
| WNonInteger (v : cellval)
| WBadBoolean (v : str)
| WNonNumericArray (v : str)
| WBadWkt (v : cellval)
| WGeoDependencies
(* input.py:168-181 warnings_for_ignored_columns, called by merge *)
| WIgnored (heading : scalar) (y : why)
(* input.py:241-268 merge: two different values for one field *)
| WDuplicate (root_id : str) (root : scalar) (id_name : str) (id : cellval)
             (key : str) (sheet : str) (base_value value : cellval)
(* input.py:380-439 duplicate heading in one sheet; the ignored columns *)
| WDuplicateHeading (heading : scalar) (columns : list str) (sheet : str)
(* input.py:987-1134 unflatten_main_with_parser *)
| WNumberColumn (heading : scalar)
| WColumnArray (heading : scalar) (till : str)
| WColumnObject (heading : scalar) (till : str)
| WColumnValue (till : str).
