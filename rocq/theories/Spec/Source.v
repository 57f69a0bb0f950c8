(** Where a value of the output comes from: a cell of one of the tables read. *)
From Verif.Base Require Import PyStr PyVal Outcome.
From Verif.Model Require Import Warn Convert Input.
From Verif.Spec Require Import Columns.

(** the types conversions are done with: those the schema gives, "" and (XML
    dates) "date" *)
Definition col_type (types : str -> str) (ty : str) : Prop :=
  ty = [] \/ ty = u "date" \/ exists path, ty = types path.
(** [conv_of E types v x]: [x] is [v] after zero or more conversions *)
Inductive conv_of (E : conv_env) (types : str -> str) (v : cellval) : cellval -> Prop :=
| conv_refl : conv_of E types v v
| conv_step ty x y w : conv_of E types v x -> col_type types ty -> convert_type E ty x = Ok y w -> conv_of E types v y.
(** [stored E types v x]: [x] is the non-blank result of at least one conversion *)
Definition stored (E : conv_env) (types : str -> str) (v x : cellval) : Prop :=
  exists x0 ty w, conv_of E types v x0 /\ col_type types ty /\ convert_type E ty x0 = Ok x w /\ cv_blank x = false.

(** [raw_at O sheets l v]: the location [l] is that of the cell in some column of
    some line of one of the sheets, and [v] is the value read there *)
Definition raw_at (O : opts) (sheets : list sheet_in) (l : loc) (v : scalar) : Prop :=
  exists s j k line key,
    In s sheets /\ nth_error (si_lines s) j = Some line /\ nth_error line k = Some (key, v) /\
    l_sheet l = si_name s /\ l_row l = (N.of_nat j + 2)%N /\
    column_name (o_vertical O) (N.of_nat k + 1)%N (l_col l) /\
    match si_headings s with
    | None => l_heading l = key
    | Some hs => nth_error hs k = Some (l_heading l)
    end.

(** what a value of the output can be: never null, empty text, a float or a datetime *)
Definition out_scalar (s : scalar) : Prop :=
  match s with SBool _ | SInt _ | SDec _ => True | SStr _ => True | SNone | SFlt _ | SDt _ => False end.
Definition out_value (c : cellval) : Prop :=
  match c with
  | CV s => out_scalar s /\ s <> SStr []
  | CList l => forall s, In s l -> out_scalar s
  | CList2 l => forall r s, In r l -> In s r -> out_scalar s
  | CGeo _ => True
  end.
