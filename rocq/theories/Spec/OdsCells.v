(** Which column a cell of an ODS row is in, and what it shows. *)
From Verif.Base Require Import PyStr PyNum PyVal PyDict Outcome.
From Verif.Model Require Import Warn Lib Readers Ods.

(** the number of columns a cell stands for *)
Inductive takes (c : ods_cell) : nat -> Prop :=
| takes_repeat s z : oc_repeat c = Some s -> parse_int s = Some z -> takes c (Z.to_nat z)
| takes_one : (oc_repeat c = None \/ oc_repeat c = Some []) ->
    (oc_spanned c = None \/ oc_spanned c = Some [] \/ exists s z, oc_spanned c = Some s /\ parse_int s = Some z) -> takes c 1.
(** the number of columns of some cells next to each other *)
Inductive columns : list ods_cell -> nat -> Prop :=
| columns_nil : columns [] 0
| columns_cons c cs n m : takes c n -> columns cs m -> columns (c :: cs) (n + m).

(** what a cell shows: nothing without text; a number (a whole one unless the
    value has a "."), a date (the fraction of seconds filled up to six digits),
    or its text *)
Inductive shows (E : ods_env) (c : ods_cell) : scalar -> Prop :=
| shows_nothing : oc_text c = [] -> shows E c SNone
| shows_int v z : oc_text c <> [] -> oc_type c = Some (u "float") -> oc_value c = Some v -> ~ In 46%N v -> parse_int v = Some z -> shows E c (SInt z)
| shows_float v x : oc_text c <> [] -> oc_type c = Some (u "float") -> oc_value c = Some v -> In 46%N v -> oe_float E v = Some x -> shows E c x
| shows_date d x : oc_text c <> [] -> oc_type c = Some (u "date") -> oc_date c = Some d -> ~ In 46%N d -> oe_date E d = Some x -> shows E c x
| shows_frac d x : oc_text c <> [] -> oc_type c = Some (u "date") -> oc_date c = Some d -> In 46%N d ->
    oe_date E (d ++ repeat 48%N (26 - length d)) = Some x -> shows E c x
| shows_text : oc_text c <> [] -> oc_type c <> Some (u "float") -> oc_type c <> Some (u "date") -> shows E c (SStr (oc_text c)).
