(** What reading a schema should report: which parts of it are not used, and why. *)
From Verif.Base Require Import PyStr PyNum PyVal PyDict Outcome.
From Verif.Model Require Import Flatten Titles Schema.
From Verif.Spec Require Import SchemaFields.

(** the fields an array's "rollUp" lists: set(rollUp) of a list, a text, an object *)
Definition lists (r : sv) (f : str) : Prop :=
  match r with
  | VA l => In (VS (SStr f)) l
  | VO _ d => In f (map fst d)
  | VS (SStr s) => exists c, In c s /\ f = [c]
  | VS _ => False
  end.
(** an object of schema [T] at [q] without "properties" *)
Definition nothing_in (T : sv) (q : place) (y : swarning) : Prop :=
  (forall p, ~ entry (u "properties") T p) /\ y = SNoProperties (at_path q).
(** a property that is no value, object or array that is known *)
Definition unknown (O : sopts) (q : place) (n : str) (v : sv) (y : swarning) : Prop :=
  (forall t, ~ kind O v t) /\ y = SUnrecognised n (at_path q).
(** column [f] with title [t] of the array [n]: titles are used, and there is none *)
Definition untitled (O : sopts) (q : place) (n : str) (v : sv) (f : str) (t : option str) (y : swarning) : Prop :=
  so_titles O = true /\
  match t, at_titles q, title_of v with
  | None, _, _ | _, None, _ => y = SMissingTitle (at_path q ++ n ++ u "/0/" ++ f)
  | _, _, None => y = SNoArrayTitle (at_path q ++ n)
  | _, _, _ => False
  end.
(** fields listed in "rollUp" that the items do not have, each once *)
Definition not_rolled (O : sopts) (v i : sv) (y : swarning) : Prop :=
  so_rollup O = true /\ exists r m, entry (u "rollUp") v r /\ y = SNotRolledUp m /\ m <> [] /\ NoDup m /\
    forall f, In f m <-> lists r f /\ ~ exists t, gives O i f t.
Definition array_says (O : sopts) (q : place) (n : str) (v i : sv) (y : swarning) : Prop :=
  (exists f t, gives O i f t /\ untitled O q n v f t y) \/ not_rolled O v i y.
(** what is reported about an object of schema [T] at [q], apart from the objects in it *)
Definition object_says (O : sopts) (T : sv) (q : place) (y : swarning) : Prop :=
  nothing_in T q y \/ exists n v, property O T n v /\ (unknown O q n v y \/ exists i, objects v i /\ array_says O q n v i y).
(** what is reported about a schema *)
Definition reported (O : sopts) (S : sv) (y : swarning) : Prop :=
  (exists R T q, top S R /\ objects_at O R whole T q /\ object_says O T q y) \/
  (so_titles O = true /\ exists R f, top S R /\ gives O R f None /\ y = SNoTitle f).
(** the same warning: sets have no order *)
Definition alike (y y' : swarning) : Prop :=
  y = y' \/ exists m m', y = SNotRolledUp m /\ y' = SNotRolledUp m' /\ forall f, In f m <-> In f m'.
