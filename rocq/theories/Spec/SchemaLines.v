(** Lines under titles, and references. *)
From Verif.Base Require Import PyStr PyNum PyVal PyDict Outcome.
From Verif.Model Require Import Warn Lib Convert Input Flatten Titles Schema TitleLines.
From Verif.Spec Require Import Headings SchemaFields.

(** the heading [h], made of parts separated by ":", stands for the heading [h'] *)
Definition titled_heading (O : sopts) (S : sv) (h h' : scalar) : Prop :=
  (exists l o, h = SStr (join (u ":") l) /\ l <> [] /\ (forall x, In x l -> ~ In 58%N x) /\ resolved O S l o /\ h' = SStr (join (u "/") o)) \/
  ((forall s, h <> SStr s) /\ h' = h).
(** the same cells under the other headings *)
Definition retitled (O : sopts) (S : sv) (line line' : list (scalar * scalar)) : Prop :=
  Forall2 (fun a b => titled_heading O S (fst a) (fst b) /\ snd a = snd b) line line'.
Definition headings_differ (line : list (scalar * scalar)) : Prop := ForallOrdPairs (fun a b => py_eqb (fst a) (fst b) = false) line.
Definition some_title (O : sopts) (S : sv) : Prop := exists n v t, property O S n v /\ title_of v = Some t.
Definition retitled_sheet (O : sopts) (S : sv) (s s' : sheet_in) : Prop :=
  si_name s' = si_name s /\ si_headings s' = si_headings s /\
  Forall2 (fun l l' => retitled O S l l' /\ headings_differ l') (si_lines s) (si_lines s').

(** ** References *)
(** the same letter, maybe in upper case *)
Definition letter_is (c l : N) : Prop := c = l \/ (97 <= l <= 122 /\ c + 32 = l)%N.
Definition begins (uri p : str) : Prop := exists a b, uri = a ++ b /\ Forall2 letter_is a p.
Definition remote (uri : str) : Prop := begins uri (u "http://") \/ begins uri (u "https://").
