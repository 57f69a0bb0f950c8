(** UTF-8 as in RFC 3629, section 3 (C70): the bytes of a code point, of a text. *)
From Coq Require Import Permutation.
From Verif.Base Require Import PyStr PyVal PyDict Outcome.
From Verif.Model Require Import Lib Json Flatten Readers Csv Commands JsonText Utf8.
From Verif.Spec Require Import JsonGrammar JsonTrip Trip.
Local Open Scope N_scope.

(** the code points that are no halves of a surrogate pair *)
Definition scalar_value (c : N) : Prop := c < 55296 \/ 57343 < c /\ c < 1114112.
Definition whole_chars (s : str) : Prop := Forall scalar_value s.
(** x: six bits each *)
Inductive char_bytes : N -> list byte -> Prop :=
| cb_one c : c < 128 -> char_bytes c [c]
| cb_two c x1 x0 : 128 <= c -> x1 < 32 -> x0 < 64 -> c = x1 * 64 + x0 -> char_bytes c [192 + x1; 128 + x0]
| cb_three c x2 x1 x0 : 2048 <= c -> scalar_value c -> x2 < 16 -> x1 < 64 -> x0 < 64 -> c = x2 * 4096 + x1 * 64 + x0 ->
    char_bytes c [224 + x2; 128 + x1; 128 + x0]
| cb_four c x3 x2 x1 x0 : 65536 <= c -> scalar_value c -> x3 < 8 -> x2 < 64 -> x1 < 64 -> x0 < 64 -> c = x3 * 262144 + x2 * 4096 + x1 * 64 + x0 ->
    char_bytes c [240 + x3; 128 + x2; 128 + x1; 128 + x0].
Inductive text_bytes : str -> list byte -> Prop :=
| tb_end : text_bytes [] []
| tb_char c b s r : char_bytes c b -> text_bytes s r -> text_bytes (c :: s) (b ++ r).
(** files *)
Definition files_bytes : list (str * str) -> list (str * list byte) -> Prop :=
  Forall2 (fun f g => fst f = fst g /\ text_bytes (snd f) (snd g)).

(** ** The files of a world *)
(** a JSON file with these bytes *)
Definition file_holds (Wd : world) (file : str) (b : list byte) : Prop := forall t, text_bytes t b -> file_has Wd file t.
(** a directory with these CSV files and no others, listed in any order, read as
    UTF-8 *)
Definition directory_holds (Wd : world) (dir : str) (bs : list (str * list byte)) : Prop :=
  exists bs', Permutation bs bs' /\ wd_book Wd Csv dir = match csv_book_bytes dir bs' with Ok b _ => inr b | Raise e _ => inl e end.

(** every text of a value *)
Inductive whole_texts : jval -> Prop :=
| wt_str s : whole_chars s -> whole_texts (VStr s)
| wt_array l : Forall whole_texts l -> whole_texts (VArr l)
| wt_object d : Forall (fun kx => whole_chars (fst kx) /\ whole_texts (snd kx)) d -> whole_texts (VObj d)
| wt_other v : match v with VStr _ | VArr _ | VObj _ => False | _ => True end -> whole_texts v.
(** the headings that the schema gives *)
Definition whole_headings (O : popts) : Prop := forall h, schema_heading O h -> whole_chars h.
