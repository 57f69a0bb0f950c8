(** What a CSV file can carry. *)
From Verif.Base Require Import PyStr.
From Verif.Model Require Import Csv.

(** a text that survives: no carriage return, no NUL, at most 131072 characters *)
Definition survives (s : str) : Prop := ~ In 13%N s /\ ~ In 0%N s /\ (N.of_nat (length s) <= 131072)%N.

(** the text a cell is read back as: every carriage return, with the line feed
    that follows it if there is one, is a line feed; NULs are gone *)
Inductive read_back : str -> str -> Prop :=
| rb_nil : read_back [] []
| rb_nul s s' : read_back s s' -> read_back (0%N :: s) s'
| rb_crlf s s' : read_back s s' -> read_back (13%N :: 10%N :: s) (10%N :: s')
| rb_cr s s' : hd_error s <> Some 10%N -> read_back s s' -> read_back (13%N :: s) (10%N :: s')
| rb_other c s s' : c <> 0%N -> c <> 13%N -> read_back s s' -> read_back (c :: s) (c :: s').
