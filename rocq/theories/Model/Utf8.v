(** Files as bytes: UTF-8.

    Modelled code: /repo/flattentool/output.py:96-102 (CSV files are opened with
    encoding="utf-8"), input.py:630, 644-650, 690-707 (CSV files are read with
    [encoding], "utf-8" or "utf8" if nothing else is given, __init__.py:215, 347),
    __init__.py:386-393 (codecs.open(..., "w", encoding="utf-8") for the JSON
    written).  Python's codec is modelled as in CPython 3.11, Objects/unicodeobject.c
    (unicode_encode_utf8, unicode_decode_utf8) and stringlib/codecs.h, with
    errors="strict": [None] for UnicodeEncodeError and UnicodeDecodeError.
    A byte is an [N] (below 256).

    SIMPLIFICATION: a text is encoded as a whole.  If that fails, a real run has
    opened the file and may have written part of it; here no file is written.
    Other encodings than UTF-8 are not modelled. *)
From Verif.Base Require Import PyStr PyVal PyDict Outcome.
From Verif.Model Require Import Lib Convert Json Flatten Readers Csv Output Commands.
Local Open Scope N_scope.

Definition byte := N.
(** stringlib/codecs.h utf8_encoder; a surrogate is an error.  (A Python text has no
    code points above 1114111; they are an error here.) *)
Definition encode_char (c : N) : option (list byte) :=
  if c <? 128 then Some [c]
  else if c <? 2048 then Some [192 + c / 64; 128 + c mod 64]
  else if c <? 65536 then
    if (55296 <=? c) && (c <=? 57343) then None
    else Some [224 + c / 4096; 128 + (c / 64) mod 64; 128 + c mod 64]
  else if c <? 1114112 then Some [240 + c / 262144; 128 + (c / 4096) mod 64; 128 + (c / 64) mod 64; 128 + c mod 64]
  else None.
Fixpoint encode (s : str) : option (list byte) :=
  match s with
  | [] => Some []
  | c :: s' => match encode_char c, encode s' with Some b, Some r => Some (b ++ r)%list | _, _ => None end
  end.

(** stringlib/codecs.h utf8_decode: IS_CONTINUATION_BYTE and the checks of the
    second byte *)
Definition is_continuation (b : byte) : bool := (128 <=? b) && (b <=? 191).
Definition second_of_three (b0 b1 : byte) : bool :=
  is_continuation b1 && (if b0 =? 224 then 160 <=? b1 else if b0 =? 237 then b1 <? 160 else true).
Definition second_of_four (b0 b1 : byte) : bool :=
  is_continuation b1 && (if b0 =? 240 then 144 <=? b1 else if b0 =? 244 then b1 <? 144 else true).
Fixpoint decode (b : list byte) : option str :=
  match b with
  | [] => Some []
  | b0 :: r0 =>
    if b0 <? 128 then match decode r0 with Some s => Some (b0 :: s) | None => None end
    else match r0 with
    | [] => None
    | b1 :: r1 =>
      if (194 <=? b0) && (b0 <=? 223) then
        if is_continuation b1 then match decode r1 with Some s => Some ((b0 - 192) * 64 + (b1 - 128) :: s) | None => None end
        else None
      else match r1 with
      | [] => None
      | b2 :: r2 =>
        if (224 <=? b0) && (b0 <=? 239) then
          if second_of_three b0 b1 && is_continuation b2 then
            match decode r2 with Some s => Some ((b0 - 224) * 4096 + (b1 - 128) * 64 + (b2 - 128) :: s) | None => None end
          else None
        else match r2 with
        | [] => None
        | b3 :: r3 =>
          if (240 <=? b0) && (b0 <=? 244) then
            if second_of_four b0 b1 && is_continuation b2 && is_continuation b3 then
              match decode r3 with Some s => Some ((b0 - 240) * 262144 + (b1 - 128) * 4096 + (b2 - 128) * 64 + (b3 - 128) :: s) | None => None end
            else None
          else None
        end
      end
    end
  end.

(** files as bytes *)
Fixpoint encode_files (fs : list (str * str)) : option (list (str * list byte)) :=
  match fs with
  | [] => Some []
  | (n, t) :: fs' => match encode t, encode_files fs' with Some b, Some r => Some ((n, b) :: r) | _, _ => None end
  end.
Fixpoint decode_files (bs : list (str * list byte)) : option (list (str * str)) :=
  match bs with
  | [] => Some []
  | (n, b) :: bs' => match decode b, decode_files bs' with Some t, Some r => Some ((n, t) :: r) | _, _ => None end
  end.
(** input.py:636-650, 690-707: the sheets of a directory of CSV files.
    SIMPLIFICATION: the files are decoded first, all of them; UnicodeDecodeError is a
    ValueError *)
Definition csv_book_bytes (d : str) (bs : list (str * list byte)) : R book :=
  match decode_files bs with Some fs => csv_book d fs | None => Raise EValueError [] end.
