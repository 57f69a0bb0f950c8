(** JSON as text: what json.dump(s)(..., indent=4, ensure_ascii=False,
    default=decimal_datetime_default) writes, __init__.py:378-411, and what
    json.load makes of a text, __init__.py:276-281 (base JSON).  Both are the
    json package of CPython 3.11; with an indent the encoder is the one in
    Python (json/encoder.py, _make_iterencode), the decoder is that of
    Modules/_json.c.  Simplifications: no limit to the depth of nesting and to
    the digits of an integer; texts are sequences of code points, their
    bytes are in Model/Utf8.v; a text that begins with a byte order mark is just not
    JSON. *)
From Verif.Base Require Import PyStr PyNum PyVal PyDict Outcome.
From Verif.Model Require Import Json Flatten Commands.
Local Open Scope N_scope.

(** ** Writing *)
(** ESCAPE_DCT and py_encode_basestring, json/encoder.py:19-44 *)
Definition hex_digit (n : N) : N := if n <? 10 then 48 + n else 87 + n.
Definition escape (c : N) : str :=
  if c =? 34 then [92; 34]
  else if c =? 92 then [92; 92]
  else if c =? 10 then [92; 110]
  else if c =? 13 then [92; 114]
  else if c =? 9 then [92; 116]
  else if c =? 12 then [92; 102]
  else if c =? 8 then [92; 98]
  else if c <? 32 then [92; 117; 48; 48; hex_digit (c / 16); hex_digit (c mod 16)]
  else [c].
Definition quoted (s : str) : str := [34] ++ flat_map escape s ++ [34].
(** floatstr, json/encoder.py:223-243 *)
Definition float_text (E : env) (f : flt) : str :=
  match f with
  | FNan => u "NaN"
  | FInf false => u "Infinity"
  | FInf true => u "-Infinity"
  | _ => float_str E f
  end.
(** Decimals and datetimes do not get here: see [plain] *)
Definition scalar_text (E : env) (s : scalar) : str :=
  match s with
  | SNone => u "null"
  | SBool true => u "true"
  | SBool false => u "false"
  | SInt z => Z_str z
  | SFlt f => float_text E f
  | SStr t => quoted t
  | SDec _ | SDt _ => []
  end.
Definition new_line (level : nat) : str := 10 :: repeat 32 (4 * level).
(** _iterencode_list and _iterencode_dict, json/encoder.py:277-411 *)
Definition bracketed (a b : N) (level : nat) (parts : list str) : str :=
  match parts with
  | [] => [a; b]
  | _ => [a] ++ new_line (S level) ++ join ([44] ++ new_line (S level)) parts ++ new_line level ++ [b]
  end.
Fixpoint dumps (E : env) (level : nat) (v : jv) : str :=
  match v with
  | JS s => scalar_text E s
  | JA l => bracketed 91 93 level (map (dumps E (S level)) l)
  | JO d => bracketed 123 125 level (map (fun kx => quoted (fst kx) ++ [58; 32] ++ dumps E (S level) (snd kx)) d)
  end.
(** what decimal_datetime_default leaves: a NumberStr is a float, written like
    one; a geometry is an object.  [te_double]: the double nearest to a Decimal *)
Record tenv := { te_env : env; te_double : dec -> flt; te_geo : str -> jv }.
Fixpoint plain_leaf (T : tenv) (j : jsonv) : jv :=
  match j with
  | JNull => JS SNone
  | JBool b => JS (SBool b)
  | JInt z => JS (SInt z)
  | JDouble d => JS (SFlt (te_double T d))
  | JFlt f => JS (SFlt f)
  | JStr s => JS (SStr s)
  | JArr l => JA (map (plain_leaf T) l)
  | JGeo g => te_geo T g
  end.
Fixpoint plain (T : tenv) (j : jout) : jv :=
  match j with
  | OLeaf x => plain_leaf T x
  | OObj l => JO (map (fun kx => (fst kx, plain T (snd kx))) l)
  | OArr l => JA (map (plain T) l)
  end.
Definition json_text (T : tenv) (j : jout) : str := dumps (te_env T) 0 (plain T j).

(** ** Reading *)
(** [VOdd]: NaN, Infinity, -Infinity, which are not JSON; [VReal neg c e]: a
    number with a point or an exponent, (-)c * 10^e *)
Inductive jval :=
| VNull | VBool (b : bool) | VInt (z : Z) | VReal (neg : bool) (c : N) (e : Z) | VOdd (s : str) | VStr (s : str)
| VArr (l : list jval) | VObj (d : list (str * jval)).
Definition json_ws (c : N) : bool := (c =? 32) || (c =? 9) || (c =? 10) || (c =? 13).
Fixpoint skip_ws (s : str) : str := match s with c :: r => if json_ws c then skip_ws r else s | [] => [] end.
Definition ascii_digit (c : N) : bool := (48 <=? c) && (c <=? 57).
Definition hex_val (c : N) : option N :=
  if ascii_digit c then Some (c - 48)
  else if (97 <=? c) && (c <=? 102) then Some (c - 87)
  else if (65 <=? c) && (c <=? 70) then Some (c - 55)
  else None.
Definition hex4 (a b c d : N) : option N :=
  match hex_val a, hex_val b, hex_val c, hex_val d with
  | Some a, Some b, Some c, Some d => Some (((a * 16 + b) * 16 + c) * 16 + d)
  | _, _, _, _ => None
  end.
Definition high_half (n : N) : bool := (55296 <=? n) && (n <=? 56319).
Definition low_half (n : N) : bool := (56320 <=? n) && (n <=? 57343).
Definition halves (h l : N) : N := 65536 + (h - 55296) * 1024 + (l - 56320).
Definition unescape (c : N) : option N :=
  if (c =? 34) || (c =? 92) || (c =? 47) then Some c
  else if c =? 98 then Some 8 else if c =? 102 then Some 12 else if c =? 110 then Some 10
  else if c =? 114 then Some 13 else if c =? 116 then Some 9 else None.
Definition opt_cons (c : N) (x : option (str * str)) : option (str * str) :=
  match x with Some (s, r) => Some (c :: s, r) | None => None end.
(** scanstring_unicode (strict), after the opening quote *)
Fixpoint scan_string (s : str) : option (str * str) :=
  match s with
  | [] => None
  | x :: s1 =>
    if x =? 34 then Some ([], s1)
    else if x =? 92 then
      match s1 with
      | [] => None
      | y :: s2 =>
        if y =? 117 then
          match s2 with
          | a :: b :: c :: d :: s3 =>
            match hex4 a b c d with
            | None => None
            | Some n =>
              if high_half n then
                match s3 with
                | z :: z' :: a' :: b' :: c' :: d' :: s4 =>
                  if (z =? 92) && (z' =? 117) then
                    match hex4 a' b' c' d' with
                    | None => None
                    | Some n' => if low_half n' then opt_cons (halves n n') (scan_string s4) else opt_cons n (scan_string s3)
                    end
                  else opt_cons n (scan_string s3)
                | _ => opt_cons n (scan_string s3)
                end
              else opt_cons n (scan_string s3)
            end
          | _ => None
          end
        else match unescape y with Some n => opt_cons n (scan_string s2) | None => None end
      end
    else if x <? 32 then None
    else opt_cons x (scan_string s1)
  end.
Fixpoint take_digits (s : str) : str * str :=
  match s with
  | c :: r => if ascii_digit c then let '(a, b) := take_digits r in (c :: a, b) else ([], s)
  | [] => ([], [])
  end.
Definition digits_N (s : str) : N := fold_left (fun n c => n * 10 + (c - 48)) s 0.
(** _match_number_unicode *)
Definition scan_fraction (s : str) : str * str :=
  match s with
  | c :: r => if c =? 46 then match take_digits r with ([], _) => ([], s) | x => x end else ([], s)
  | [] => ([], [])
  end.
Definition scan_exponent (s : str) : option Z * str :=
  match s with
  | c :: r =>
    if (c =? 101) || (c =? 69) then
      let '(neg, r') := match r with
                        | x :: y => if x =? 45 then (true, y) else if x =? 43 then (false, y) else (false, r)
                        | [] => (false, r)
                        end in
      match take_digits r' with
      | ([], _) => (None, s)
      | (ds, rest) => (Some (if neg : bool then (- Z.of_N (digits_N ds))%Z else Z.of_N (digits_N ds)), rest)
      end
    else (None, s)
  | [] => (None, s)
  end.
Definition scan_minus (s : str) : bool * str :=
  match s with c :: r => if c =? 45 then (true, r) else (false, s) | [] => (false, s) end.
Definition scan_whole (s : str) : option (str * str) :=
  match s with
  | c :: r => if c =? 48 then Some ([c], r) else if ascii_digit c then Some (take_digits s) else None
  | [] => None
  end.
Definition scan_number (s : str) : option (jval * str) :=
  let '(neg, s1) := scan_minus s in
  match scan_whole s1 with
  | None => None
  | Some (ds, s2) =>
    let '(fs, s3) := scan_fraction s2 in
    let '(e, s4) := scan_exponent s3 in
    match fs, e with
    | [], None => Some (VInt (if neg : bool then (- Z.of_N (digits_N ds))%Z else Z.of_N (digits_N ds)), s4)
    | _, _ => Some (VReal neg (digits_N (ds ++ fs)) (match e with Some x => x | None => 0 end - Z.of_nat (List.length fs))%Z, s4)
    end
  end.
(** the words: null, true, false, NaN, Infinity, -Infinity *)
Definition words : list (str * jval) :=
  [(u "null", VNull); (u "true", VBool true); (u "false", VBool false);
   (u "NaN", VOdd (u "NaN")); (u "Infinity", VOdd (u "Infinity")); (u "-Infinity", VOdd (u "-Infinity"))].
Definition scan_word (s : str) : option (jval * str) :=
  match find (fun wv => startswith s (fst wv)) words with
  | Some (w, v) => Some (v, skipn (List.length w) s)
  | None => None
  end.
(** scan_once_unicode, _parse_array_unicode, _parse_object_unicode *)
Fixpoint scan_value (n : nat) (s : str) : option (jval * str) :=
  match n, s with
  | S n, c :: r =>
    if c =? 34 then match scan_string r with Some (x, r') => Some (VStr x, r') | None => None end
    else if c =? 91 then
      match skip_ws r with
      | [] => None
      | c' :: r' => if c' =? 93 then Some (VArr [], r')
                    else match scan_items n (c' :: r') with Some (l, x) => Some (VArr l, x) | None => None end
      end
    else if c =? 123 then
      match skip_ws r with
      | [] => None
      | c' :: r' => if c' =? 125 then Some (VObj [], r')
                    else match scan_members n (c' :: r') with Some (l, x) => Some (VObj l, x) | None => None end
      end
    else match scan_word s with Some x => Some x | None => scan_number s end
  | _, _ => None
  end
with scan_items (n : nat) (s : str) : option (list jval * str) :=
  match n with
  | O => None
  | S n =>
    match scan_value n s with
    | None => None
    | Some (v, r) =>
      match skip_ws r with
      | [] => None
      | c :: r' => if c =? 93 then Some ([v], r')
                   else if c =? 44 then match scan_items n (skip_ws r') with Some (l, x) => Some (v :: l, x) | None => None end
                   else None
      end
    end
  end
with scan_members (n : nat) (s : str) : option (list (str * jval) * str) :=
  match n, s with
  | S n, q :: s1 =>
    if q =? 34 then
      match scan_string s1 with
      | None => None
      | Some (k, s2) =>
        match skip_ws s2 with
        | [] => None
        | c :: s3 =>
          if c =? 58 then
            match scan_value n (skip_ws s3) with
            | None => None
            | Some (v, r) =>
              match skip_ws r with
              | [] => None
              | c' :: r' => if c' =? 125 then Some ([(k, v)], r')
                            else if c' =? 44 then match scan_members n (skip_ws r') with Some (l, x) => Some ((k, v) :: l, x) | None => None end
                            else None
              end
            end
          else None
        end
      end
    else None
  | _, _ => None
  end.
(** JSONDecoder.decode; an object's key given twice: the last value counts *)
Fixpoint last_keys (v : jval) : jval :=
  match v with
  | VArr l => VArr (map last_keys l)
  | VObj d => VObj (fold_left (fun a kx => sset (fst kx) (snd kx) a) (map (fun kx => (fst kx, last_keys (snd kx))) d) [])
  | _ => v
  end.
Definition scan_document (s : str) : option jval :=
  match scan_value (2 * List.length s + 2) (skip_ws s) with
  | Some (v, r) => match skip_ws r with [] => Some v | _ => None end
  | None => None
  end.
Definition loads (s : str) : option jval := option_map last_keys (scan_document s).
