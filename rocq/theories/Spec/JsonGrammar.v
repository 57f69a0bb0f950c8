(** JSON, RFC 8259: which texts are JSON and what they say (C65).  With
    [lax = true] also the words NaN, Infinity and -Infinity, which are not JSON. *)
From Verif.Base Require Import PyStr PyNum PyVal PyDict.
From Verif.Model Require Import Json Flatten Commands JsonText.
Local Open Scope N_scope.

(** section 2: insignificant white space *)
Definition blanks (s : str) : Prop := Forall (fun c => c = 32 \/ c = 9 \/ c = 10 \/ c = 13) s.

(** section 7: what stands between the quotes, and what it says *)
Definition hex (c n : N) : Prop := (48 <= c <= 57 /\ n = c - 48) \/ (97 <= c <= 102 /\ n = c - 87) \/ (65 <= c <= 70 /\ n = c - 55).
Inductive unit_text : str -> N -> Prop :=
| ut_unicode a b c d a' b' c' d' : hex a a' -> hex b b' -> hex c c' -> hex d d' ->
    unit_text [92; 117; a; b; c; d] (((a' * 16 + b') * 16 + c') * 16 + d').
Definition short_escapes : list (N * N) := [(34, 34); (92, 92); (47, 47); (98, 8); (102, 12); (110, 10); (114, 13); (116, 9)].
Definition high (n : N) : Prop := 55296 <= n <= 56319.
Definition low (n : N) : Prop := 56320 <= n <= 57343.
Inductive chars_say : str -> str -> Prop :=
| cs_end : chars_say [] []
| cs_plain c t s : 32 <= c -> c <> 34 -> c <> 92 -> chars_say t s -> chars_say (c :: t) (c :: s)
| cs_short x c t s : In (x, c) short_escapes -> chars_say t s -> chars_say ([92; x] ++ t) (c :: s)
(** a code point above 65535 is written as two halves *)
| cs_pair h l th tl t s : unit_text th h -> unit_text tl l -> high h -> low l -> chars_say t s ->
    chars_say (th ++ tl ++ t) (65536 + (h - 55296) * 1024 + (l - 56320) :: s)
| cs_unit n tn t s : unit_text tn n -> ~ (high n /\ exists l tl t', unit_text tl l /\ low l /\ t = tl ++ t') -> chars_say t s ->
    chars_say (tn ++ t) (n :: s).

(** section 6: numbers *)
Definition digit (c : N) : Prop := 48 <= c <= 57.
Definition value (ds : str) : N := fold_left (fun n c => n * 10 + (c - 48)) ds 0.
Definition signed (neg : bool) (n : N) : Z := if neg then (- Z.of_N n)%Z else Z.of_N n.
Definition minus (neg : bool) : str := if neg then [45] else [].
Definition whole_text (ds : str) : Prop := ds = [48] \/ exists c r, ds = c :: r /\ 49 <= c <= 57 /\ Forall digit r.
Definition fraction_text (t : option str) : str := match t with Some fs => [46] ++ fs | None => [] end.
Inductive exponent_text : str -> option Z -> Prop :=
| et_none : exponent_text [] None
| et_plain e ds : e = 101 \/ e = 69 -> ds <> [] -> Forall digit ds -> exponent_text ([e] ++ ds) (Some (Z.of_N (value ds)))
| et_plus e ds : e = 101 \/ e = 69 -> ds <> [] -> Forall digit ds -> exponent_text ([e; 43] ++ ds) (Some (Z.of_N (value ds)))
| et_minus e ds : e = 101 \/ e = 69 -> ds <> [] -> Forall digit ds -> exponent_text ([e; 45] ++ ds) (Some (- Z.of_N (value ds))%Z).
Inductive number_says : str -> jval -> Prop :=
| ns_int neg ds : whole_text ds -> number_says (minus neg ++ ds) (VInt (signed neg (value ds)))
| ns_real neg ds f te e : whole_text ds -> (forall fs, f = Some fs -> fs <> [] /\ Forall digit fs) -> exponent_text te e ->
    ~ (f = None /\ e = None) ->
    number_says (minus neg ++ ds ++ fraction_text f ++ te)
      (VReal neg (value (ds ++ match f with Some fs => fs | None => [] end))
             (match e with Some x => x | None => 0 end - Z.of_nat (List.length (match f with Some fs => fs | None => [] end)))%Z).

(** sections 3, 4, 5: values, objects, arrays *)
Inductive says (lax : bool) : str -> jval -> Prop :=
| js_null : says lax (u "null") VNull
| js_true : says lax (u "true") (VBool true)
| js_false : says lax (u "false") (VBool false)
| js_number t v : number_says t v -> says lax t v
| js_odd t : lax = true -> In t [u "NaN"; u "Infinity"; u "-Infinity"] -> says lax t (VOdd t)
| js_string t s : chars_say t s -> says lax ([34] ++ t ++ [34]) (VStr s)
| js_no_items w : blanks w -> says lax ([91] ++ w ++ [93]) (VArr [])
| js_array t vs : items_say lax t vs -> says lax ([91] ++ t ++ [93]) (VArr vs)
| js_no_members w : blanks w -> says lax ([123] ++ w ++ [125]) (VObj [])
| js_object t d : members_say lax t d -> says lax ([123] ++ t ++ [125]) (VObj d)
with items_say (lax : bool) : str -> list jval -> Prop :=
| is_one a t b v : blanks a -> says lax t v -> blanks b -> items_say lax (a ++ t ++ b) [v]
| is_more a t b v r vs : blanks a -> says lax t v -> blanks b -> items_say lax r vs -> items_say lax (a ++ t ++ b ++ [44] ++ r) (v :: vs)
with members_say (lax : bool) : str -> list (str * jval) -> Prop :=
| ms_one a k s b c t v e : blanks a -> chars_say k s -> blanks b -> blanks c -> says lax t v -> blanks e ->
    members_say lax (a ++ [34] ++ k ++ [34] ++ b ++ [58] ++ c ++ t ++ e) [(s, v)]
| ms_more a k s b c t v e r d : blanks a -> chars_say k s -> blanks b -> blanks c -> says lax t v -> blanks e -> members_say lax r d ->
    members_say lax (a ++ [34] ++ k ++ [34] ++ b ++ [58] ++ c ++ t ++ e ++ [44] ++ r) ((s, v) :: d).
(** section 2: a JSON text *)
Definition document_says (lax : bool) (t : str) (v : jval) : Prop :=
  exists a m b, t = a ++ m ++ b /\ blanks a /\ says lax m v /\ blanks b.

(** ** Plain data and the value it is *)
(** a finite float is the number its shortest digits say, as Python's repr gives
    them ([float_str]); with [lax = true] also the floats that are no numbers *)
Inductive tells (E : env) (lax : bool) : jv -> jval -> Prop :=
| tl_null : tells E lax (JS SNone) VNull
| tl_bool b : tells E lax (JS (SBool b)) (VBool b)
| tl_int z : tells E lax (JS (SInt z)) (VInt z)
| tl_float n m x v : number_says (float_str E (FFin n m x)) v -> tells E lax (JS (SFlt (FFin n m x))) v
| tl_nan : lax = true -> tells E lax (JS (SFlt FNan)) (VOdd (u "NaN"))
| tl_infinite (n : bool) : lax = true -> tells E lax (JS (SFlt (FInf n))) (VOdd (if n then u "-Infinity" else u "Infinity"))
| tl_str s : tells E lax (JS (SStr s)) (VStr s)
| tl_array l vs : Forall2 (tells E lax) l vs -> tells E lax (JA l) (VArr vs)
| tl_object d vs : Forall2 (fun kx ky => fst kx = fst ky /\ tells E lax (snd kx) (snd ky)) d vs -> tells E lax (JO d) (VObj vs).
(** the same for what unflatten writes.  A Decimal is written as the double nearest
    to it; a geometry is an object *)
Inductive leaf_tells (T : tenv) (lax : bool) : jsonv -> jval -> Prop :=
| lt_null : leaf_tells T lax JNull VNull
| lt_bool b : leaf_tells T lax (JBool b) (VBool b)
| lt_int z : leaf_tells T lax (JInt z) (VInt z)
| lt_double d v : tells (te_env T) lax (JS (SFlt (te_double T d))) v -> leaf_tells T lax (JDouble d) v
| lt_float f v : tells (te_env T) lax (JS (SFlt f)) v -> leaf_tells T lax (JFlt f) v
| lt_str s : leaf_tells T lax (JStr s) (VStr s)
| lt_array l vs : Forall2 (leaf_tells T lax) l vs -> leaf_tells T lax (JArr l) (VArr vs)
| lt_geometry g v : tells (te_env T) lax (te_geo T g) v -> leaf_tells T lax (JGeo g) v.
Inductive out_tells (T : tenv) (lax : bool) : jout -> jval -> Prop :=
| ot_leaf j v : leaf_tells T lax j v -> out_tells T lax (OLeaf j) v
| ot_array l vs : Forall2 (out_tells T lax) l vs -> out_tells T lax (OArr l) (VArr vs)
| ot_object d vs : Forall2 (fun kx ky => fst kx = fst ky /\ out_tells T lax (snd kx) (snd ky)) d vs -> out_tells T lax (OObj d) (VObj vs).
(** plain data that can be written as JSON: no NaN and no infinities *)
Inductive plain_data : jv -> Prop :=
| pd_scalar s : match s with SDec _ | SDt _ | SFlt FNan | SFlt (FInf _) => False | _ => True end -> plain_data (JS s)
| pd_array l : Forall plain_data l -> plain_data (JA l)
| pd_object d : Forall (fun kx => plain_data (snd kx)) d -> plain_data (JO d).
Inductive plain_leaf_data (T : tenv) : jsonv -> Prop :=
| pl_double d : plain_data (JS (SFlt (te_double T d))) -> plain_leaf_data T (JDouble d)
| pl_float f : plain_data (JS (SFlt f)) -> plain_leaf_data T (JFlt f)
| pl_geometry g : plain_data (te_geo T g) -> plain_leaf_data T (JGeo g)
| pl_array l : Forall (plain_leaf_data T) l -> plain_leaf_data T (JArr l)
| pl_other j : match j with JDouble _ | JFlt _ | JGeo _ | JArr _ => False | _ => True end -> plain_leaf_data T j.
Inductive plain_out (T : tenv) : jout -> Prop :=
| po_leaf j : plain_leaf_data T j -> plain_out T (OLeaf j)
| po_array l : Forall (plain_out T) l -> plain_out T (OArr l)
| po_object d : Forall (fun kx => plain_out T (snd kx)) d -> plain_out T (OObj d).
(** the shortest digits of a float, as Python writes them, are a JSON number *)
Definition floats_are_json (E : env) : Prop := forall n m x, exists v, number_says (float_str E (FFin n m x)) v.
(** no key twice in an object *)
Inductive keys_once : jval -> Prop :=
| ko_array l : Forall keys_once l -> keys_once (VArr l)
| ko_object d : NoDup (map fst d) -> Forall (fun kx => keys_once (snd kx)) d -> keys_once (VObj d)
| ko_other v : match v with VArr _ | VObj _ => False | _ => True end -> keys_once v.
(** a NaN or an infinity somewhere *)
Inductive has_odd : jval -> Prop :=
| ho_odd s : has_odd (VOdd s)
| ho_array v l : In v l -> has_odd v -> has_odd (VArr l)
| ho_object k v d : In (k, v) d -> has_odd v -> has_odd (VObj d).
(** of a key given twice the last value counts *)
Inductive last_counts : jval -> jval -> Prop :=
| lc_array l m : Forall2 last_counts l m -> last_counts (VArr l) (VArr m)
| lc_object d e : NoDup (map fst e) -> (forall k, In k (map fst e) <-> In k (map fst d)) ->
    (forall a k x b y, d = a ++ (k, x) :: b -> ~ In k (map fst b) -> In (k, y) e -> last_counts x y) -> last_counts (VObj d) (VObj e)
| lc_other v : match v with VArr _ | VObj _ => False | _ => True end -> last_counts v v.
