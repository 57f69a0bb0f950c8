(** Model of [convert_type], input.py:70-165. *)
From Verif.Base Require Import PyStr PyNum PyVal Outcome.
From Verif.Model Require Import Warn Lib.
From Coq Require Import QArith.
Local Open Scope N_scope.
Local Open Scope res_scope.

(** exact Decimal of a binary float: [Decimal(float)] *)
Definition flt_dec (f : flt) : dec :=
  match f with
  | FFin neg m e =>
    if (0 <=? e)%Z then DFin neg (m * 2 ^ Z.to_N e) 0
    else DFin neg (m * 5 ^ Z.to_N (- e)) e
  | FInf neg => DInf neg
  | FNan => DNan false false 0
  end.
(** [Decimal(value)] for a scalar; [None] = one of the caught exceptions *)
Definition to_decimal (s : scalar) : option dec :=
  match s with
  | SStr t => parse_dec t
  | SInt z => Some (DFin (z <? 0)%Z (Z.abs_N z) 0)
  | SBool b => Some (DFin false (if b then 1 else 0) 0)
  | SDec d => Some d
  | SFlt f => Some (flt_dec f)
  | SNone | SDt _ => None
  end.
(** Truncation towards zero of a finite float / Decimal. *)
Definition flt_trunc (neg : bool) (m : N) (e : Z) : Z :=
  let n := if (0 <=? e)%Z then m * 2 ^ Z.to_N e else m / 2 ^ Z.to_N (- e) in
  if neg then (- Z.of_N n)%Z else Z.of_N n.
Definition dec_trunc (neg : bool) (c : N) (e : Z) : Z :=
  let n := if (0 <=? e)%Z then c * 10 ^ Z.to_N e else c / 10 ^ Z.to_N (- e) in
  if neg then (- Z.of_N n)%Z else Z.of_N n.
(** [int(value)]: value, a caught exception (TypeError / ValueError), or the
    OverflowError of an infinity *)
Inductive int_result := IVal (z : Z) | ICaught | IOverflow.
Definition to_int (s : scalar) : int_result :=
  match s with
  | SStr t => match parse_int t with Some z => IVal z | None => ICaught end
  | SInt z => IVal z
  | SBool b => IVal (if b then 1 else 0)%Z
  | SDec (DFin n c e) => IVal (dec_trunc n c e)
  | SDec (DInf _) => IOverflow
  | SDec (DNan _ _ _) => ICaught
  | SFlt (FFin n m e) => IVal (flt_trunc n m e)
  | SFlt (FInf _) => IOverflow
  | SFlt FNan => ICaught
  | SNone | SDt _ => ICaught
  end.

Fixpoint map_opt {A B} (f : A -> option B) (l : list A) : option (list B) :=
  match l with
  | [] => Some []
  | x :: l' => match f x, map_opt f l' with
               | Some y, Some r => Some (y :: r)
               | _, _ => None
               end
  end.

Definition comma : N := 44.
Definition semicolon : N := 59.
(** input.py:113-118 / 126-129: the two-level split used for array columns *)
Definition split_array (s : str) : cellval :=
  if mem_c comma s then CList2 (map (fun x => map SStr (split_on comma x)) (split_on semicolon s))
  else CList (map SStr (split_on semicolon s)).
Definition split_number_array (s : str) : option cellval :=
  let f x := option_map SDec (parse_dec x) in
  if mem_c comma s then
    option_map CList2 (map_opt (fun x => map_opt f (split_on comma x)) (split_on semicolon s))
  else option_map CList (map_opt f (split_on semicolon s)).

(** Third-party: [cv_repr] is Python's [str()] of a list or dict; only used when
    a value that was already converted is converted again (headings with empty
    path segments under a schema). *)
Definition cv_str (E : env) (repr : cellval -> str) (c : cellval) : str :=
  match c with CV s => py_str E s | _ => repr c end.

Record conv_env := {
  ce_env :> env;
  ce_repr : cellval -> str;
  ce_wkt : bool (** convert_flags.get("wkt") *) }.

(** input.py:70-165 *)
Definition convert_type (E : conv_env) (ty : str) (v : cellval) : R cellval :=
  let sv := cv_str E (ce_repr E) v in
  if cv_blank v then ret (CV SNone)                              (* 71-72 *)
  else if str_eqb ty (u "number") then                           (* 73-83 *)
    match v with
    | CV s => match to_decimal s with
              | Some d => ret (CV (SDec d))
              | None => warn1 (WNonNumeric v) ;; ret (CV (SStr sv))
              end
    | _ => warn1 (WNonNumeric v) ;; ret (CV (SStr sv))
    end
  else if str_eqb ty (u "integer") then                          (* 84-94 *)
    match v with
    | CV s => match to_int s with
              | IVal z => ret (CV (SInt z))
              | ICaught => warn1 (WNonInteger v) ;; ret (CV (SStr sv))
              | IOverflow => Raise EOverflowError []
              end
    | _ => warn1 (WNonInteger v) ;; ret (CV (SStr sv))
    end
  else if str_eqb ty (u "boolean") then                          (* 95-108 *)
    let l := lower sv in
    if str_eqb l (u "true") || str_eqb l (u "1") then ret (CV (SBool true))
    else if str_eqb l (u "false") || str_eqb l (u "0") then ret (CV (SBool false))
    else warn1 (WBadBoolean sv) ;; ret (CV (SStr sv))
  else if str_mem ty [u "array"; u "array_array"; u "string_array"; u "number_array"] then (* 109-129 *)
    if str_eqb ty (u "number_array") then
      match split_number_array sv with
      | Some r => ret r
      | None => warn1 (WNonNumericArray sv) ;; ret (split_array sv)
      end
    else ret (split_array sv)
  else if str_eqb ty (u "string") then                           (* 130-133 *)
    match v with
    | CV (SDt d) => ret (CV (SStr (dt_local_iso E d)))
    | _ => ret (CV (SStr sv))
    end
  else if str_eqb ty (u "date") then                             (* 134-137 *)
    match v with
    | CV (SDt d) => ret (CV (SStr (dt_date_iso E d)))
    | _ => ret (CV (SStr sv))
    end
  else if ce_wkt E && str_eqb ty (u "geojson") then              (* 138-157 *)
    if geo_available E then
      match v with
      | CV s => match wkt_loads E s with
                | WktOk g => ret (CGeo g)
                | WktBad => warn1 (WBadWkt v) ;; ret (CV SNone)
                | WktRaise => Raise EOther []
                end
      | _ => Raise EOther []
      end
    else warn1 WGeoDependencies ;; ret (CV (SStr sv))
  else match ty with
       | [] =>                                                   (* 158-163 *)
         match v with
         | CV (SDt d) => ret (CV (SStr (dt_local_iso E d)))
         | CV (SFlt (FFin n m e)) =>
           let z := flt_trunc n m e in
           if py_eqb (SInt z) (SFlt (FFin n m e)) then ret (CV (SInt z)) else ret (CV (SStr sv))
         | CV (SFlt (FInf _)) => Raise EOverflowError []
         | CV (SFlt FNan) => Raise EValueError []
         | CV (SInt z) => ret (CV (SInt z))
         | _ => ret (CV (SStr sv))
         end
       | _ => Raise (EFlattenToolValueError ty) []               (* 164-165 *)
       end.
