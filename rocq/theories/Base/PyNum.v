(** Python [int(str)], [str(int)], [Decimal(str)], [str(Decimal)]. *)
From Verif.Base Require Import PyStr.
From Coq Require Import DecimalN DecimalPos DecimalFacts QArith.
Local Open Scope N_scope.

(** ** Digit strings *)
Fixpoint uint_digits (d : Decimal.uint) : str :=
  match d with
  | Decimal.Nil => []
  | Decimal.D0 d => 48 :: uint_digits d
  | Decimal.D1 d => 49 :: uint_digits d
  | Decimal.D2 d => 50 :: uint_digits d
  | Decimal.D3 d => 51 :: uint_digits d
  | Decimal.D4 d => 52 :: uint_digits d
  | Decimal.D5 d => 53 :: uint_digits d
  | Decimal.D6 d => 54 :: uint_digits d
  | Decimal.D7 d => 55 :: uint_digits d
  | Decimal.D8 d => 56 :: uint_digits d
  | Decimal.D9 d => 57 :: uint_digits d
  end.
(** [str(n)] for a natural number *)
Definition N_str (n : N) : str := uint_digits (N.to_uint n).
(** [str(z)] *)
Definition Z_str (z : Z) : str :=
  match z with
  | Z0 => [48]
  | Zpos p => N_str (Npos p)
  | Zneg p => 45 :: N_str (Npos p)
  end.

(** value of a digit string; [None] if some character is not a digit *)
Fixpoint digits_val_acc (acc : N) (s : str) : option N :=
  match s with
  | [] => Some acc
  | c :: s' => match digit_val c with
               | Some d => digits_val_acc (10 * acc + d) s'
               | None => None
               end
  end.
Definition digits_val (s : str) : option N := digits_val_acc 0 s.
Definition is_digit (c : N) : bool := match digit_val c with Some _ => true | None => false end.

(** ** int(str) *)
(** digits with single underscores strictly between digits *)
Fixpoint int_body (acc : N) (prev_digit : bool) (s : str) : option N :=
  match s with
  | [] => if prev_digit then Some acc else None
  | c :: s' =>
    match digit_val c with
    | Some d => int_body (10 * acc + d) true s'
    | None => if (c =? 95) && prev_digit then
                match s' with
                | [] => None
                | _ => int_body acc false s'
                end
              else None
    end
  end.
(** [int(s)] for a str [s]; [None] = ValueError.  SIMPLIFICATION: the
    interpreter's 4300-digit limit is not modelled. *)
Definition parse_int (s : str) : option Z :=
  let t := strip is_ws_int s in
  match t with
  | [] => None
  | c :: t' =>
    if c =? 43 then option_map Z.of_N (int_body 0 false t')
    else if c =? 45 then option_map (fun n => (- Z.of_N n)%Z) (int_body 0 false t')
    else option_map Z.of_N (int_body 0 false t)
  end.

(** ** Decimal *)
Inductive dec :=
| DFin (neg : bool) (coef : N) (exp : Z)   (** (-1)^neg * coef * 10^exp *)
| DInf (neg : bool)
| DNan (neg signalling : bool) (payload : N).

(** [str(Decimal)]: _pydecimal.Decimal.__str__ (eng = False). *)
Definition zeros (n : nat) : str := repeat 48 n.
Definition exp_str (e : Z) : str :=
  if (e =? 0)%Z then []
  else if (0 <? e)%Z then 69 :: 43 :: Z_str e else 69 :: Z_str e.
Definition dec_str (d : dec) : str :=
  match d with
  | DFin neg coef exp =>
    let digs := N_str coef in
    let len := Z.of_nat (length digs) in
    let left := (exp + len)%Z in
    let dot := if ((exp <=? 0) && (-6 <? left))%Z%bool then left else 1%Z in
    (if neg then [45] else []) ++
    (if (dot <=? 0)%Z then
       48 :: 46 :: zeros (Z.to_nat (- dot)) ++ digs
     else if (len <=? dot)%Z then
       digs ++ zeros (Z.to_nat (dot - len))
     else firstn (Z.to_nat dot) digs ++ 46 :: skipn (Z.to_nat dot) digs)
    ++ exp_str (left - dot)
  | DInf neg => (if neg then [45] else []) ++ u "Infinity"
  | DNan neg sig payload =>
    (if neg then [45] else []) ++ (if sig then u "sNaN" else u "NaN")
    ++ (if payload =? 0 then [] else N_str payload)
  end.

(** span of leading digits *)
Fixpoint span_digits (s : str) : str * str :=
  match s with
  | [] => ([], [])
  | c :: s' => if is_digit c then let (a, b) := span_digits s' in (c :: a, b) else ([], s)
  end.
(** exponent part: nothing, or e/E, optional sign, at least one digit, end *)
Definition parse_exp (s : str) : option Z :=
  match s with
  | [] => Some 0%Z
  | c :: s1 =>
    if (c =? 69) || (c =? 101) then
      let '(neg, s2) := match s1 with
                        | d :: s1' => if d =? 43 then (false, s1') else if d =? 45 then (true, s1') else (false, s1)
                        | [] => (false, [])
                        end in
      match s2 with
      | [] => None
      | _ => match digits_val s2 with
             | Some n => Some (if neg : bool then (- Z.of_N n)%Z else Z.of_N n)
             | None => None
             end
      end
    else None
  end.
Definition parse_finite (neg : bool) (s : str) : option dec :=
  let (ip, r) := span_digits s in
  let '(fp, r2) := match r with
                   | c :: r' => if c =? 46 then span_digits r' else ([], r)
                   | [] => ([], [])
                   end in
  match ip ++ fp with
  | [] => None
  | ds =>
    match digits_val ds, parse_exp r2 with
    | Some n, Some e => Some (DFin neg n (e - Z.of_nat (length fp)))
    | _, _ => None
    end
  end.
Definition parse_special (neg : bool) (s : str) : option dec :=
  let l := lower s in
  if str_eqb l (u "inf") || str_eqb l (u "infinity") then Some (DInf neg)
  else if startswith l (u "nan") then
    option_map (DNan neg false) (digits_val (skipn 3 l))
  else if startswith l (u "snan") then
    option_map (DNan neg true) (digits_val (skipn 4 l))
  else None.
(** [Decimal(s)] for a str; [None] = InvalidOperation.  All underscores are
    dropped, surrounding white space is ignored.  SIMPLIFICATION: no limit on
    the exponent. *)
Definition parse_dec (s : str) : option dec :=
  let t := remove_c 95 (strip is_ws s) in
  let '(neg, t1) := match t with
                    | c :: t' => if c =? 43 then (false, t') else if c =? 45 then (true, t') else (false, t)
                    | [] => (false, [])
                    end in
  match parse_finite neg t1 with
  | Some d => Some d
  | None => parse_special neg t1
  end.

(** Exact rational value of a finite decimal. *)
Definition pow10 (n : Z) : Q :=
  if (0 <=? n)%Z then inject_Z (10 ^ n) else / inject_Z (10 ^ (- n)).
Definition dec_Q (d : dec) : option Q :=
  match d with
  | DFin neg coef exp => Some (inject_Z (if neg then - Z.of_N coef else Z.of_N coef) * pow10 exp)%Q
  | _ => None
  end.

(** ** Lemmas *)
Lemma uint_digits_val d acc :
  digits_val_acc acc (uint_digits d) = Some (fold_left (fun a c => 10 * a + (c - 48)) (uint_digits d) acc).
Proof.
  revert acc; induction d; intros acc; cbn [uint_digits digits_val_acc fold_left];
    try reflexivity;
    match goal with |- context [digit_val ?c] =>
      let r := eval vm_compute in (digit_val c) in change (digit_val c) with r end; cbv iota; apply IHd.
Qed.

Lemma of_uint_acc_fold d (acc : N) p :
  acc = Npos p ->
  Npos (Pos.of_uint_acc d p) = fold_left (fun a c => 10 * a + (c - 48)) (uint_digits d) acc.
Proof.
  revert acc p; induction d; intros acc p ->; cbn [uint_digits fold_left Pos.of_uint_acc]; try reflexivity;
    apply IHd; lia.
Qed.
Lemma of_uint_fold d : N.of_uint d = fold_left (fun a c => 10 * a + (c - 48)) (uint_digits d) 0.
Proof.
  unfold N.of_uint. induction d; cbn [uint_digits fold_left Pos.of_uint]; try reflexivity; try exact IHd;
    apply of_uint_acc_fold; reflexivity.
Qed.

Lemma digits_val_N_str n : digits_val (N_str n) = Some n.
Proof.
  unfold digits_val, N_str. rewrite uint_digits_val, <- of_uint_fold. f_equal. apply DecimalN.Unsigned.of_to.
Qed.

Lemma uint_digits_ascii d c : In c (uint_digits d) -> 48 <= c <= 57.
Proof. induction d; cbn [uint_digits]; intros H; try destruct H as [<-|H]; try lia; try contradiction; auto. Qed.
Lemma N_str_ascii n c : In c (N_str n) -> 48 <= c <= 57.
Proof. apply uint_digits_ascii. Qed.
Lemma N_str_nonempty n : N_str n <> [].
Proof.
  intros H. pose proof (digits_val_N_str n) as E. rewrite H in E. cbn in E. injection E as <-.
  vm_compute in H. discriminate.
Qed.

Lemma ascii_digit_val c : 48 <= c <= 57 -> digit_val c = Some (c - 48).
Proof. intros H. replace c with (48 + (c - 48)) at 1 by lia. apply digit_val_ascii. lia. Qed.
Lemma ascii_is_digit c : 48 <= c <= 57 -> is_digit c = true.
Proof. intros H. unfold is_digit. rewrite ascii_digit_val by exact H. reflexivity. Qed.

Lemma int_body_digits s acc b :
  (forall c, In c s -> 48 <= c <= 57) -> (s <> [] \/ b = true) -> int_body acc b s = digits_val_acc acc s.
Proof.
  revert acc b; induction s as [|c s IH]; intros acc b H Hb; cbn [int_body digits_val_acc].
  - destruct Hb as [Hb| ->]; [congruence|reflexivity].
  - rewrite ascii_digit_val by (apply H; left; reflexivity).
    apply IH; [intros; apply H; right; assumption | right; reflexivity].
Qed.

Lemma ws_int_digit c : 48 <= c <= 57 -> is_ws_int c = false.
Proof.
  intros H. assert (E: c = 48 \/ c = 49 \/ c = 50 \/ c = 51 \/ c = 52 \/ c = 53 \/ c = 54 \/ c = 55 \/ c = 56 \/ c = 57) by lia.
  repeat (destruct E as [E|E]; [rewrite E; reflexivity|]). rewrite E; reflexivity.
Qed.
Lemma ws_digit c : 48 <= c <= 57 -> is_ws c = false.
Proof.
  intros H. assert (E: c = 48 \/ c = 49 \/ c = 50 \/ c = 51 \/ c = 52 \/ c = 53 \/ c = 54 \/ c = 55 \/ c = 56 \/ c = 57) by lia.
  repeat (destruct E as [E|E]; [rewrite E; reflexivity|]). rewrite E; reflexivity.
Qed.

Lemma strip_id p s :
  (forall x, In x s -> p x = false) -> strip p s = s.
Proof.
  intros H. unfold strip. rewrite lstrip_id.
  - apply rstrip_id. intros x Hx. apply H. apply in_rev. destruct (rev s); [discriminate|]. injection Hx as ->. left; reflexivity.
  - intros x Hx. apply H. destruct s; [discriminate|]. injection Hx as ->. left; reflexivity.
Qed.

Lemma Z_str_chars z c : In c (Z_str z) -> c = 45 \/ 48 <= c <= 57.
Proof.
  destruct z; cbn [Z_str].
  - intros [<-|[]]. right; lia.
  - intros H. right. eapply N_str_ascii; eassumption.
  - intros [<-|H]; [left; reflexivity|right; eapply N_str_ascii; eassumption].
Qed.

Theorem parse_int_Z_str z : parse_int (Z_str z) = Some z.
Proof.
  unfold parse_int. rewrite strip_id.
  2:{ intros x Hx. apply Z_str_chars in Hx as [-> |Hx]; [reflexivity|apply ws_int_digit; exact Hx]. }
  destruct z as [|p|p]; [reflexivity| |].
  - cbn [Z_str]. pose proof (N_str_nonempty (Npos p)) as Hne.
    destruct (N_str (Npos p)) as [|c s] eqn:E; [congruence|].
    assert (Hc : forall d, In d (c :: s) -> 48 <= d <= 57) by (intros d Hd; rewrite <- E in Hd; eapply N_str_ascii; eassumption).
    pose proof (Hc c (or_introl eq_refl)) as Hc0.
    replace (c =? 43) with false by (symmetry; apply N.eqb_neq; lia).
    replace (c =? 45) with false by (symmetry; apply N.eqb_neq; lia).
    rewrite int_body_digits by (auto; left; discriminate). fold (digits_val (c :: s)). rewrite <- E, digits_val_N_str. reflexivity.
  - cbn [Z_str]. change (45 =? 43) with false. change (45 =? 45) with true. cbv iota.
    rewrite int_body_digits; [| intros d Hd; eapply N_str_ascii; eassumption | left; apply N_str_nonempty].
    fold (digits_val (N_str (Npos p))). rewrite digits_val_N_str. reflexivity.
Qed.
