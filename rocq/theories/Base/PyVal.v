(** Python scalar values as they occur in spreadsheet cells and in the
    unflattened output: None, bool, int, Decimal, float, str, datetime. *)
From Verif.Base Require Import PyStr PyNum.
From Coq Require Import QArith.
Local Open Scope N_scope.

(** A binary float: finite = (-1)^neg * mant * 2^exp exactly. *)
Inductive flt :=
| FFin (neg : bool) (mant : N) (exp : Z)
| FInf (neg : bool)
| FNan.

Inductive scalar :=
| SNone
| SBool (b : bool)
| SInt (z : Z)
| SDec (d : dec)
| SFlt (f : flt)
| SStr (s : str)
| SDt (d : N).   (** a naive datetime.datetime; opaque, see [env] *)

(** What [convert_type] can return: a scalar, a list of scalars, a list of
    lists of scalars, or a geojson geometry (a Python dict, kept opaque). *)
Inductive cellval :=
| CV (s : scalar)
| CList (l : list scalar)
| CList2 (l : list (list scalar))
| CGeo (g : str).

(** Results of the third-party WKT parser (shapely), see [env]. *)
Inductive wkt_result :=
| WktOk (g : str)
| WktBad           (** GEOSException *)
| WktRaise.        (** any other exception *)

(** Everything the model does not compute itself: it is passed around as an
    argument, and every theorem holds for every such environment. *)
Record env := {
  float_str : flt -> str;          (** str(float) *)
  dt_str : N -> str;               (** str(datetime) *)
  dt_date_iso : N -> str;          (** value.date().isoformat() *)
  dt_local_iso : N -> str;         (** timezone.localize(value).isoformat() *)
  geo_available : bool;            (** shapely and geojson importable *)
  wkt_loads : scalar -> wkt_result (** shapely.wkt.loads + geojson.Feature(..).geometry *)
}.

(** ** Numeric value *)
Definition pow2 (n : Z) : Q :=
  if (0 <=? n)%Z then inject_Z (2 ^ n) else / inject_Z (2 ^ (- n)).
Definition flt_Q (f : flt) : option Q :=
  match f with
  | FFin neg m e => Some (inject_Z (if neg then - Z.of_N m else Z.of_N m) * pow2 e)%Q
  | _ => None
  end.
(** extended rationals: what Python compares numbers by *)
Inductive xnum := XFin (q : Q) | XInf (neg : bool) | XNan.
Definition num_val (s : scalar) : option xnum :=
  match s with
  | SBool b => Some (XFin (if b then 1 else 0))
  | SInt z => Some (XFin (inject_Z z))
  | SDec (DFin n c e) => match dec_Q (DFin n c e) with Some q => Some (XFin q) | None => None end
  | SDec (DInf n) => Some (XInf n)
  | SDec (DNan _ _ _) => Some XNan
  | SFlt (FFin n m e) => match flt_Q (FFin n m e) with Some q => Some (XFin q) | None => None end
  | SFlt (FInf n) => Some (XInf n)
  | SFlt FNan => Some XNan
  | _ => None
  end.

Definition xnum_eqb (a b : xnum) : bool :=
  match a, b with
  | XFin p, XFin q => Qeq_bool p q
  | XInf m, XInf n => Bool.eqb m n
  | _, _ => false
  end.

(** Python [a == b] on scalars.  SIMPLIFICATION: a comparison with a signalling
    NaN Decimal, which raises InvalidOperation, is false here. *)
Definition py_eqb (a b : scalar) : bool :=
  match num_val a, num_val b with
  | Some x, Some y => xnum_eqb x y
  | None, None =>
    match a, b with
    | SNone, SNone => true
    | SStr s, SStr t => str_eqb s t
    | SDt m, SDt n => m =? n
    | _, _ => false
    end
  | _, _ => false
  end.

Fixpoint list_eqb {A} (eqb : A -> A -> bool) (a b : list A) : bool :=
  match a, b with
  | [], [] => true
  | x :: a', y :: b' => eqb x y && list_eqb eqb a' b'
  | _, _ => false
  end.
(** [a == b] on cell values.  SIMPLIFICATION: geometries compare by their
    opaque representation. *)
Definition cv_eqb (a b : cellval) : bool :=
  match a, b with
  | CV s, CV t => py_eqb s t
  | CList l, CList m => list_eqb py_eqb l m
  | CList2 l, CList2 m => list_eqb (list_eqb py_eqb) l m
  | CGeo g, CGeo h => str_eqb g h
  | _, _ => false
  end.

(** [hash(x)] does not raise: lists and dicts are unhashable, and so is a
    signalling NaN. *)
Definition hashable (c : cellval) : bool :=
  match c with
  | CV (SDec (DNan _ true _)) => false
  | CV _ => true
  | _ => false
  end.

(** [str(x)] *)
Definition py_str (E : env) (s : scalar) : str :=
  match s with
  | SNone => u "None"
  | SBool true => u "True"
  | SBool false => u "False"
  | SInt z => Z_str z
  | SDec d => dec_str d
  | SFlt f => float_str E f
  | SStr s => s
  | SDt d => dt_str E d
  end.

(** [not x] *)
Definition falsy (s : scalar) : bool :=
  match s with
  | SNone => true
  | SBool b => negb b
  | SInt z => (z =? 0)%Z
  | SDec (DFin _ c _) => c =? 0
  | SDec _ => false
  | SFlt (FFin _ m _) => m =? 0
  | SFlt _ => false
  | SStr [] => true
  | SStr _ => false
  | SDt _ => false
  end.

(** [x is None or x == ""] *)
Definition blank (s : scalar) : bool :=
  match s with SNone => true | SStr [] => true | _ => false end.
Definition cv_blank (c : cellval) : bool :=
  match c with CV s => blank s | _ => false end.

(** ** Equality lemmas *)
Lemma xnum_eqb_sym a b : xnum_eqb a b = xnum_eqb b a.
Proof.
  destruct a as [p|m|], b as [q|n|]; simpl; try reflexivity.
  - destruct (Qeq_bool p q) eqn:E.
    + apply Qeq_bool_iff in E. symmetry. apply Qeq_bool_iff. apply Qeq_sym; exact E.
    + destruct (Qeq_bool q p) eqn:F; [|reflexivity].
      apply Qeq_bool_iff in F. apply Qeq_sym in F. apply Qeq_bool_iff in F. congruence.
  - destruct m, n; reflexivity.
Qed.
Lemma xnum_eqb_trans a b c : xnum_eqb a b = true -> xnum_eqb b c = true -> xnum_eqb a c = true.
Proof.
  destruct a as [p|m|], b as [q|n|], c as [r|k|]; simpl; try discriminate.
  - intros H1 H2. apply Qeq_bool_iff in H1, H2. apply Qeq_bool_iff. eapply Qeq_trans; eassumption.
  - intros H1 H2. apply Bool.eqb_prop in H1, H2. subst. apply Bool.eqb_reflx.
Qed.
Lemma py_eqb_sym a b : py_eqb a b = py_eqb b a.
Proof.
  unfold py_eqb. destruct (num_val a) as [x|], (num_val b) as [y|]; try reflexivity.
  - apply xnum_eqb_sym.
  - destruct a, b; try reflexivity; [apply str_eqb_sym | apply N.eqb_sym].
Qed.
Lemma py_eqb_trans a b c : py_eqb a b = true -> py_eqb b c = true -> py_eqb a c = true.
Proof.
  unfold py_eqb. destruct (num_val a) as [x|], (num_val b) as [y|], (num_val c) as [z|]; try discriminate.
  - apply xnum_eqb_trans.
  - destruct a, b; try discriminate; destruct c; try discriminate; auto.
    + intros H1 H2. apply str_eqb_eq in H1, H2. apply str_eqb_eq. congruence.
    + intros H1 H2. apply N.eqb_eq in H1, H2. apply N.eqb_eq. congruence.
Qed.
(** a value that is equal to itself (everything except NaN) *)
Definition not_nan (s : scalar) : bool :=
  match num_val s with Some XNan => false | _ => true end.
Lemma py_eqb_refl a : not_nan a = true -> py_eqb a a = true.
Proof.
  unfold not_nan, py_eqb. destruct (num_val a) as [x|] eqn:E.
  - destruct x as [q|n|]; simpl; intros H; [apply Qeq_bool_iff; apply Qeq_refl | apply Bool.eqb_reflx | discriminate].
  - intros _. destruct a as [|b|z|[]|[]|s|d]; try reflexivity; try discriminate; [apply str_eqb_refl | apply N.eqb_refl].
Qed.
Lemma py_eqb_refl_iff a : py_eqb a a = true <-> not_nan a = true.
Proof.
  split; [|apply py_eqb_refl]. unfold not_nan, py_eqb. destruct (num_val a) as [[q|n|]|]; simpl; auto.
Qed.
Lemma py_eqb_cong a b c : py_eqb a b = true -> py_eqb a c = py_eqb b c.
Proof.
  intros H. destruct (py_eqb a c) eqn:E, (py_eqb b c) eqn:F; try reflexivity.
  - rewrite py_eqb_sym in H. rewrite (py_eqb_trans _ _ _ H E) in F. discriminate.
  - rewrite (py_eqb_trans _ _ _ H F) in E. discriminate.
Qed.
Lemma py_eqb_str s t : py_eqb (SStr s) (SStr t) = str_eqb s t.
Proof. reflexivity. Qed.
Lemma py_eqb_str_l s x : py_eqb (SStr s) x = true -> x = SStr s.
Proof.
  unfold py_eqb. cbn [num_val]. destruct (num_val x) eqn:E; [discriminate|].
  destruct x; try discriminate. intros H. apply str_eqb_eq in H. congruence.
Qed.
Lemma py_eqb_int a b : py_eqb (SInt a) (SInt b) = (a =? b)%Z.
Proof.
  unfold py_eqb. cbn [num_val xnum_eqb]. destruct (a =? b)%Z eqn:E.
  - apply Z.eqb_eq in E as ->. apply Qeq_bool_iff. apply Qeq_refl.
  - destruct (Qeq_bool (inject_Z a) (inject_Z b)) eqn:F; [|reflexivity].
    apply Qeq_bool_iff in F. unfold Qeq, inject_Z in F. simpl in F. apply Z.eqb_neq in E. lia.
Qed.
