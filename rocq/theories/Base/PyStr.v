(** Python [str] as a list of Unicode code points, with the string methods
    the code uses.  Semantics of CPython 3.11 (checked against the interpreter
    by hand, not part of /repo). *)
From Coq Require Export List NArith ZArith Bool Lia Arith.
From Coq Require Import String Ascii.
Export ListNotations.
Export StringSyntax.
Local Open Scope N_scope.

Definition str := list N.

(** Literal: [u "abc"] is the Python string 'abc' (ASCII literals only). *)
Definition u (s : string) : str := map N_of_ascii (list_ascii_of_string s).
Arguments u s%string.

(** ** Equality *)
Fixpoint str_eqb (a b : str) : bool :=
  match a, b with
  | [], [] => true
  | x :: a', y :: b' => (x =? y) && str_eqb a' b'
  | _, _ => false
  end.

Lemma str_eqb_eq a b : str_eqb a b = true <-> a = b.
Proof.
  revert b; induction a as [|x a IH]; intros [|y b]; simpl; try (split; congruence).
  rewrite andb_true_iff, N.eqb_eq, IH. split; [intros [-> ->]; reflexivity | intros H; inversion H; auto].
Qed.
Lemma str_eqb_refl a : str_eqb a a = true.
Proof. apply str_eqb_eq; reflexivity. Qed.
Lemma str_eqb_neq a b : str_eqb a b = false <-> a <> b.
Proof.
  destruct (str_eqb a b) eqn:E.
  - apply str_eqb_eq in E. split; congruence.
  - split; [|reflexivity]. intros _ ->. rewrite str_eqb_refl in E; discriminate.
Qed.
Lemma str_eqb_sym a b : str_eqb a b = str_eqb b a.
Proof.
  destruct (str_eqb a b) eqn:E.
  - apply str_eqb_eq in E as ->. symmetry; apply str_eqb_refl.
  - symmetry. apply str_eqb_neq. apply str_eqb_neq in E. congruence.
Qed.
Lemma str_eqb_spec a b : reflect (a = b) (str_eqb a b).
Proof.
  destruct (str_eqb a b) eqn:E; constructor.
  - apply str_eqb_eq; exact E.
  - apply str_eqb_neq; exact E.
Qed.
Definition str_eq_dec (a b : str) : {a = b} + {a <> b} := list_eq_dec N.eq_dec a b.

(** Membership of a string in a list of strings ([x in l]). *)
Definition str_mem (x : str) (l : list str) : bool := existsb (str_eqb x) l.
Lemma str_mem_In x l : str_mem x l = true <-> In x l.
Proof.
  unfold str_mem. rewrite existsb_exists. split.
  - intros (y & Hy & E). apply str_eqb_eq in E as ->. exact Hy.
  - intros H. exists x. split; [exact H | apply str_eqb_refl].
Qed.
Lemma str_mem_false x l : str_mem x l = false <-> ~ In x l.
Proof. rewrite <- str_mem_In. destruct (str_mem x l); split; congruence. Qed.

(** Code-point order ([<=] on str), used by [sorted]. *)
Fixpoint str_leb (a b : str) : bool :=
  match a, b with
  | [], _ => true
  | _ :: _, [] => false
  | x :: a', y :: b' => (x <? y) || ((x =? y) && str_leb a' b')
  end.

(** ** split / join *)
(** [s.split(c)] for a one-character separator. *)
Fixpoint split_on (c : N) (s : str) : list str :=
  match s with
  | [] => [[]]
  | x :: s' =>
    if x =? c then [] :: split_on c s'
    else match split_on c s' with
         | h :: t => (x :: h) :: t
         | [] => [[x]]
         end
  end.

(** [sep.join(l)] *)
Fixpoint join (sep : str) (l : list str) : str :=
  match l with
  | [] => []
  | [x] => x
  | x :: l' => x ++ sep ++ join sep l'
  end.

Lemma split_on_nonempty c s : split_on c s <> [].
Proof. destruct s as [|x s]; simpl; [discriminate|]. destruct (x =? c); [discriminate|]. destruct (split_on c s); discriminate. Qed.

Lemma split_on_no_sep c s : ~ In c s -> split_on c s = [s].
Proof.
  induction s as [|x s IH]; simpl; intros H; [reflexivity|].
  destruct (x =? c) eqn:E; [apply N.eqb_eq in E; subst; exfalso; apply H; left; reflexivity|].
  rewrite IH by (intros Hin; apply H; right; exact Hin). reflexivity.
Qed.

Lemma split_on_app c a s : ~ In c a -> split_on c (a ++ c :: s) = a :: split_on c s.
Proof.
  induction a as [|x a IH]; simpl; intros H.
  - rewrite N.eqb_refl. reflexivity.
  - destruct (x =? c) eqn:E; [apply N.eqb_eq in E; subst; exfalso; apply H; left; reflexivity|].
    rewrite IH by (intros Hin; apply H; right; exact Hin). reflexivity.
Qed.

Lemma join_cons sep x y l : join sep (x :: y :: l) = x ++ sep ++ join sep (y :: l).
Proof. reflexivity. Qed.

Lemma split_join c l :
  l <> [] -> (forall x, In x l -> ~ In c x) -> split_on c (join [c] l) = l.
Proof.
  induction l as [|x l IH]; intros Hne H; [congruence|].
  destruct l as [|y l].
  - simpl. apply split_on_no_sep. apply H; left; reflexivity.
  - rewrite join_cons.
    transitivity (x :: split_on c (join [c] (y :: l))).
    + apply split_on_app. apply H; left; reflexivity.
    + f_equal. apply IH; [discriminate | intros z Hz; apply H; right; exact Hz].
Qed.

Lemma split_on_no_sep_inside c s x : In x (split_on c s) -> ~ In c x.
Proof.
  revert x; induction s as [|y s IH]; simpl; intros x Hx.
  - destruct Hx as [<-|[]]; auto.
  - destruct (y =? c) eqn:E.
    + destruct Hx as [<-|Hx]; [auto|apply IH; exact Hx].
    + destruct (split_on c s) as [|h t].
      * destruct Hx as [<-|[]]. intros [-> |[]]. rewrite N.eqb_refl in E; discriminate.
      * destruct Hx as [<-|Hx].
        -- intros [-> |Hin]; [rewrite N.eqb_refl in E; discriminate|]. apply (IH h); [left; reflexivity|exact Hin].
        -- apply IH; right; exact Hx.
Qed.

Lemma join_split c s : join [c] (split_on c s) = s.
Proof.
  induction s as [|x s IH]; [reflexivity|].
  simpl. destruct (x =? c) eqn:E.
  - apply N.eqb_eq in E as ->.
    destruct (split_on c s) as [|h t] eqn:Es; [exfalso; eapply split_on_nonempty; eassumption|].
    rewrite join_cons. rewrite IH. reflexivity.
  - destruct (split_on c s) as [|h t] eqn:Es; [exfalso; eapply split_on_nonempty; eassumption|].
    destruct t as [|h2 t]; [cbn [join] in *; rewrite <- IH; reflexivity|].
    rewrite join_cons in *. rewrite <- IH. reflexivity.
Qed.

(** ** strip family *)
Definition mem_c (c : N) (l : list N) : bool := existsb (N.eqb c) l.
(** [s.lstrip(chars)] *)
Fixpoint lstrip (p : N -> bool) (s : str) : str :=
  match s with
  | [] => []
  | x :: s' => if p x then lstrip p s' else s
  end.
(** [s.rstrip(chars)] *)
Definition rstrip (p : N -> bool) (s : str) : str := rev (lstrip p (rev s)).
(** [s.strip(chars)] *)
Definition strip (p : N -> bool) (s : str) : str := rstrip p (lstrip p s).

Lemma lstrip_id p s : (forall x, hd_error s = Some x -> p x = false) -> lstrip p s = s.
Proof. destruct s as [|x s]; simpl; intros H; [reflexivity|]. rewrite (H x eq_refl). reflexivity. Qed.
Lemma rstrip_id p s : (forall x, hd_error (rev s) = Some x -> p x = false) -> rstrip p s = s.
Proof. intros H. unfold rstrip. rewrite lstrip_id by exact H. apply rev_involutive. Qed.

(** ** prefix / suffix / substring *)
Fixpoint startswith (s p : str) : bool :=
  match p, s with
  | [], _ => true
  | y :: p', x :: s' => (x =? y) && startswith s' p'
  | _ :: _, [] => false
  end.
Definition endswith (s p : str) : bool := startswith (rev s) (rev p).
(** [p in s] *)
Fixpoint contains (s p : str) : bool :=
  startswith s p || match s with [] => false | _ :: s' => contains s' p end.

Lemma startswith_app p s : startswith (p ++ s) p = true.
Proof. induction p as [|x p IH]; simpl; [destruct s; reflexivity|]. rewrite N.eqb_refl. exact IH. Qed.
Lemma startswith_spec s p : startswith s p = true <-> exists t, s = p ++ t.
Proof.
  split.
  - revert s; induction p as [|y p IH]; intros s H; [exists s; reflexivity|].
    destruct s as [|x s]; simpl in H; [discriminate|].
    apply andb_true_iff in H as [E H]. apply N.eqb_eq in E as ->. destruct (IH _ H) as [t ->]. exists t; reflexivity.
  - intros [t ->]. apply startswith_app.
Qed.
Lemma contains_spec s p : contains s p = true <-> exists a b, s = a ++ p ++ b.
Proof.
  split.
  - induction s as [|x s IH]; cbn [contains]; intros H.
    + destruct p; [exists [], []; reflexivity | discriminate].
    + apply orb_true_iff in H as [H|H].
      * apply startswith_spec in H as [t E]. exists [], t. exact E.
      * destruct (IH H) as (a & b & ->). exists (x :: a), b. reflexivity.
  - intros (a & b & ->). induction a as [|x a IH]; cbn [app].
    + pose proof (startswith_app p b) as H. destruct (p ++ b); cbn [contains]; rewrite H; reflexivity.
    + cbn [contains]. rewrite IH. apply orb_true_r.
Qed.

(** [s.replace(old, new)] for a non-empty [old]; fuel = length of s. *)
Fixpoint replace_fuel (n : nat) (old new s : str) : str :=
  match n with
  | O => s
  | S n' =>
    match s with
    | [] => []
    | x :: s' =>
      if startswith s old then new ++ replace_fuel n' old new (skipn (List.length old) s)
      else x :: replace_fuel n' old new s'
    end
  end.
Definition replace (old new s : str) : str := replace_fuel (List.length s) old new s.

(** Replacement / deletion of a single character. *)
Definition replace_c (c d : N) (s : str) : str := map (fun x => if x =? c then d else x) s.
Definition remove_c (c : N) (s : str) : str := filter (fun x => negb (x =? c)) s.

(** [s.lower()].  SIMPLIFICATION: non-ASCII letters are left alone (Python lowers
    all cased letters), except the Kelvin sign, the only non-ASCII code point
    whose lower case is an ASCII letter; so comparing [s.lower()] with an ASCII
    literal is exact. *)
Definition lower_c (x : N) : N :=
  if (65 <=? x) && (x <=? 90) then x + 32 else if x =? 8490 then 107 else x.
Definition lower (s : str) : str := map lower_c s.
Lemma lower_c_idem x : lower_c (lower_c x) = lower_c x.
Proof.
  unfold lower_c. destruct ((65 <=? x) && (x <=? 90)) eqn:E.
  - apply andb_true_iff in E as [E1 E2]. apply N.leb_le in E1, E2.
    replace (x + 32 <=? 90) with false by (symmetry; apply N.leb_gt; lia).
    rewrite andb_false_r. replace (x + 32 =? 8490) with false by (symmetry; apply N.eqb_neq; lia). reflexivity.
  - destruct (x =? 8490) eqn:F; [reflexivity|]. rewrite E, F. reflexivity.
Qed.
Lemma lower_idem s : lower (lower s) = lower s.
Proof. unfold lower. rewrite map_map. apply map_ext. exact lower_c_idem. Qed.

(** ** whitespace and digits *)
(** str.isspace / str.split() / str.strip() white space *)
Definition is_ws (c : N) : bool :=
  ((9 <=? c) && (c <=? 13)) || ((28 <=? c) && (c <=? 32)) || (c =? 133) || (c =? 160) || (c =? 5760)
  || ((8192 <=? c) && (c <=? 8202)) || (c =? 8232) || (c =? 8233) || (c =? 8239) || (c =? 8287) || (c =? 12288).
(** white space ignored around an [int()] literal (the separators 28..31 are not) *)
Definition is_ws_int (c : N) : bool := is_ws c && negb ((28 <=? c) && (c <=? 31)).

(** Zero code points of the Unicode decimal-digit runs (category Nd, Unicode 14). *)
Definition digit_zeros : list N :=
  [48; 1632; 1776; 1984; 2406; 2534; 2662; 2790; 2918; 3046; 3174; 3302; 3430; 3558; 3664; 3792; 3872; 4160;
   4240; 6112; 6160; 6470; 6608; 6784; 6800; 6992; 7088; 7232; 7248; 42528; 43216; 43264; 43472; 43504; 43600;
   44016; 65296; 66720; 68912; 69734; 69872; 69942; 70096; 70384; 70736; 70864; 71248; 71360; 71472; 71904;
   72016; 72784; 73040; 73120; 92768; 92864; 93008; 120782; 120792; 120802; 120812; 120822; 123200; 123632;
   125264; 130032].
Definition digit_val (c : N) : option N :=
  match find (fun z => (z <=? c) && (c <=? z + 9)) digit_zeros with
  | Some z => Some (c - z)
  | None => None
  end.
Lemma digit_val_ascii d : d < 10 -> digit_val (48 + d) = Some d.
Proof.
  intros H. unfold digit_val. cbn [find digit_zeros].
  replace (48 <=? 48 + d) with true by (symmetry; apply N.leb_le; lia).
  replace (48 + d <=? 48 + 9) with true by (symmetry; apply N.leb_le; lia).
  simpl andb. cbv iota. f_equal. lia.
Qed.

Fixpoint split_ws_aux (cur : str) (s : str) : list str :=
  match s with
  | [] => match cur with [] => [] | _ => [rev cur] end
  | x :: s' => if is_ws x then (match cur with [] => split_ws_aux [] s' | _ => rev cur :: split_ws_aux [] s' end)
               else split_ws_aux (x :: cur) s'
  end.
(** [s.split()] *)
Definition split_ws (s : str) : list str := split_ws_aux [] s.
