(** Exceptions as values, warnings as a log. *)
From Coq Require Import List.
From Verif.Base Require Import PyStr.
Import ListNotations.

(** Python exceptions, by class (the message is kept only where a property
    speaks about it). *)
Inductive exn :=
| ETypeError | EValueError | EKeyError | EIndexError | EAttributeError | EAssertionError
| EOverflowError | EStopIteration | ERuntimeError | EInvalidOperation
| EFlattenToolValueError (detail : str) (** flattentool.exceptions.FlattenToolValueError *)
| EFlattenToolError                     (** flattentool.exceptions.FlattenToolError *)
| EOSError                              (** OSError: a file that is not there, or cannot be read *)
| EOther.

Section Outcome.
  Context {W : Type}.
  Inductive res (A : Type) :=
  | Ok (a : A) (w : list W)
  | Raise (e : exn) (w : list W).
  Arguments Ok {A}. Arguments Raise {A}.
  Definition ret {A} (a : A) : res A := Ok a [].
  Definition warn1 (w : W) : res unit := Ok tt [w].
  Definition bind {A B} (m : res A) (f : A -> res B) : res B :=
    match m with
    | Ok a w => match f a with
                | Ok b w' => Ok b (w ++ w')
                | Raise e w' => Raise e (w ++ w')
                end
    | Raise e w => Raise e w
    end.
  Definition warns {A} (m : res A) : list W := match m with Ok _ w => w | Raise _ w => w end.

  Lemma bind_ok {A B} (m : res A) (f : A -> res B) b w :
    bind m f = Ok b w -> exists a w1 w2, m = Ok a w1 /\ f a = Ok b w2 /\ w = w1 ++ w2.
  Proof.
    destruct m as [a w1|e w1]; simpl; [|discriminate].
    destruct (f a) as [b' w2|e w2] eqn:E; [|discriminate].
    intros [= <- <-]. exists a, w1, w2. auto.
  Qed.
  Lemma bind_ret_l {A B} (a : A) (f : A -> res B) : bind (ret a) f = f a.
  Proof. unfold ret. simpl. destruct (f a); reflexivity. Qed.
End Outcome.
Arguments res W A : clear implicits.
Arguments Ok {W A}. Arguments Raise {W A}.

Declare Scope res_scope.
Delimit Scope res_scope with res.
Notation "x <- m ;; k" := (bind m (fun x => k)) (at level 61, m at next level, right associativity) : res_scope.
Notation "' p <- m ;; k" := (bind m (fun p => k)) (at level 61, p pattern, m at next level, right associativity) : res_scope.
Notation "m ;; k" := (bind m (fun _ => k)) (at level 61, right associativity) : res_scope.
