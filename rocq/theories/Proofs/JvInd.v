(** Induction over JSON values, and unfolding lemmas for the parser. *)
From Verif.Base Require Import PyStr PyNum PyVal PyDict Outcome.
From Verif.Model Require Import Flatten.

Section JInd.
  Variable P : jv -> Prop.
  Hypothesis Hs : forall s, P (JS s).
  Hypothesis Ha : forall l, Forall P l -> P (JA l).
  Hypothesis Ho : forall d, Forall (fun kv => P (snd kv)) d -> P (JO d).
  Fixpoint jv_ind' (v : jv) : P v.
  Proof.
    destruct v as [s|l|d].
    - apply Hs.
    - apply Ha. exact ((fix go (l : list jv) : Forall P l :=
        match l return Forall P l with [] => Forall_nil _ | v :: l' => Forall_cons v (jv_ind' v) (go l') end) l).
    - apply Ho. exact ((fix go (d : jobj) : Forall (fun kv => P (snd kv)) d :=
        match d return Forall (fun kv => P (snd kv)) d with
        | [] => Forall_nil _
        | (k, v) :: d' => Forall_cons (k, v) (jv_ind' v) (go d')
        end) d).
  Qed.
End JInd.
