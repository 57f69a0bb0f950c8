(** The types of a parsed schema are known to the converters. *)
From Verif.Base Require Import PyStr PyVal PyDict Outcome.
From Verif.Model Require Import Convert Input Schema.
From Verif.Spec Require Import Conversion SchemaFields Odds.
From Verif.Proofs Require Import SchemaLines.
Theorem parsed_known O S st w : parse_schema O S = Ok st w -> plain_names O S -> known_types (types_of st).
Proof.
  intros H Hp p. unfold types_of. destruct (sget p (sp_flat st)) as [t|] eqn:E; [|left; left; reflexivity].
  destruct (types_recorded O S st w H Hp p t E) as [_ [Hv|[[Hg _]|Ho]]]; auto.
Qed.
