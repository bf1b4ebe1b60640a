(* Specification: goroutines that ask for an authorization. *)
From Verif Require Import Base S_digest M_digest M_hash.

(* nobody is in a call *)
Definition at_rest (g : hashing) : Prop := forall i, g_at g i = HIdle.
(* whoever begins a call does so while no goroutine is in one *)
Fixpoint one_by_one (g : hashing) (schedule : list nat) : Prop :=
  match schedule with
  | [] => True
  | i :: rest => (g_at g i = HIdle -> at_rest g) /\ one_by_one (hash_step g i) rest
  end.
