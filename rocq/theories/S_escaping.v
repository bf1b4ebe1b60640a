(* Specification: what has to be escaped in a NAL unit, H.264 7.4.1. *)
From Verif Require Import Base S_annexb.

(* two zero bytes with a byte up to 3 behind them, or at the end *)
Definition to_escape (l : bytes) : Prop :=
  (exists x, x <= 3 /\ contains [0; 0; x] l) \/ exists p, l = p ++ [0; 0].
