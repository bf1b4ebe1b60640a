(* Specification: pieces of a byte stream, H.264 B.1. *)
From Verif Require Import Base.

(* neither zero bytes nor a start code at the end *)
Definition whole (a : bytes) : Prop := a <> [] /\ last a 1 <> 0 /\ ~ exists p, a = p ++ [0; 0; 1].
