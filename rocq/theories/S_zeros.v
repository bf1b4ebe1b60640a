(* Specification: byte streams with zero bytes around the units (H.264 Annex B B.1.1: leading_zero_8bits and zero_byte before
   the start code, trailing_zero_8bits behind the unit; none of them belongs to a unit). *)
From Verif Require Import Base S_annexb.

(* each unit behind its zero bytes and a start code; zero bytes at the end *)
Definition zero_stream (us : list (nat * bytes)) (t : nat) : bytes :=
  flat_map (fun u => repeat 0 (fst u) ++ [0; 0; 1] ++ encapsulate (snd u)) us ++ repeat 0 t.

(* what is returned of it: the zeros before a start code, but one, stay with the unit before, those at the end with the last *)
Fixpoint with_zeros (u : bytes) (us : list (nat * bytes)) (t : nat) : list bytes :=
  match us with
  | [] => [u ++ repeat 0 t]
  | (k, u') :: r => (u ++ repeat 0 (k - 1)) :: with_zeros u' r t
  end.
