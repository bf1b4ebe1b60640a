(* Specification: the numbers of the SETUP requests when others issue commands meanwhile. *)
From Verif Require Import Base M_race.

(* the number of the request for stream k: c is the number of the last request before *)
Fixpoint number (c : Z) (between : nat -> list order) (k : nat) : Z :=
  match k with
  | O => c + 1
  | S k => number c between k + zlen (between k) + 1
  end.
