(* Specification vocabulary for a playlist rendered while segments are added. *)
From Verif Require Import Base.

(* load number n happens when the goroutine that adds has made clock n steps: time runs forwards *)
Definition forwards (clock : nat -> nat) : Prop := forall n, (clock n <= clock (S n))%nat.

(* a figure that is either right or still zero *)
Definition partly (x y : Z) : Prop := x = y \/ x = 0.
