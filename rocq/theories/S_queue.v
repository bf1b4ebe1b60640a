(* Specification: times of keep-alives. *)
From Verif Require Import Base.

(* at least two seconds from each to the next *)
Fixpoint spaced (last : option Z) (clocks : list (Z * Z)) : Prop :=
  match clocks with
  | [] => True
  | (t1, t2) :: r => match last with None => True | Some l => 2000000000 <= t1 - l end /\ spaced (Some t2) r
  end.
