(* Specification: as few digits as tell a float64 (property C163). *)
From Verif Require Import Base S_float.

(* n * 10^-k stands for b with no digit too many: if any whole multiple n' * 10^m * 10^-k' of a power of ten, 10^(m-k'), stands for b, then
   n * 10^-k is a whole multiple of that power, q times it; and if it is none of the next power, it is no farther from b than the other *)
Definition no_longer (n k b : Z) : Prop :=
  let off n k := Z.abs (n * 2 ^ 1074 - grid b * 10 ^ k) in
  forall n' k' m, 0 <= k' -> 0 <= m -> rounds_to (n' * 10 ^ m) k' b ->
  exists q, n * 10 ^ k' = q * 10 ^ (m + k) /\ (q mod 10 <> 0 -> off n k * 10 ^ k' <= off (n' * 10 ^ m) k' * 10 ^ k).
