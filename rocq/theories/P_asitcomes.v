(* C181: a byte stream split as it comes. *)
From Verif Require Import Base M_annexb L_base L_annexb L_asitcomes.

(* C181  Whatever part a of a byte stream has come, all its units but the last are final, and the rest of the stream need only be added to q,
   the bytes of a that make the last unit (all of a, or what is behind a start code): the units of the whole are the final ones followed by those of q and what comes, whatever that is. *)
Theorem C181_as_it_comes : forall a, exists p q us u,
  a = p ++ q /\ (p = [] \/ exists p', p = p' ++ [0; 0; 1]) /\ split_annexb q = Ok [u] /\ split_annexb a = Ok (us ++ [u]) /\
  forall b, exists ws, split_annexb (q ++ b) = Ok ws /\ split_annexb (a ++ b) = Ok (us ++ ws).
Proof. exact split_as_it_comes. Qed.
Print Assumptions C181_as_it_comes.

(* two units and half a start code have come, then the other half and one more unit *)
Example C181_case :
  split_annexb [0; 0; 1; 103; 66; 0; 0; 0; 1; 104; 7; 0; 0] = Ok [[103; 66]; [104; 7; 0; 0]] /\
  split_annexb [104; 7; 0; 0] = Ok [[104; 7; 0; 0]] /\
  split_annexb ([104; 7; 0; 0] ++ [1; 101; 9]) = Ok [[104; 7]; [101; 9]] /\
  split_annexb ([0; 0; 1; 103; 66; 0; 0; 0; 1; 104; 7; 0; 0] ++ [1; 101; 9]) = Ok [[103; 66]; [104; 7]; [101; 9]].
Proof. splits; vm_compute; reflexivity. Qed.
