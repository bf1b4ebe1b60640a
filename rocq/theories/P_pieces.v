(* C183: numbers read in pieces. *)
From Verif Require Import Base S_bits M_bits L_base L_bits L_pieces.

(* C183  Full statement: reading n bits and then m bits gives the two parts of the number that reading n + m bits at once gives, and leaves as many bits.
   So it is for up to 25 bits, wherever in a byte they begin. *)
Theorem C183_partial : forall buf r n m, buf_ok buf -> buf <> [] -> reached buf r -> 0 <= n -> 0 <= m -> n + m <= 25 -> n + m <= available r ->
  exists r1 a r2 b r', read_bits r n = (r1, Ok a) /\ read_bits r1 m = (r2, Ok b) /\
    read_bits r (n + m) = (r', Ok (a * 2 ^ m + b)) /\ available r' = available r2.
Proof. exact read_whole. Qed.
Print Assumptions C183_partial.

(* Longer numbers come out right in pieces of up to 25 bits, also those of more than 32 bits. *)
Theorem C183_pieces : forall buf r n m, buf_ok buf -> buf <> [] -> reached buf r -> 0 <= n <= 25 -> 0 <= m <= 25 -> n + m <= available r ->
  exists r1 a r2 b, read_bits r n = (r1, Ok a) /\ read_bits r1 m = (r2, Ok b) /\ available r2 = available r - (n + m) /\
    a * 2 ^ m + b = bval (firstn (Z.to_nat (n + m)) (rest_bits buf (available r))).
Proof. exact read_pieces. Qed.
Print Assumptions C183_pieces.

(* Read at once they do not: 26 bits from the last bit of a byte on lose the first of them. *)
Theorem C183_refuted : exists buf r n m r1 a r2 b r' v, buf_ok buf /\ reached buf r /\ n + m = 26 /\
  read_bits r n = (r1, Ok a) /\ read_bits r1 m = (r2, Ok b) /\ read_bits r (n + m) = (r', Ok v) /\ v <> a * 2 ^ m + b.
Proof.
  exists [1; 0; 0; 0; 0], (fst (read_bits (new_reader [1; 0; 0; 0; 0]) 7)), 13, 13. do 6 eexists. splits.
  - split; [repeat constructor; cbn; lia|cbn; lia].
  - exists [OpRead 7]. split; [constructor; [cbn; lia|constructor]|vm_compute; reflexivity].
  - reflexivity.
  - vm_compute. reflexivity.
  - vm_compute. reflexivity.
  - vm_compute. reflexivity.
  - vm_compute. discriminate.
Qed.
Print Assumptions C183_refuted.

Example C183_case : let r := fst (read_bits (new_reader [18; 52; 86; 120]) 4) in
  snd (read_bits r 20) = Ok 144470 /\ snd (read_bits r 8) = Ok 35 /\ snd (read_bits (fst (read_bits r 8)) 12) = Ok 1110 /\ 35 * 2 ^ 12 + 1110 = 144470.
Proof. intros r. splits; vm_compute; reflexivity. Qed.
