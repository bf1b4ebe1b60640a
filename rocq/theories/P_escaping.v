(* C182: what escaping does to a unit. *)
From Verif Require Import Base S_annexb S_escaping M_annexb L_base L_escaping.

(* C182  Escaping never makes a unit shorter and never by more than a third longer; removing the escapes never makes it longer, and leaves two thirds at least. *)
Theorem C182_size : (forall p e, rbsp_to_encapsulated p = Ok e -> zlen p <= zlen e /\ 3 * zlen e <= 4 * zlen p) /\
  (forall e, zlen (ebsp_to_raw e) <= zlen e /\ 2 * zlen e <= 3 * zlen (ebsp_to_raw e)).
Proof. split; [exact enc_size|exact raw_size]. Qed.
Print Assumptions C182_size.

(* No smaller bound would do, whatever the length. *)
Theorem C182_attained : forall n, exists p e,
  zlen p = 3 * Z.of_nat n /\ rbsp_to_encapsulated p = Ok e /\ zlen e = 4 * Z.of_nat n.
Proof. exact enc_attained. Qed.
Print Assumptions C182_attained.

(* The units that stay as they are are those in which nothing is to be escaped. *)
Theorem C182_unchanged : forall p, rbsp_to_encapsulated p = Ok p <-> ~ to_escape p.
Proof. exact enc_unchanged. Qed.
Print Assumptions C182_unchanged.

(* Units that differ are escaped differently, also those EBSPToRaw does not give back (C09). *)
Theorem C182_differ : forall p p' e, rbsp_to_encapsulated p = Ok e -> rbsp_to_encapsulated p' = Ok e -> p = p'.
Proof. exact enc_differ. Qed.
Print Assumptions C182_differ.

Example C182_case :
  rbsp_to_encapsulated [101; 0; 0; 1; 0; 0; 2; 7] = Ok [101; 0; 0; 3; 1; 0; 0; 3; 2; 7] /\
  rbsp_to_encapsulated [101; 0; 0; 4; 0; 9] = Ok [101; 0; 0; 4; 0; 9] /\
  to_escape [101; 0; 0; 1; 7] /\ ebsp_to_raw [0; 0; 3; 0; 0; 3] = [0; 0; 0; 0].
Proof.
  splits; try (vm_compute; reflexivity). left. exists 1. split; [lia|]. exists [101], [7]. reflexivity.
Qed.
