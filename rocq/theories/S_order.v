(* Specification: decoding order in the interleaved mode (RFC 6184 5.5).  Units are counted in decoding order by any integer; what is
   sent along is that count modulo 2^16. *)
From Verif Require Import Base S_nal.

Definition don_of (d : Z) : Z := d mod 2 ^ 16.
(* two units near enough to be compared *)
Definition near (d e : Z) : Prop := -32768 < e - d < 32768.
