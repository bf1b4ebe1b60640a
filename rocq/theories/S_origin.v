(* Specification: the same packets with another origin of the clock, RFC 3550 5.1. *)
From Verif Require Import Base S_nal M_annexb.

Definition moved (d : Z) (u : nal_unit) : nal_unit := mkUnit (u_header u) (u_don u) ((u_ts u + d) mod 2 ^ 32) (u_data u).
Definition later (d : Z) (p : bytes * Z) : bytes * Z := (fst p, (snd p + d) mod 2 ^ 32).
(* none of its units is an MTAP24, RFC 6184 5.7.2 *)
Definition no_mtap24 (p : bytes * Z) : Prop := forall us, split_annexb (fst p) = Ok us -> Forall (fun u => nal_type (hd 0 u) <> 27) us.
