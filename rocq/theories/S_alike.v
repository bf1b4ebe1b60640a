(* Property C178: how much of a control packet its reading depends on. *)
From Verif Require Import Base.

(* RFC 3550 6.4: the header of four bytes, and in a sender report (packet type 200) the sender's SSRC and the sender info after it *)
Definition part_read (b : bytes) : nat := if nth 1 b 0 =? 200 then 28 else 4.
(* RFC 3550 6.4.1: as many report blocks of 24 bytes as the count in the five low bits of the first byte says *)
Definition room (b : bytes) : Z := if nth 1 b 0 =? 200 then 28 + 24 * (nth 0 b 0 mod 32) else 4.
