(* Specification of H.264 byte streams (ITU-T H.264 7.3.1, 7.4.1, Annex B), independent of the model. *)
From Verif Require Import Base.

(* 7.4.1: an 03 is inserted whenever two zeros precede a byte <= 3; [z] = zeros just written.
   [enc_tail]: what is appended at the end when the last byte written is zero. *)
Fixpoint enc_body (tail : bytes) (z : nat) (l : bytes) : bytes :=
  match l with
  | [] => match z with O => [] | S _ => tail end
  | b :: r =>
      if (2 <=? z)%nat && (b <=? 3) then 3 :: b :: enc_body tail (if b =? 0 then 1%nat else 0%nat) r
      else b :: enc_body tail (if b =? 0 then S z else O) r
  end.
(* the encapsulation of the standard, with the final 03 after a cabac_zero_word *)
Definition encapsulate (rbsp : bytes) : bytes := enc_body [3] 0 rbsp.
(* the same without the final 03 *)
Definition encapsulate_open (rbsp : bytes) : bytes := enc_body [] 0 rbsp.

(* Number of zero bytes at the end. *)
Fixpoint lead_zeros (l : bytes) : nat :=
  match l with b :: r => if b =? 0 then S (lead_zeros r) else O | [] => O end.
Definition trail_zeros (l : bytes) : nat := lead_zeros (rev l).

(* An RBSP ends in its stop bit followed by whole cabac_zero_words (0x0000). *)
Definition rbsp_legal (l : bytes) : Prop := Nat.even (trail_zeros l) = true.

(* 7.4.1: patterns that may not occur inside a NAL unit. *)
Definition contains (pat l : bytes) : Prop := exists a b, l = a ++ pat ++ b.
Definition forbidden (l : bytes) : Prop := exists x, 0 <= x <= 2 /\ contains [0; 0; x] l.

(* a byte 3 directly after a maximal run of z zeros with z >= 4 and z = 1 mod 3 *)
Definition lossy_run (l : bytes) : Prop :=
  exists a k b, l = a ++ repeat 0 (3 * k + 4) ++ 3 :: b /\ (a = [] \/ last a 0 <> 0).

(* Annex B byte stream: each unit behind a 3- or 4-byte start code. *)
Definition start_code (long : bool) : bytes := if long then [0; 0; 0; 1] else [0; 0; 1].
Definition byte_stream (us : list (bool * bytes)) : bytes :=
  flat_map (fun u => start_code (fst u) ++ encapsulate (snd u)) us.
