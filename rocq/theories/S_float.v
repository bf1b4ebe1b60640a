(* Specification: decimal numbers in a playlist and the float64 they stand for (property C149). *)
From Coq Require Import String.
From Verif Require Import Base S_m3u8.

(* RFC 8216 4.2: decimal-integer or (unsigned) decimal-floating-point; Some (n, k) is n * 10^-k *)
Definition quantity (t : bytes) : option (Z * Z) :=
  match behind 46 t with
  | None => match decimal t with Some n => Some (n, 0) | None => None end
  | Some f => match decimal (before 46 t), decimal f with
              | Some i, Some x => Some (i * 10 ^ zlen f + x, zlen f)
              | _, _ => None
              end
  end.

(* IEEE 754 binary64: the finite numbers that are not negative are the bit patterns below that of infinity, in their order.  The value of a
   pattern is [grid] * 2^-1074; that of infinity is what the next number would be. *)
Definition infinity : Z := 2047 * 2 ^ 52.
Definition finite (b : Z) : Prop := 0 <= b < infinity.
Definition grid (b : Z) : Z :=
  let e := b / 2 ^ 52 in let f := b mod 2 ^ 52 in if e =? 0 then f else (2 ^ 52 + f) * 2 ^ (e - 1).

(* n * 10^-k, rounded to the nearest and in a tie to the even pattern, is the float64 b *)
Definition rounds_to (n k b : Z) : Prop :=
  let off x := Z.abs (n * 2 ^ 1074 - grid x * 10 ^ k) in
  forall x, 0 <= x <= infinity -> x <> b -> off b < off x \/ off b = off x /\ Z.even b = true.

(* what RFC 8216 4.3.2.1 lets stand for the duration d, a bit pattern, in a playlist *)
Definition tells (t : bytes) (d : Z) : Prop := exists n k, quantity t = Some (n, k) /\ rounds_to n k d.

(* of the segments added, those a playlist of k lists *)
Definition newest (k : nat) (h : list (Z * Z)) : list (Z * Z) := skipn (length h - k) h.
