(* Specification: what a media playlist over one growing file must say (RFC 8216 4.3.2.1, 4.3.2.2). *)
From Coq Require Import String.
From Verif Require Import Base GoStrings.

(* a history is the list of (duration, length) added, oldest first *)
Definition total (h : list (Z * Z)) : Z := fold_right (fun e a => snd e + a) 0 h.

(* segment number j of the history: its duration, its length and the number of bytes before it *)
Definition entry (h : list (Z * Z)) (j : nat) : Z * Z * Z :=
  let '(d, l) := nth j h (0, 0) in (d, l, total (firstn j h)).

(* the numbers of the last min(n, k) segments, oldest first *)
Definition shown (n k : nat) : list nat := seq (n - k) (Nat.min n k).

Definition entry_text (fmt : Z -> bytes) (uri : bytes) (e : Z * Z * Z) : bytes :=
  let '(d, l, p) := e in
  bs "#EXTINF:" ++ fmt d ++ [10] ++ bs "#EXT-X-BYTERANGE:" ++ itoa l ++ bs "@" ++ itoa p ++ [10] ++ uri ++ [10].

Definition playlist_text (fmt : Z -> bytes) (uri : bytes) (es : list (Z * Z * Z)) : bytes :=
  bs "#EXTM3U" ++ [10] ++ bs "#EXT-X-VERSION:4" ++ [10] ++ flat_map (entry_text fmt uri) es ++ bs "#EXT-X-ENDLIST" ++ [10].

(* every length is a real length and the file stays below 2^63 bytes *)
Definition file_ok (h : list (Z * Z)) : Prop := Forall (fun e => 0 <= snd e) h /\ total h < 2 ^ 63.
