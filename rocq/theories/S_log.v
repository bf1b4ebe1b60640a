(* Specification: what the client's output tells about the packets received. *)
From Coq Require Import String.
From Verif Require Import Base GoStrings S_rtp S_nal M_main.

(* a NAL unit: forbidden_zero_bit, nal_ref_idc and nal_unit_type (H.264 7.3.1), and the number of bytes after them *)
Definition unit_text (u : nal_unit) : bytes :=
  bs "NAL Zero=" ++ (if (u_header u / 128) mod 2 =? 0 then bs "true" else bs "false") ++ bs ", RefIdc=" ++ itoa ((u_header u / 32) mod 4) ++
  bs ", Type=" ++ itoa (u_header u mod 32) ++ bs ", Size=" ++ itoa (zlen (u_data u)) ++ [13; 10].
(* a media packet on a channel: payload type, number of sources, marker, sequence number *)
Definition media_text (ch : Z) (h : rtp_header) : bytes :=
  bs "RTP [" ++ itoa ch ++ bs "] PT=" ++ itoa (h_type h) ++ bs ", CC=" ++ itoa (zlen (h_csrc h)) ++ bs ", M=" ++ (if h_marker h then bs "true" else bs "false") ++
  bs ", SN=" ++ itoa (h_seq h) ++ [13; 10].
(* a control packet: type, length in words less one, count *)
Definition control_text (ch type len count : Z) : bytes :=
  bs "RTCP [" ++ itoa ch ++ bs "] PT=" ++ itoa type ++ bs ", LN=" ++ itoa len ++ bs ", C=" ++ itoa count ++ [13; 10].
Inductive described : Z * bytes -> bytes -> Prop :=
| de_media ch h payload : ch mod 2 = 0 -> rtp_legal h -> described (ch, rtp_layout h payload) (media_text ch h)
| de_control ch padding count type len rest : ch mod 2 = 1 -> 0 <= count < 32 -> byte_ok type -> word 2 len ->
    described (ch, rtcp_header_bytes padding count type len ++ rest) (control_text ch type len count).

(* the entries printed when a packet is taken; among them those of units *)
Definition of_packets (out : list (yevent * bytes)) : list bytes := map snd (filter (fun x => match fst x with YPacket => true | _ => false end) out).
Definition is_unit (l : bytes) : bool := beq (firstn 4 l) (bs "NAL ").
Definition unit_lines (l : list bytes) : list bytes := filter is_unit l.
Definition other_lines (l : list bytes) : list bytes := filter (fun x => negb (is_unit x)) l.
