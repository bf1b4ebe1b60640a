(* Specification of RFC 6184 payload structures, independent of the model. *)
From Verif Require Import Base S_annexb.

(* What the sink exposes for one NAL unit. *)
Record nal_unit := mkUnit { u_header : Z; u_don : Z; u_ts : Z; u_data : bytes }.

(* NAL unit header fields (RFC 6184 1.3): F(1) NRI(2) Type(5). *)
Definition nal_type (h : Z) : Z := h mod 32.
Definition nal_nri (h : Z) : Z := (h / 32) mod 4.
Definition nal_f (h : Z) : Z := h / 128.

(* 5.7.1: aggregation units of a STAP: 16-bit size, then the NAL unit. *)
Definition stap_entries (us : list bytes) : bytes := flat_map (fun u => be_put 2 (zlen u) ++ u) us.
Definition stap_a (h : Z) (us : list bytes) : bytes := h :: stap_entries us.
Definition stap_b (h don : Z) (us : list bytes) : bytes := h :: be_put 2 don ++ stap_entries us.

(* 5.7.2: aggregation units of an MTAP: size, DOND, timestamp offset of w bytes, NAL unit. *)
Definition mtap_entries (w : nat) (us : list (Z * Z * bytes)) : bytes :=
  flat_map (fun e => let '(dond, off, u) := e in be_put 2 (zlen u) ++ [dond] ++ be_put w off ++ u) us.
Definition mtap (w : nat) (h donb : Z) (us : list (Z * Z * bytes)) : bytes :=
  h :: be_put 2 donb ++ mtap_entries w us.

(* 5.8: fragmentation units; S and E bits and the original type in the FU header. *)
Definition fu_indicator (h t : Z) : Z := (h / 32) * 32 + t.          (* F and NRI of the NAL, type t *)
Definition fu_header (s e : bool) (h : Z) : Z := Z.b2z s * 128 + Z.b2z e * 64 + nal_type h.
Definition fu_a (h : Z) (s e : bool) (chunk : bytes) : bytes := fu_indicator h 28 :: fu_header s e h :: chunk.
Definition fu_b (h don : Z) (s e : bool) (chunk : bytes) : bytes :=
  fu_indicator h 29 :: fu_header s e h :: be_put 2 don ++ chunk.

(* a payload in which nothing looks like a start code or an emulation prevention sequence *)
Definition plain (p : bytes) : Prop := ~ contains [0; 0; 1] p /\ ~ contains [0; 0; 3] p.

(* no emulation prevention sequence lies across the border of a and b *)
Definition no_straddle (a b : bytes) : Prop :=
  ~ (exists a' b', a = a' ++ [0] /\ b = 0 :: 3 :: b') /\ ~ (exists a' b', a = a' ++ [0; 0] /\ b = 3 :: b').
Fixpoint cuts_ok (pre : bytes) (chunks : list bytes) : Prop :=
  match chunks with
  | [] => True
  | c :: cs => no_straddle pre (c ++ concat cs) /\ cuts_ok (pre ++ c) cs
  end.

(* numbering of aggregated units *)
Fixpoint number (don ts : Z) (us : list bytes) : list nal_unit :=
  match us with
  | [] => []
  | u :: us => mkUnit (hd 0 u) don ts (tl u) :: number ((don + 1) mod 2 ^ 16) ts us
  end.

(* RFC 6184 5.5 don_diff *)
Definition rfc_don_diff (m n : Z) : Z :=
  if m =? n then 0
  else if (m <? n) && (n - m <? 32768) then n - m
  else if (m >? n) && (m - n >=? 32768) then 65536 - m + n
  else if (m <? n) && (n - m >=? 32768) then - (m + 65536 - n)
  else - (m - n).

(* the fragments of a NAL unit: S on the first, E on the last *)
Fixpoint fu_tail (mk : bool -> bool -> bytes -> bytes) (cs : list bytes) : list bytes :=
  match cs with
  | [] => []
  | [c] => [mk false true c]
  | c :: cs => mk false false c :: fu_tail mk cs
  end.
Definition fu_packets (mk : bool -> bool -> bytes -> bytes) (c : bytes) (cs : list bytes) : list bytes :=
  mk true false c :: fu_tail mk cs.

(* sizes the 16-bit arithmetic can carry *)
Definition stap_size_ok (u : bytes) : Prop := 1 <= zlen u <= 65533.
Definition mtap_entry_ok (w : nat) (e : Z * Z * bytes) : Prop :=
  let '(dond, off, u) := e in
  0 <= dond < 256 /\ 0 <= off < 256 ^ Z.of_nat w /\ 1 <= zlen u <= 65532 - Z.of_nat w.

(* raw packets on which the 16-bit arithmetic overflows or underflows *)
Definition crash (n : bytes) : Prop :=
  (exists h us size rest, nal_type h = 24 /\ Forall stap_size_ok us /\
     n = h :: stap_entries us ++ be_put 2 size ++ rest /\ (size = 0 \/ 65534 <= size < 65536)) \/
  (exists h don us size rest, nal_type h = 25 /\ Forall stap_size_ok us /\
     n = h :: be_put 2 don ++ stap_entries us ++ be_put 2 size ++ rest /\ (size = 0 \/ 65534 <= size < 65536)) \/
  (exists w h don us size rest, (nal_type h = 26 /\ w = 2%nat \/ nal_type h = 27 /\ w = 3%nat) /\
     Forall (mtap_entry_ok w) us /\
     n = h :: be_put 2 don ++ mtap_entries w us ++ be_put 2 size ++ rest /\ 1 + Z.of_nat w <= zlen rest /\
     (size = 0 \/ 65533 - Z.of_nat w <= size < 65536)).

(* raw packets the receiver gets through: complete up to less than one more entry *)
Definition taken (n : bytes) : Prop := exists h r, n = h :: r /\
  ((nal_type h < 24 \/ 29 < nal_type h) \/
   (nal_type h = 24 /\ exists us tail, Forall stap_size_ok us /\ r = stap_entries us ++ tail /\ zlen tail < 2) \/
   (nal_type h = 25 /\ exists don us tail, Forall stap_size_ok us /\ r = be_put 2 don ++ stap_entries us ++ tail /\ zlen tail < 2) \/
   (exists w don us tail, (nal_type h = 26 /\ w = 2%nat \/ nal_type h = 27 /\ w = 3%nat) /\ Forall (mtap_entry_ok w) us /\
      r = be_put 2 don ++ mtap_entries w us ++ tail /\ zlen tail < 3 + Z.of_nat w) \/
   (nal_type h = 28 /\ 1 <= zlen r) \/ (nal_type h = 29 /\ 3 <= zlen r)).
(* of the packets of a payload, one does too much and those before it are gone through *)
Definition breaks_at (nals : list bytes) : Prop := exists a n b, nals = a ++ n :: b /\ Forall taken a /\ crash n.
