(* Specification: RTP data packets (RFC 3550 5.1, 5.3.1) and RTCP sender reports (RFC 3550 6.4.1), as
   layouts of abstract headers.  Independent of the model. *)
From Verif Require Import Base.

Definition bit (b : bool) : Z := if b then 1 else 0.
Definition word (k : nat) (z : Z) : Prop := 0 <= z < 256 ^ Z.of_nat k.

(* ---- RTP ---- *)
Record rtp_header := mkRtpH {
  h_padding : bool; h_marker : bool; h_type : Z; h_seq : Z; h_time : Z; h_ssrc : Z;
  h_csrc : list Z; h_ext : option (Z * bytes)   (* profile word, 32-bit aligned data *) }.

Definition rtp_legal (h : rtp_header) : Prop :=
  0 <= h_type h < 128 /\ word 2 (h_seq h) /\ word 4 (h_time h) /\ word 4 (h_ssrc h) /\
  zlen (h_csrc h) <= 15 /\ Forall (word 4) (h_csrc h) /\
  match h_ext h with
  | None => True
  | Some (prof, d) => word 2 prof /\ exists w, word 2 w /\ zlen d = 4 * w
  end.

Definition rtp_layout (h : rtp_header) (payload : bytes) : bytes :=
  [128 + 32 * bit (h_padding h) + 16 * bit (if h_ext h then true else false) + zlen (h_csrc h);
   128 * bit (h_marker h) + h_type h]
  ++ be_put 2 (h_seq h) ++ be_put 4 (h_time h) ++ be_put 4 (h_ssrc h)
  ++ flat_map (be_put 4) (h_csrc h)
  ++ match h_ext h with
     | None => []
     | Some (prof, d) => be_put 2 prof ++ be_put 2 (zlen d / 4) ++ d
     end
  ++ payload.

(* a byte string that is a whole RTP packet *)
Definition rtp_complete (buf : bytes) : Prop :=
  exists h payload, rtp_legal h /\ buf = rtp_layout h payload.

(* the version field (top two bits of the first byte) is 2 *)
Definition version2 (buf : bytes) : Prop := exists b r, buf = b :: r /\ b / 64 = 2.

(* RFC 3550 5.1: padding octets, the last of which counts them all (itself included) *)
Definition padding_octets (n : Z) : bytes := repeat 0 (Z.to_nat (n - 1)) ++ [n].

(* ---- RTCP ---- *)
Record report_block := mkRB {
  rb_ssrc : Z; rb_fraction : Z; rb_lost : Z; rb_seq : Z; rb_jitter : Z; rb_lsr : Z; rb_dlsr : Z }.
Definition rb_layout (r : report_block) : bytes :=
  be_put 4 (rb_ssrc r) ++ be_put 1 (rb_fraction r) ++ be_put 3 (rb_lost r) ++ be_put 4 (rb_seq r)
  ++ be_put 4 (rb_jitter r) ++ be_put 4 (rb_lsr r) ++ be_put 4 (rb_dlsr r).

Record sender_info := mkSI { si_ssrc : Z; si_ntp : Z; si_rtp : Z; si_packets : Z; si_octets : Z }.
Definition si_legal (s : sender_info) : Prop :=
  word 4 (si_ssrc s) /\ word 8 (si_ntp s) /\ word 4 (si_rtp s) /\ word 4 (si_packets s) /\ word 4 (si_octets s).

Definition rtcp_header_bytes (padding : bool) (count type len : Z) : bytes :=
  [128 + 32 * bit padding + count; type] ++ be_put 2 len.

Definition sr_layout (padding : bool) (len : Z) (s : sender_info) (blocks : list report_block) (rest : bytes) : bytes :=
  rtcp_header_bytes padding (zlen blocks) 200 len
  ++ be_put 4 (si_ssrc s) ++ be_put 8 (si_ntp s) ++ be_put 4 (si_rtp s) ++ be_put 4 (si_packets s)
  ++ be_put 4 (si_octets s) ++ flat_map rb_layout blocks ++ rest.
