(* Model of /repo/net/rtp/packet.go and /repo/net/rtcp/packet.go *)
From Verif Require Import Base.

(* be.Uint16/32/64(buf[off:]) : reslice, then read k bytes *)
Definition be_at (k : nat) (buf : bytes) (off : nat) : res Z :=
  let! s := slice_from buf off in be_uint k s.

(* ---------------- RTP ---------------- *)
(* rtp/packet.go:35-46  Packet *)
Record rtp_packet := mkRtp {
  rtp_vpxcc : Z; rtp_mpt : Z; rtp_sn : Z; rtp_ts : Z; rtp_ssrc : Z;
  rtp_csrc : list Z; rtp_xh : Z; rtp_xl : Z; rtp_xd : bytes; rtp_pl : bytes }.

(* rtp/packet.go:85-108  P, X, CC, M, PT *)
Definition rtp_P (p : rtp_packet) : bool := negb (Z.land (rtp_vpxcc p) 32 =? 0).
Definition rtp_X (p : rtp_packet) : bool := negb (Z.land (rtp_vpxcc p) 16 =? 0).
Definition rtp_CC (p : rtp_packet) : Z := Z.land (rtp_vpxcc p) 15.
Definition rtp_M (p : rtp_packet) : bool := negb (Z.land (rtp_mpt p) 128 =? 0).
Definition rtp_PT (p : rtp_packet) : Z := Z.land (rtp_mpt p) 127.

(* rtp/packet.go:64-67  the loop over contributing sources; n entries from offset off *)
Fixpoint read_csrc (n : nat) (buf : bytes) (off : nat) : res (list Z) :=
  match n with
  | O => Ok []
  | S n' => let! c := be_at 4 buf off in
            let! cs := read_csrc n' buf (off + 4) in Ok (c :: cs)
  end.

(* rtp/packet.go:50-83  Unpack.  A slice bound is checked against len; Go checks buf[off:off+n] against
   the capacity, but then buf[off:] of line 79 panics in the extra cases.  XD stays empty (nil) for XL = 0. *)
Definition rtp_unpack (buf : bytes) : res rtp_packet :=
  let! b0 := index buf 0 in
  if negb (Z.land b0 192 =? 128) then Err ErrInvalidVersion else
  let! b1 := index buf 1 in
  let! sn := be_at 2 buf 2 in
  let! ts := be_at 4 buf 4 in
  let! ssrc := be_at 4 buf 8 in
  let cc := Z.to_nat (Z.land b0 15) in
  let! csrc := read_csrc cc buf 12 in
  let off := (12 + 4 * cc)%nat in
  let! '(xh, xl, xd, off) :=
    (if negb (Z.land b0 16 =? 0) then
       let! xh := be_at 2 buf off in
       let! xl := be_at 2 buf (off + 2) in
       if xl >? 0 then
         let! xd := slice buf (off + 4) (off + 4 + Z.to_nat (xl * 4)) in
         Ok (xh, xl, xd, (off + 4 + Z.to_nat (xl * 4))%nat)
       else Ok (xh, xl, [], (off + 4)%nat)
     else Ok (0, 0, [], off)) in
  let! pl := slice_from buf off in
  Ok (mkRtp b0 b1 sn ts ssrc csrc xh xl xd pl).

(* rtp/packet.go:111-126  Pack on a non-nil packet.  HeaderSize + CC()*4 is computed in byte and converted
   to uint16; the extension size is uint16 arithmetic.  Bytes from 8 on stay zero. *)
Definition rtp_pack (p : rtp_packet) : res bytes :=
  let sz := u16 (u8 (12 + u8 (rtp_CC p * 4))) in
  let sz := if rtp_X p then u16 (sz + u16 (4 * u16 (1 + rtp_xl p))) else sz in
  if sz <? 8 then Panic                      (* b[0], b[1], b[2:], b[4:] and PutUint32 need 8 bytes *)
  else Ok ([rtp_vpxcc p; rtp_mpt p] ++ be_put 2 (rtp_sn p) ++ be_put 4 (rtp_ts p)
           ++ repeat 0 (Z.to_nat (sz - 8))).

(* ---------------- RTCP ---------------- *)
(* rtcp/packet.go:55-63  SynSource *)
Record syn_source := mkSyn {
  ss_ssrc : Z; ss_fl : Z; ss_pl : Z; ss_sn : Z; ss_jit : Z; ss_lsr : Z; ss_dlsr : Z }.
(* rtcp/packet.go:101-108  DataSR *)
Record data_sr := mkSR {
  sr_ssrc : Z; sr_ntp : Z; sr_rtp : Z; sr_pc : Z; sr_oc : Z; sr_reports : list syn_source }.
(* rtcp/packet.go:30-37  Packet; DRR and DBYE are never assigned and are omitted *)
Record rtcp_packet := mkRtcp { rtcp_vpc : Z; rtcp_pt : Z; rtcp_ln : Z; rtcp_dsr : option data_sr }.

(* rtcp/packet.go:219-228  P, C *)
Definition rtcp_P (p : rtcp_packet) : bool := negb (Z.land (rtcp_vpc p) 32 =? 0).
Definition rtcp_C (p : rtcp_packet) : Z := Z.land (rtcp_vpc p) 31.

(* rtcp/packet.go:189-217  Unpack *)
Definition rtcp_unpack (buf : bytes) : res rtcp_packet :=
  let! b0 := index buf 0 in
  let! b1 := index buf 1 in
  let! ln := be_at 2 buf 2 in
  if negb (Z.land b0 192 =? 128) then Err ErrInvalidVersion else
  if b1 =? 200 then
    if zlen buf <? 28 + Z.land b0 31 * 24 then Err ErrPacketTooShort else
    let! ssrc := be_at 4 buf 4 in
    let! ntp := be_at 8 buf 8 in
    let! rtp := be_at 4 buf 16 in
    let! pc := be_at 4 buf 20 in
    let! oc := be_at 4 buf 24 in
    Ok (mkRtcp b0 b1 ln (Some (mkSR ssrc ntp rtp pc oc [])))
  else Ok (mkRtcp b0 b1 ln None).
