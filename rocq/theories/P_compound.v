(* C125: the packets of a compound RTCP packet. *)
From Verif Require Import Base L_base M_rtp S_rtp L_rtp S_compound L_compound.

(* Unpack and go on behind the packet: all packets of a compound one come out in order, each with its header
   and the sender's part of a report, whatever comes behind them (nothing, or a packet cut short). *)
Theorem C125_walk : forall rs rest, Forall report_legal rs ->
  exists ps, walk rtcp_unpack rtcp_ln (length rs) (flat_map report_bytes rs ++ rest) = Ok (ps, rest) /\
    Forall2 (fun r p =>
      4 * (rtcp_ln p + 1) = zlen (report_bytes r) /\
      match r with
      | Sender padding s blocks _ =>
          rtcp_P p = padding /\ rtcp_C p = zlen blocks /\ rtcp_pt p = 200 /\
          exists d, rtcp_dsr p = Some d /\ sr_ssrc d = si_ssrc s /\ sr_ntp d = si_ntp s /\ sr_rtp d = si_rtp s /\
            sr_pc d = si_packets s /\ sr_oc d = si_octets s
      | Other padding count type _ => rtcp_P p = padding /\ rtcp_C p = count /\ rtcp_pt p = type /\ rtcp_dsr p = None
      end) rs ps.
Proof.
  intros rs rest H. exists (map packet_of rs). split; [apply walk_reports; exact H|].
  induction H as [|r rs Hr H IH]; [constructor|]. cbn [map]. constructor; [|exact IH].
  rewrite report_length. split; [destruct (report_words r Hr) as (_ & E); destruct r; exact E|].
  destruct Hr as (_ & _ & Hr). destruct r as [pad s bl ext|pad c t body]; cbn [packet_of rtcp_pt rtcp_dsr]; unfold rtcp_P, rtcp_C; cbn [rtcp_vpc].
  - destruct (rtcp0_join pad (zlen bl)) as (_ & _ & -> & ->); [pose proof (zlen_nonneg bl); lia|].
    splits; try reflexivity. eexists; splits; reflexivity.
  - destruct Hr as (Hc & _). destruct (rtcp0_join pad c Hc) as (_ & _ & -> & ->). splits; reflexivity.
Qed.
Print Assumptions C125_walk.

(* Full statement: what is returned of a packet depends on its own bytes alone, those its length field counts.
   False for exactly the sender reports whose length is too small for their blocks and whose string is not. *)
Theorem C125_own_partial : forall a b c d r, bytes_ok (a :: b :: c :: d :: r) ->
  let buf := a :: b :: c :: d :: r in
  let n := 4 * (256 * c + d + 1) in
  n <= zlen buf ->
  (rtcp_unpack (firstn (Z.to_nat n) buf) = rtcp_unpack buf <->
   ~ (a / 64 = 2 /\ b = 200 /\ n < 28 + 24 * (a mod 32) <= zlen buf)).
Proof.
  intros a b c d r HB buf n L. inversion HB as [|? ? Ha HB1]; subst. inversion HB1 as [|? ? _ HB2]; subst.
  inversion HB2 as [|? ? Hc HB3]; subst. inversion HB3 as [|? ? Hd _]; subst. unfold byte_ok in Hc, Hd.
  assert (N : 4 <= n) by (subst n; lia).
  pose proof (own_bytes a b c d r (Z.to_nat n) Ha ltac:(lia)) as E. cbv zeta in E. rewrite Z2Nat.id in E by lia. fold buf in E.
  apply E. subst buf; rewrite !zlen_cons in L; unfold zlen in L; lia.
Qed.
Print Assumptions C125_own_partial.

(* Such a report alone is refused; with other packets behind it is accepted, and their bytes are returned as
   the sender's. *)
Theorem C125_own_refuted : forall padding len s blocks rest,
  word 2 len -> si_legal s -> zlen blocks <= 31 -> 4 * (len + 1) < 28 + 24 * zlen blocks ->
  let buf := sr_layout padding len s blocks rest in
  rtcp_unpack (firstn (Z.to_nat (4 * (len + 1))) buf) = Err ErrPacketTooShort /\
  exists p d, rtcp_unpack buf = Ok p /\ rtcp_ln p = len /\ rtcp_dsr p = Some d /\
    sr_ssrc d = si_ssrc s /\ sr_ntp d = si_ntp s /\ sr_rtp d = si_rtp s /\ sr_pc d = si_packets s /\ sr_oc d = si_octets s.
Proof.
  intros pad len s bl rest W Hs Hb L buf. split; [apply own_short; assumption|].
  subst buf. rewrite rtcp_unpack_sr by assumption. do 2 eexists. splits; reflexivity.
Qed.
Print Assumptions C125_own_refuted.

(* A sender report with a block, a source description and a goodbye, and two bytes of a fourth packet. *)
Example C125_case :
  let rs := [Sender false (mkSI 1 2 3 4 5) [mkRB 6 7 8 9 10 11 12] []; Other false 1 202 [0; 0; 0; 1; 1; 1; 65; 0]; Other true 1 203 [0; 0; 0; 1]] in
  Forall report_legal rs /\
  walk rtcp_unpack rtcp_ln 3 (flat_map report_bytes rs ++ [128; 201]) =
    Ok ([mkRtcp 129 200 12 (Some (mkSR 1 2 3 4 5 [])); mkRtcp 129 202 2 None; mkRtcp 161 203 1 None], [128; 201]).
Proof. split; [|vm_compute; reflexivity]. repeat constructor; vm_compute; try reflexivity; discriminate. Qed.

(* A report of 8 bytes, then a source description: its bytes are returned as time and counts. *)
Example C125_own_case :
  let short := [128; 200; 0; 1; 0; 0; 0; 9] in
  let next := [129; 202; 0; 4; 0; 0; 0; 9; 1; 8; 111; 117; 114; 111; 46; 108; 97; 110; 0; 0] in
  rtcp_unpack short = Err ErrPacketTooShort /\
  rtcp_unpack (short ++ next) = Ok (mkRtcp 128 200 1 (Some (mkSR 9 9352287593368125449 17330037 1919889004 1634598912 []))).
Proof. split; vm_compute; reflexivity. Qed.
