(* Properties C31-C37: RTP and RTCP packets. *)
From Verif Require Import Base S_rtp M_rtp L_base L_nal L_rtp.

(* ---- C31 ---- *)
Theorem C31_unpack_layout : forall h payload, rtp_legal h ->
  exists p, rtp_unpack (rtp_layout h payload) = Ok p /\
    rtp_P p = h_padding h /\ rtp_M p = h_marker h /\ rtp_PT p = h_type h /\
    rtp_sn p = h_seq h /\ rtp_ts p = h_time h /\ rtp_ssrc p = h_ssrc h /\
    rtp_CC p = zlen (h_csrc h) /\ rtp_csrc p = h_csrc h /\
    match h_ext h with
    | None => rtp_X p = false /\ rtp_xd p = []
    | Some (prof, d) => rtp_X p = true /\ rtp_xh p = prof /\ 4 * rtp_xl p = zlen d /\ rtp_xd p = d
    end /\ rtp_pl p = payload.
Proof.
  intros h pl HL. exists (rtp_of h pl). split; [apply rtp_unpack_layout; exact HL|].
  destruct HL as (Ht & _ & _ & _ & Hc & _ & Hx).
  destruct (byte0_join (h_padding h) (if h_ext h then true else false) (zlen (h_csrc h))) as (_ & _ & P & X & C);
    [pose proof (zlen_nonneg (h_csrc h)); lia|].
  destruct (byte1_join (h_marker h) (h_type h) Ht) as (_ & M & T).
  unfold rtp_P, rtp_M, rtp_PT, rtp_CC, rtp_X, rtp_of; cbn [rtp_vpxcc rtp_mpt rtp_sn rtp_ts rtp_ssrc rtp_csrc rtp_xh rtp_xl rtp_xd rtp_pl].
  rewrite P, X, C, M, T. destruct (h_ext h) as [[prof d]|]; splits; try reflexivity.
  destruct Hx as (_ & w & _ & ->). rewrite (Z.mul_comm 4 w), Z.div_mul; lia.
Qed.
Print Assumptions C31_unpack_layout.

(* Conversely every accepted byte string is the layout of a header followed by the returned payload. *)
Theorem C31_unpack_only : forall buf p, bytes_ok buf -> rtp_unpack buf = Ok p ->
  exists h, rtp_legal h /\ buf = rtp_layout h (rtp_pl p).
Proof. intros buf p HB E. destruct (rtp_unpack_inv buf p HB E) as (h & H1 & H2 & _). exists h; auto. Qed.
Print Assumptions C31_unpack_only.

Example C31_case :
  rtp_layout (mkRtpH false true 96 4660 7 305419896 [11; 12] (Some (48862, [1; 2; 3; 4]))) [9; 8]
    = [146; 224; 18; 52; 0; 0; 0; 7; 18; 52; 86; 120; 0; 0; 0; 11; 0; 0; 0; 12; 190; 222; 0; 1; 1; 2; 3; 4; 9; 8] /\
  rtp_unpack [146; 224; 18; 52; 0; 0; 0; 7; 18; 52; 86; 120; 0; 0; 0; 11; 0; 0; 0; 12; 190; 222; 0; 1; 1; 2; 3; 4; 9; 8]
    = Ok (mkRtp 146 224 4660 7 305419896 [11; 12] 48862 1 [1; 2; 3; 4] [9; 8]).
Proof. split; reflexivity. Qed.

(* ---- C32 ---- *)
(* Full statement: forall buf, returns (rtp_unpack buf).  False: Unpack panics on exactly the empty
   string and the version-2 strings that are not whole packets. *)
Theorem C32_total_partial : forall buf, bytes_ok buf ->
  (rtp_unpack buf = Panic <-> buf = [] \/ version2 buf /\ ~ rtp_complete buf) /\
  (rtp_unpack buf = Err ErrInvalidVersion <-> buf <> [] /\ ~ version2 buf) /\
  ((exists p, rtp_unpack buf = Ok p) <-> rtp_complete buf).
Proof.
  intros buf HB.
  assert (OKC : (exists p, rtp_unpack buf = Ok p) <-> rtp_complete buf).
  { split.
    - intros [p E]. destruct (rtp_unpack_inv buf p HB E) as (h & H1 & H2 & _). exists h, (rtp_pl p). auto.
    - intros (h & pl & H1 & ->). exists (rtp_of h pl). apply rtp_unpack_layout; exact H1. }
  assert (CV : rtp_complete buf -> version2 buf) by (intros (h & pl & H1 & ->); apply rtp_layout_version; exact H1).
  assert (NV : buf = [] -> ~ version2 buf) by (intros -> (b & r & E & _); discriminate).
  destruct (rtp_unpack_kinds buf HB) as [[H E]|[(H & V & E)|(V & [[p E]|E])]]; rewrite E in *; splits; try exact OKC; split; intros Q;
    try discriminate; try congruence; try tauto.
  - destruct Q as [-> |[V' N]]; [apply NV in V; [contradiction|reflexivity]|].
    exfalso. apply N. apply OKC. eauto.
  - right. split; [exact V|]. intros Cp. apply OKC in Cp as [p Ep]. discriminate.
Qed.
Print Assumptions C32_total_partial.

(* In particular 12 bytes with version 2, no extension and no contributing sources are always accepted. *)
Theorem C32_fixed_header_total : forall b0 r, bytes_ok (b0 :: r) -> 11 <= zlen r -> b0 = 128 \/ b0 = 160 ->
  returns (rtp_unpack (b0 :: r)).
Proof.
  intros b0 r HB L H. destruct r as [|b1 [|s1 [|s2 [|t1 [|t2 [|t3 [|t4 [|c1 [|c2 [|c3 [|c4 r]]]]]]]]]]];
    try (rewrite ?zlen_cons, ?zlen_nil in L; lia).
  destruct H as [-> | ->]; exact I.
Qed.
Print Assumptions C32_fixed_header_total.

Theorem C32_total_refuted : exists buf, bytes_ok buf /\ version2 buf /\ rtp_unpack buf = Panic.
Proof.
  exists [129; 96; 0; 1; 0; 0; 0; 2; 0; 0; 0; 3; 0; 0; 0]. splits.
  - repeat constructor; cbn; lia.
  - eexists. eexists. split; reflexivity.
  - reflexivity.
Qed.
Print Assumptions C32_total_refuted.

Example C32_case : rtp_unpack [128; 96; 0; 1; 0; 0; 0; 2; 0; 0; 0; 3] = Ok (mkRtp 128 96 1 2 3 [] 0 0 [] []) /\
  rtp_unpack [64; 1] = Err ErrInvalidVersion /\ rtp_unpack [] = Panic.
Proof. splits; reflexivity. Qed.

(* ---- C33 ---- *)
(* Full statement: Unpack (Pack p) reproduces every header field of p.  False: only the first eight bytes
   are written.  What comes back, for every packet whose header fits 16 bits: *)
Theorem C33_pack_unpack_partial : forall p, rtp_fields_ok p -> rtp_vpxcc p / 64 = 2 -> rtp_header_size p < 65536 ->
  exists b q, rtp_pack p = Ok b /\ zlen b = rtp_header_size p /\ rtp_unpack b = Ok q /\
    rtp_vpxcc q = rtp_vpxcc p /\ rtp_mpt q = rtp_mpt p /\ rtp_sn q = rtp_sn p /\ rtp_ts q = rtp_ts p /\
    rtp_ssrc q = 0 /\ rtp_csrc q = repeat 0 (Z.to_nat (rtp_CC p)) /\ rtp_xh q = 0 /\ rtp_xl q = 0 /\ rtp_xd q = [].
Proof.
  intros p HF Hv Hs. destruct (rtp_pack_unpack p HF Hv Hs) as (b & E1 & E2 & E3).
  exists b, (rtp_echo p). splits; try assumption; reflexivity.
Qed.
Print Assumptions C33_pack_unpack_partial.

(* Pack panics exactly when the 16-bit size of the header wraps to fewer than 8 bytes. *)
Theorem C33_pack_panics : forall p, rtp_fields_ok p -> (rtp_pack p = Panic <-> rtp_header_size p mod 65536 < 8).
Proof.
  intros p HF. rewrite (rtp_pack_size p HF). destruct (Z.ltb_spec (rtp_header_size p mod 65536) 8); split; intros; try lia; try reflexivity; discriminate.
Qed.
Print Assumptions C33_pack_panics.

(* For every packet with a non-zero SSRC the round trip loses it. *)
Theorem C33_ssrc_refuted : forall p, rtp_fields_ok p -> rtp_vpxcc p / 64 = 2 -> rtp_header_size p < 65536 -> rtp_ssrc p <> 0 ->
  exists b q, rtp_pack p = Ok b /\ rtp_unpack b = Ok q /\ rtp_ssrc q <> rtp_ssrc p.
Proof.
  intros p HF Hv Hs Hn. destruct (rtp_pack_unpack p HF Hv Hs) as (b & E1 & E2 & E3).
  exists b, (rtp_echo p). splits; try assumption. cbn. congruence.
Qed.
Print Assumptions C33_ssrc_refuted.

Theorem C33_panic_refuted : exists p, rtp_fields_ok p /\ rtp_vpxcc p / 64 = 2 /\ rtp_pack p = Panic.
Proof. exists (mkRtp 144 96 1 2 3 [] 0 16380 [] []). splits; try reflexivity; repeat split; cbn; lia. Qed.
Print Assumptions C33_panic_refuted.

Example C33_case : rtp_pack (mkRtp 129 96 258 7 9 [5] 0 0 [] [1]) = Ok [129; 96; 1; 2; 0; 0; 0; 7; 0; 0; 0; 0; 0; 0; 0; 0] /\
  rtp_unpack [129; 96; 1; 2; 0; 0; 0; 7; 0; 0; 0; 0; 0; 0; 0; 0] = Ok (mkRtp 129 96 258 7 0 [0] 0 0 [] []).
Proof. split; reflexivity. Qed.

(* ---- C34 ---- *)
(* Full statement: the payload returned for a padded packet is the payload without its padding.  False for
   every padded packet; what is returned is the payload followed by the padding. *)
Theorem C34_padding_partial : forall h payload n, rtp_legal h -> h_padding h = true -> 1 <= n <= 255 ->
  exists p, rtp_unpack (rtp_layout h (payload ++ padding_octets n)) = Ok p /\ rtp_P p = true /\
    rtp_pl p = payload ++ padding_octets n.
Proof.
  intros h pl n HL HP Hn. destruct (C31_unpack_layout h (pl ++ padding_octets n) HL) as (p & E & P & R).
  exists p. rewrite P. splits; try assumption. tauto.
Qed.
Print Assumptions C34_padding_partial.

Theorem C34_padding_refuted : forall h payload n, rtp_legal h -> h_padding h = true -> 1 <= n <= 255 ->
  exists p, rtp_unpack (rtp_layout h (payload ++ padding_octets n)) = Ok p /\ rtp_pl p <> payload.
Proof.
  intros h pl n HL HP Hn. destruct (C34_padding_partial h pl n HL HP Hn) as (p & E & _ & R).
  exists p. split; [exact E|]. rewrite R. intros F. apply (f_equal (@length Z)) in F. unfold padding_octets in F.
  rewrite !app_length in F. cbn [length] in F. lia.
Qed.
Print Assumptions C34_padding_refuted.

Example C34_case : rtp_unpack ([160; 96; 0; 1; 0; 0; 0; 2; 0; 0; 0; 3] ++ [101; 7] ++ [0; 0; 3]) =
  Ok (mkRtp 160 96 1 2 3 [] 0 0 [] [101; 7; 0; 0; 3]).
Proof. reflexivity. Qed.

(* ---- C35 ---- *)
Theorem C35_sender_report : forall padding len s blocks rest,
  word 2 len -> si_legal s -> zlen blocks <= 31 ->
  exists p d, rtcp_unpack (sr_layout padding len s blocks rest) = Ok p /\
    rtcp_P p = padding /\ rtcp_C p = zlen blocks /\ rtcp_pt p = 200 /\ rtcp_ln p = len /\ rtcp_dsr p = Some d /\
    sr_ssrc d = si_ssrc s /\ sr_ntp d = si_ntp s /\ sr_rtp d = si_rtp s /\ sr_pc d = si_packets s /\ sr_oc d = si_octets s.
Proof.
  intros pad len s bl rest Wl Hs Hb. rewrite rtcp_unpack_sr by assumption.
  destruct (rtcp0_join pad (zlen bl)) as (_ & _ & P & C); [pose proof (zlen_nonneg bl); lia|].
  do 2 eexists. split; [reflexivity|]. unfold rtcp_P, rtcp_C; cbn [rtcp_vpc]. rewrite P, C. splits; reflexivity.
Qed.
Print Assumptions C35_sender_report.

Theorem C35_other_types : forall padding count type len rest,
  0 <= count <= 31 -> type <> 200 -> word 2 len ->
  exists p, rtcp_unpack (rtcp_header_bytes padding count type len ++ rest) = Ok p /\
    rtcp_P p = padding /\ rtcp_C p = count /\ rtcp_pt p = type /\ rtcp_ln p = len /\ rtcp_dsr p = None.
Proof.
  intros pad c t len rest Hc Ht Wl. rewrite rtcp_unpack_other by assumption.
  destruct (rtcp0_join pad c Hc) as (_ & _ & P & C).
  eexists. split; [reflexivity|]. unfold rtcp_P, rtcp_C; cbn [rtcp_vpc]. rewrite P, C. splits; reflexivity.
Qed.
Print Assumptions C35_other_types.

Example C35_case :
  rtcp_unpack (sr_layout true 6 (mkSI 1 (2 ^ 63 + 5) 3 4 5) [] [170]) =
    Ok (mkRtcp 160 200 6 (Some (mkSR 1 9223372036854775813 3 4 5 []))) /\
  rtcp_unpack [129; 203; 0; 1; 1; 2; 3; 4] = Ok (mkRtcp 129 203 1 None).
Proof. split; vm_compute; reflexivity. Qed.

(* ---- C36 ---- *)
(* Full statement: Unpack returns for every byte string.  False for exactly the strings of fewer than 4 bytes. *)
Theorem C36_total_partial : forall buf, bytes_ok buf -> (returns (rtcp_unpack buf) <-> 4 <= zlen buf).
Proof.
  intros buf HB. split.
  - intros R. destruct (Z.le_gt_cases 4 (zlen buf)) as [H|H]; [exact H|]. rewrite rtcp_short in R; [contradiction|].
    unfold zlen in H. lia.
  - intros L. destruct buf as [|a [|b [|c [|d r]]]]; try (rewrite ?zlen_cons, ?zlen_nil in L; lia).
    rewrite rtcp_outcome by (inversion HB; assumption). destruct (negb _); [exact I|]. destruct (_ && _); exact I.
Qed.
Print Assumptions C36_total_partial.

(* With at least 4 bytes, the errors are exactly: wrong version; sender report shorter than its count requires. *)
Theorem C36_errors : forall a b c d r, bytes_ok (a :: b :: c :: d :: r) ->
  let buf := a :: b :: c :: d :: r in
  (rtcp_unpack buf = Err ErrInvalidVersion <-> a / 64 <> 2) /\
  (rtcp_unpack buf = Err ErrPacketTooShort <-> a / 64 = 2 /\ b = 200 /\ zlen buf < 28 + 24 * (a mod 32)) /\
  (forall e, rtcp_unpack buf = Err e -> e = ErrInvalidVersion \/ e = ErrPacketTooShort).
Proof.
  intros a b c d r HB buf. unfold buf. rewrite rtcp_outcome by (inversion HB; assumption).
  change 31 with (Z.ones 5). rewrite Z.land_ones by lia. change (2 ^ 5) with 32.
  destruct (Z.eqb_spec (a / 64) 2) as [V|V]; cbn [negb].
  - destruct (Z.eqb_spec b 200) as [B|B]; cbn [andb].
    + match goal with |- context [?x <? ?y] => destruct (Z.ltb_spec x y) end;
      splits; try split; intros; try discriminate; try tauto; try (right; congruence); try lia; try (splits; assumption).
    + splits; try split; intros; try discriminate; try tauto; congruence.
  - splits; try split; intros; try discriminate; try tauto; try reflexivity; left; congruence.
Qed.
Print Assumptions C36_errors.

Theorem C36_total_refuted : exists buf, bytes_ok buf /\ buf <> [] /\ rtcp_unpack buf = Panic.
Proof. exists [128; 200; 0]. splits; [repeat constructor; cbn; lia | discriminate | reflexivity]. Qed.
Print Assumptions C36_total_refuted.

Example C36_case : rtcp_unpack [129; 200; 0; 12] = Err ErrPacketTooShort /\ rtcp_unpack [0; 0; 0; 0] = Err ErrInvalidVersion.
Proof. split; reflexivity. Qed.

(* ---- C37 ---- *)
(* Full statement: the returned sender report carries the report blocks in order.  False for every sender
   report with a block: the list is always empty (and that is right only when the count is zero). *)
Theorem C37_reports_partial : forall padding len s blocks rest,
  word 2 len -> si_legal s -> zlen blocks <= 31 ->
  exists p d, rtcp_unpack (sr_layout padding len s blocks rest) = Ok p /\ rtcp_dsr p = Some d /\
    rtcp_C p = zlen blocks /\ sr_reports d = [].
Proof.
  intros pad len s bl rest Wl Hs Hb. rewrite rtcp_unpack_sr by assumption.
  destruct (rtcp0_join pad (zlen bl)) as (_ & _ & P & C); [pose proof (zlen_nonneg bl); lia|].
  do 2 eexists. splits; try reflexivity. unfold rtcp_C; cbn [rtcp_vpc]. exact C.
Qed.
Print Assumptions C37_reports_partial.

Theorem C37_reports_refuted : forall padding len s blocks rest,
  word 2 len -> si_legal s -> 1 <= zlen blocks <= 31 ->
  exists p d, rtcp_unpack (sr_layout padding len s blocks rest) = Ok p /\ rtcp_dsr p = Some d /\
    zlen (sr_reports d) <> zlen blocks.
Proof.
  intros pad len s bl rest Wl Hs Hb. destruct (C37_reports_partial pad len s bl rest Wl Hs ltac:(lia)) as (p & d & E1 & E2 & _ & E3).
  exists p, d. splits; try assumption. rewrite E3, zlen_nil. lia.
Qed.
Print Assumptions C37_reports_refuted.

Example C37_case : rtcp_unpack (sr_layout false 12 (mkSI 1 2 3 4 5) [mkRB 6 7 8 9 10 11 12] []) =
    Ok (mkRtcp 129 200 12 (Some (mkSR 1 2 3 4 5 []))).
Proof. vm_compute; reflexivity. Qed.
