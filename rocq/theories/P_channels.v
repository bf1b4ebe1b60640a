(* C138: the channels the server chooses. *)
From Coq Require Import String.
From Verif Require Import Base GoStrings S_rtp S_annexb S_nal M_nal M_conn M_message S_transport M_transport M_sdp M_sps M_session S_session M_main S_main S_media L_base L_transport L_ports L_channels P_nal P_media.
From Coq Require Import ZifyBool ZifyNat.

(* Full statement: whichever channels of the connection the server grants a stream, the stream is shown.  True when each packet keeps the parity of
   its channel: moved to other channels, the packets show the same units and leave the client the same. *)
Theorem C138_moved_partial : forall (f : Z -> Z) (fs : list (Z * bytes)) (c : client), (forall k, f k mod 2 = k mod 2) ->
  shown c (map (fun e => (f (fst e), snd e)) fs) = shown c fs.
Proof. intros f fs c F. apply shown_moved. exact F. Qed.
Print Assumptions C138_moved_partial.

(* Any channels are accepted. *)
Theorem C138_granted_partial : forall w r req pre f post t sets,
  s_feeds (w_s w) = pre ++ f :: post -> fd_cseq f = p_cseq r -> Forall (fun g => fd_cseq g <> p_cseq r) (pre ++ post) ->
  qget (s_queue (w_s w)) (p_cseq r) = Some req -> q_verb req = bs "SETUP" -> p_code r = 200 ->
  header_get (p_header r) (bs "Transport") = transport_string t -> transport_ok t -> t_tcp t = true -> t_interleaved t = true ->
  parse_sprops (fd_sets f) (m_sprops (fd_media f)) = (sets, Ok tt) ->
  exists w' tr, handle_response w r = (w', Ok tt) /\ s_feeds (w_s w') = pre ++ mkFeed (fd_media f) tr (fd_cseq f) true sets :: post /\ t_interleave tr = t_interleave t /\
    w_log w' = w_log w ++ [Got r] ++ (if i64 (s_feedidx (w_s w) + 1) >=? zlen (s_feeds (w_s w)) then [Notified 1; Started] else []).
Proof.
  intros w r req pre f post t sets F C FA Q V K H TO TT P SP.
  destruct (accept_one w r req pre f post (received (fd_transp f) t) sets F C FA Q V K) as (w' & E & _ & S1 & L); try exact SP.
  - rewrite H. apply parse_transport_string. exact TO.
  - unfold received. cbn [t_tcp]. rewrite TT. reflexivity.
  - exists w', (received (fd_transp f) t). splits; try assumption. unfold received. cbn [t_interleave]. rewrite P. reflexivity.
Qed.
Print Assumptions C138_granted_partial.

(* Nothing of a stream on an odd channel is shown, if none of its packets has marker and payload type 72 (they look like sender reports). *)
Theorem C138_odd_refuted : forall (fs : list (Z * bytes)) (c : client),
  Forall (fun e => fst e mod 2 = 1 /\ exists h pl, rtp_legal h /\ snd e = rtp_layout h pl /\ bytes_ok (snd e) /\ ~ (h_marker h = true /\ h_type h = 72)) fs ->
  shown c fs = ([], c, Goes).
Proof. intros fs c F. apply shown_odd. exact F. Qed.
Print Assumptions C138_odd_refuted.

(* And of a sender report without blocks on an even channel a NAL unit is shown that nobody sent, if the low word of its time and what follows can be
   taken for one. *)
Theorem C138_report_refuted : forall (c : client) (k len : Z) (s : sender_info) (rest d : bytes) (h : Z),
  k mod 2 = 0 -> word 2 len -> si_legal s -> don_ok (c_sink c) -> sending_ok (Whole h d) ->
  be_put 4 (si_ntp s) ++ be_put 4 (si_rtp s) ++ be_put 4 (si_packets s) ++ be_put 4 (si_octets s) ++ rest = encapsulate (h :: d) ->
  exists c', shown c [(k, sr_layout false len s [] rest)] = ([mkUnit h (s_don (c_sink c)) (si_ssrc s) d], c', Goes).
Proof.
  intros c k len s rest d h O L (S1 & S2 & S3) D W E. rewrite report_as_media, E.
  set (hd := mkRtpH false true 72 len (si_ssrc s) (si_ntp s / 2 ^ 32) [] None).
  assert (RL : rtp_legal hd).
  { unfold rtp_legal, hd. cbn [h_type h_seq h_time h_ssrc h_csrc h_ext]. splits; try assumption; try lia; try constructor.
    - apply Z.div_pos; [apply S2|reflexivity].
    - apply Z.div_lt_upper_bound; [reflexivity|]. apply S2.
    - cbn; lia. }
  destruct (C81_media_partial k [(si_ssrc s, Whole h d)] [(k, rtp_layout hd (encapsulate (h :: d)))] c O ltac:(constructor; [exact W|constructor]) D) as (c' & X); [|exists c'; exact X].
  cbn [all_payloads flat_map stamped map fst snd payloads app]. change (si_ssrc s) with (h_time hd). constructor; [exact RL|reflexivity|constructor].
Qed.
Print Assumptions C138_report_refuted.

(* Channels 6 and 7 for 0 and 1; then 1 and 2. *)
Example C138_case :
  let media := rtp_layout (rtp_at 3 93) [101; 7; 8] in
  let s := mkSI 9 (be_of [0; 0; 0; 7; 101; 2; 3; 4]) (be_of [5; 6; 7; 8]) (be_of [9; 9; 9; 9]) (be_of [1; 1; 1; 1]) in
  let report := sr_layout false 6 s [] [] in
  let d := [2; 3; 4; 5; 6; 7; 8; 9; 9; 9; 9; 1; 1; 1; 1] in
  fst (fst (shown client0 [(0, media); (1, report)])) = [mkUnit 101 0 93 [7; 8]] /\
  fst (fst (shown client0 [(6, media); (7, report)])) = [mkUnit 101 0 93 [7; 8]] /\
  be_put 4 (si_ntp s) ++ be_put 4 (si_rtp s) ++ be_put 4 (si_packets s) ++ be_put 4 (si_octets s) = encapsulate (101 :: d) /\
  fst (fst (shown client0 [(1, media); (2, report)])) = [mkUnit 101 0 9 d].
Proof. vm_compute. repeat split. Qed.
