(* C164: streams in other formats. *)
From Coq Require Import String.
From Verif Require Import Base GoStrings S_rtp S_annexb S_nal M_nal M_rtp M_conn S_message M_message M_transport M_sdp S_sdp M_session S_session M_main S_main S_handshake S_media S_ports S_format
  L_base L_rtp L_nal L_format P_sdp P_goes.
From Coq Require Import ZifyBool ZifyNat.

(* Full statement: a stream in a format other than H.264 is not taken for one: it is not asked for, or what comes of it is not shown as H.264 units.
   False.  A description in one format and the same in another: the same requests are sent, with the same outcome. *)
Theorem C164_described_refuted : forall (w : world) (r1 r2 : response) (body1 body2 : bytes) (ms1 ms2 : list media),
  described w r1 body1 -> described w r2 body2 -> response_but_body r1 r2 ->
  sdp_parse body1 = Ok ms1 -> sdp_parse body2 = Ok ms2 -> Forall2 but_format ms1 ms2 ->
  world_but_format (fst (handle_response w r1)) (fst (handle_response w r2)) /\ snd (handle_response w r1) = snd (handle_response w r2).
Proof.
  intros w r1 r2 b1 b2 ms1 ms2 (_ & _ & B1 & _) (_ & _ & B2 & _) R P1 P2 F. rewrite unw_eq. apply handle_same; [reflexivity|exact R|].
  unfold bodies_alike, parse_feeds. rewrite B1, B2, P1, P2. apply make_feeds_bare. exact F.
Qed.
Print Assumptions C164_described_refuted.

(* And ever after: over every history the two sessions do the same. *)
Theorem C164_session_refuted : forall (w1 w2 : world) (l : life) (es : list event), world_but_format w1 w2 ->
  world_but_format (fst (M_session.run (w1, l) es)) (fst (M_session.run (w2, l) es)) /\ snd (M_session.run (w1, l) es) = snd (M_session.run (w2, l) es).
Proof. intros w1 w2 l es. rewrite !unw_eq. apply run_same. Qed.
Print Assumptions C164_session_refuted.

(* And the program: in every execution it takes the same units from the packets. *)
Theorem C164_program_refuted : forall (y1 y2 : system) (es : list yevent), system_but_format y1 y2 ->
  match yrun y1 es, yrun y2 es with Some a, Some b => system_but_format a b | None, None => True | _, _ => False end.
Proof. intros y1 y2 es. apply yrun_same. Qed.
Print Assumptions C164_program_refuted.

(* Two such descriptions: any two names, clock rates and payload types of a video section. *)
Theorem C164_rtpmap : forall (ls : list bytes) (done : list media) (m : media) (pt1 pt2 rate1 rate2 : Z) (name1 name2 : bytes),
  let line pt name rate := bs "a=rtpmap:" ++ itoa pt ++ bs " " ++ name ++ bs "/" ++ itoa rate in
  let fine pt name rate := 0 <= pt < 2 ^ 63 /\ 0 <= rate < 2 ^ 63 /\ ~ In 47 name /\ ~ In 58 name /\ ~ In 59 name /\ one_line (line pt name rate) /\ trim_space (line pt name rate) = line pt name rate in
  Forall one_line ls -> in_video ls -> sdp_parse (body_of ls) = Ok (done ++ [m]) -> fine pt1 name1 rate1 -> fine pt2 name2 rate2 ->
  exists ms1 ms2, sdp_parse (body_of (ls ++ [line pt1 name1 rate1])) = Ok ms1 /\ sdp_parse (body_of (ls ++ [line pt2 name2 rate2])) = Ok ms2 /\ Forall2 but_format ms1 ms2 /\
    m_type (last ms1 media0) = codec_of name1 (m_type m) /\ m_type (last ms2 media0) = codec_of name2 (m_type m).
Proof.
  intros ls done m pt1 pt2 rate1 rate2 name1 name2 line fine O V E F1 F2.
  assert (K : forall pt name rate, fine pt name rate -> sdp_parse (body_of (ls ++ [line pt name rate])) =
    Ok (done ++ [mkMedia (codec_of name (m_type m)) rate (m_control m) pt (m_config m) (m_sprops m) (m_payload_type m) (m_sizelength m) (m_indexlength m)])).
  { intros pt name rate (A1 & A2 & A3 & A4 & A5 & A6 & A7).
    apply (C43_rtpmap ls done m (line pt name rate) pt name rate []); try assumption; try (intros []); [|rewrite app_nil_r; exact A7|left; reflexivity].
    apply Forall_app. split; [exact O|constructor; [exact A6|constructor]]. }
  eexists. eexists. split; [apply K; exact F1|]. split; [apply K; exact F2|]. rewrite !last_last. splits; try reflexivity.
  apply Forall2_app; [|constructor; [split; reflexivity|constructor]]. clear. induction done as [|x r IH]; constructor; [split; reflexivity|exact IH].
Qed.
Print Assumptions C164_rtpmap.

(* So H.265: a packet of a unit of any type in use there (H.265 table 7-1; RFC 7798 4.4 for 48 and 49), parameter sets among them, is shown as an H.264 unit. *)
Theorem C164_h265_refuted : forall (ch : Z) (h : rtp_header) (t b : Z) (d : bytes) (c : client), ch mod 2 = 0 -> rtp_legal h ->
  0 <= t <= 9 \/ 16 <= t <= 21 \/ 32 <= t <= 40 \/ 48 <= t <= 49 -> plain (2 * t :: b :: d) ->
  exists c', shown c [(ch, rtp_layout h (2 * t :: b :: d))] = ([mkUnit (2 * t) (s_don (c_sink c)) (h_time h) (b :: d)], c', Goes).
Proof.
  intros ch h t b d c E L T P. unfold shown, on_packet. rewrite E, rtp_unpack_layout by exact L. change (0 =? 0) with true. cbv iota.
  change (rtp_pl (rtp_of h (2 * t :: b :: d))) with (2 * t :: b :: d). change (rtp_ts (rtp_of h (2 * t :: b :: d))) with (h_time h).
  rewrite push_plain by exact P. rewrite parse_single; [|unfold byte_ok; lia|unfold single, nal_type; lia]. eexists. reflexivity.
Qed.
Print Assumptions C164_h265_refuted.

(* A camera that sends H.265, from the description to the picture, and the same camera with H.264. *)
Definition one_stream (codec : string) : bytes := bs "v=0" ++ [13; 10] ++ bs "m=video 0 RTP/AVP 98" ++ [13; 10] ++ bs "a=control:one" ++ [13; 10] ++ bs "a=rtpmap:98 " ++ bs codec ++ bs "/90000" ++ [13; 10].
Example C164_case :
  let items codec := [reply 200 "OK" [("CSeq", "1")] []; reply 200 "OK" [("CSeq", "2"); ("Content-Length", "66")] (one_stream codec);
                reply 200 "OK" [("CSeq", "3"); ("Session", "1F"); ("Transport", "RTP/AVP/TCP;interleaved=0-1")] []; reply 200 "OK" [("CSeq", "4")] [];
                Frame 0 (rtp_layout (mkRtpH false true 98 5 93 1 [] None) [64; 1; 12; 1])]%string in
  let w codec := mkW (dialled ProtoTCP None (bs "rtsp://h/s")) (flat_map item_stream (items codec)) [] [] [] [] in
  let out codec := option_map (fun y => (y_fate y, map m_type (map fd_media (s_feeds (w_s (y_w y)))), s_units (c_sink (y_c y))))
    (yrun (launch (w codec)) [YTurn 0 0; YTurn 0 0; YTurn 0 0; YStage; YTurn 0 0; YStage; YTurn 0 0; YPacket]) in
  zlen (one_stream "H265") = 66 /\ out "H265"%string = Some (Goes, [0], [mkUnit 64 0 93 [1; 12; 1]]) /\ out "H264"%string = Some (Goes, [96], [mkUnit 64 0 93 [1; 12; 1]]).
Proof. vm_compute. repeat split. Qed.
