(* C129-C131: the ports of a session, and the transport that the server grants. *)
From Coq Require Import String.
From Verif Require Import Base GoStrings S_message M_message S_transport M_transport M_sdp M_sps M_session S_session L_base L_strings L_transport L_session L_flow S_ports M_listen L_ports P_session.

(* ---- C129  the ports of different sessions ---- *)
(* The SETUP requests that follow a description: stream number i is asked for on 50000 + 2 i and the next, whatever the session, the
   server and the description; if a write fails, those that come before. *)
Theorem C129_exact : forall w r body ms w' o, described w r body -> In (s_proto (w_s w)) [ProtoTCP; ProtoUnicast; ProtoMulticast] ->
  sdp_parse body = Ok ms -> zlen ms < 2 ^ 61 -> handle_response w r = (w', o) ->
  exists k, (k <= length ms)%nat /\ asks (w_log w') = asks (w_log w) ++ map (fun i => request_text (s_proto (w_s w)) (Z.of_nat i)) (seq 0 k) /\ (o = Ok tt -> k = length ms).
Proof. exact describe_asks. Qed.
Print Assumptions C129_exact.

(* Full statement: two sessions open at a time do not ask for the same ports.  False for every two sessions that use UDP, when both
   descriptions have a stream. *)
Theorem C129_ports_refuted : forall proto w1 w2 r1 r2 body1 body2 ms1 ms2 w1' w2', In proto [ProtoUnicast; ProtoMulticast] ->
  s_proto (w_s w1) = proto -> described w1 r1 body1 -> sdp_parse body1 = Ok ms1 -> ms1 <> [] -> zlen ms1 < 2 ^ 61 -> handle_response w1 r1 = (w1', Ok tt) ->
  s_proto (w_s w2) = proto -> described w2 r2 body2 -> sdp_parse body2 = Ok ms2 -> ms2 <> [] -> zlen ms2 < 2 ^ 61 -> handle_response w2 r2 = (w2', Ok tt) ->
  exists text a b, asks (w_log w1') = asks (w_log w1) ++ text :: a /\ asks (w_log w2') = asks (w_log w2) ++ text :: b /\
    text = bs (if proto =? ProtoUnicast then "RTP/AVP;unicast;client_port=50000-50001" else "RTP/AVP;multicast;port=50000-50001").
Proof.
  intros proto w1 w2 r1 r2 body1 body2 ms1 ms2 w1' w2' I P1 D1 S1 N1 L1 E1 P2 D2 S2 N2 L2 E2.
  assert (J : In proto [ProtoTCP; ProtoUnicast; ProtoMulticast]) by (right; exact I).
  destruct (describe_asks _ _ _ _ _ _ D1 ltac:(rewrite P1; exact J) S1 L1 E1) as (k1 & _ & A1 & K1). rewrite (K1 eq_refl) in A1.
  destruct (describe_asks _ _ _ _ _ _ D2 ltac:(rewrite P2; exact J) S2 L2 E2) as (k2 & _ & A2 & K2). rewrite (K2 eq_refl) in A2.
  destruct ms1 as [|m1 ms1]; [contradiction|]. destruct ms2 as [|m2 ms2]; [contradiction|]. cbn [length seq map] in A1, A2.
  rewrite P1 in A1. rewrite P2 in A2. do 3 eexists. split; [exact A1|]. split; [exact A2|]. destruct I as [<-|[<-|[]]]; reflexivity.
Qed.
Print Assumptions C129_ports_refuted.

(* ---- C130  the address of the listeners ---- *)
(* Every listener of every session is bound to the loopback address. *)
Theorem C130_loopback : forall log, sockets None log = map (fun l => mkSock loopback (snd l) (fst l)) (listenings log).
Proof.
  assert (H : forall log a, local_addr a = Some loopback -> sockets a log = map (fun l => mkSock loopback (snd l) (fst l)) (listenings log)).
  { induction log as [|e log IH]; intros a A; [reflexivity|].
    destruct e; cbn [sockets]; rewrite ?A; unfold listenings; cbn [flat_map app]; fold (listenings log); try (apply IH; exact A).
    cbn [map fst snd]. f_equal. apply IH. reflexivity. }
  intros log. apply H. reflexivity.
Qed.
Print Assumptions C130_loopback.

(* Full statement: what the server sends to the port of a stream is received.  Proved when it is sent to the loopback address, so by a
   server on the same machine. *)
Theorem C130_local_partial : forall w ch port, In (ch, port) (listenings (w_log w)) ->
  exists s, In s (sockets None (w_log w)) /\ so_ch s = ch /\ reaches (so_ip s, so_port s) (loopback, port).
Proof.
  intros w ch port I. exists (mkSock loopback port ch). splits; [|reflexivity|].
  - rewrite C130_loopback. apply in_map_iff. exists (ch, port). split; [reflexivity|exact I].
  - split; [left; reflexivity|reflexivity].
Qed.
Print Assumptions C130_local_partial.

(* False for any other: no datagram for another address of this machine, or for a multicast group, reaches a listener of any session. *)
Theorem C130_remote_refuted : forall w s dest port, In s (sockets None (w_log w)) -> dest <> loopback -> ~ reaches (so_ip s, so_port s) (dest, port).
Proof.
  intros w s dest port I N [[H|H] _]; rewrite C130_loopback in I; apply in_map_iff in I as (l & <- & _); cbn [so_ip fst] in H.
  - apply N. symmetry. exact H.
  - discriminate.
Qed.
Print Assumptions C130_remote_refuted.

(* ---- C131  a transport that was not asked for ---- *)
(* Whether an answer is accepted depends on the answer alone, not on what was asked for. *)
Theorem C131_blind : forall u v value, snd (transport_parse u value) = snd (transport_parse v value).
Proof. intros u v value. apply parse_fields_blind. Qed.
Print Assumptions C131_blind.

(* Full statement: if the server grants another transport than was asked for, the caller is told.  False: a stream asked for on the
   connection and granted over UDP, with any ports, counts as set up; nothing listens for it, and Ready is announced as ever. *)
Theorem C131_udp_refuted : forall w r req pre f post t sets,
  s_feeds (w_s w) = pre ++ f :: post -> fd_cseq f = p_cseq r -> Forall (fun g => fd_cseq g <> p_cseq r) (pre ++ post) ->
  qget (s_queue (w_s w)) (p_cseq r) = Some req -> q_verb req = bs "SETUP" -> p_code r = 200 -> t_tcp (fd_transp f) = true ->
  header_get (p_header r) (bs "Transport") = transport_string t -> transport_ok t -> t_tcp t = false ->
  parse_sprops (fd_sets f) (m_sprops (fd_media f)) = (sets, Ok tt) ->
  exists w', handle_response w r = (w', Ok tt) /\ s_sinks (w_s w') = s_sinks (w_s w) /\
    w_log w' = w_log w ++ [Got r] ++ (if i64 (s_feedidx (w_s w) + 1) >=? zlen (s_feeds (w_s w)) then [Notified 1; Started] else []).
Proof.
  intros w r req pre f post t sets F C FA Q V K TC H TO TT SP.
  destruct (accept_one w r req pre f post (received (fd_transp f) t) sets F C FA Q V K) as (w' & E & S1 & _ & L); try exact SP.
  - rewrite H. apply parse_transport_string. exact TO.
  - unfold received. cbn [t_tcp]. rewrite TC. apply Bool.orb_true_r.
  - exists w'. splits; assumption.
Qed.
Print Assumptions C131_udp_refuted.

(* nor is an answer refused that names none *)
Theorem C131_none_refuted : forall w r req pre f post sets,
  s_feeds (w_s w) = pre ++ f :: post -> fd_cseq f = p_cseq r -> Forall (fun g => fd_cseq g <> p_cseq r) (pre ++ post) ->
  qget (s_queue (w_s w)) (p_cseq r) = Some req -> q_verb req = bs "SETUP" -> p_code r = 200 -> t_tcp (fd_transp f) = true ->
  header_get (p_header r) (bs "Transport") = [] -> parse_sprops (fd_sets f) (m_sprops (fd_media f)) = (sets, Ok tt) ->
  exists w', handle_response w r = (w', Ok tt) /\ s_feeds (w_s w') = pre ++ mkFeed (fd_media f) (fd_transp f) (fd_cseq f) true sets :: post /\
    w_log w' = w_log w ++ [Got r] ++ (if i64 (s_feedidx (w_s w) + 1) >=? zlen (s_feeds (w_s w)) then [Notified 1; Started] else []).
Proof.
  intros w r req pre f post sets F C FA Q V K TC H SP.
  destruct (accept_one w r req pre f post (fd_transp f) sets F C FA Q V K) as (w' & E & _ & S1 & L); try assumption.
  - rewrite H. reflexivity.
  - exists w'. splits; assumption.
Qed.
Print Assumptions C131_none_refuted.

(* What is refused is a text that cannot be read: a parameter that needs a value and has none. *)
Theorem C131_refused_partial : forall u pre post field, Forall (fun f => ~ In 59 f) (pre ++ field :: post) -> snd (transport_parse u (join 59 pre)) = None -> ~ In 61 field ->
  In (to_lower field) [bs "destination"; bs "source"; bs "interleaved"; bs "layers"; bs "ttl"; bs "port"; bs "client_port"; bs "server_port"; bs "ssrc"; bs "mode"] ->
  snd (transport_parse u (join 59 (pre ++ field :: post))) = Some ErrMalformedTransport.
Proof. exact bare_field. Qed.
Print Assumptions C131_refused_partial.

(* ---- cases ---- *)
Definition udp_talk (client : bytes) : world :=
  mkW (dialled ProtoMulticast None (bs "rtsp://h/s"))
    (text_of (bs "RTSP/1.0 200 OK|CSeq: 1") [] ++ text_of (bs "RTSP/1.0 200 OK|CSeq: 2|Content-Length: 120") sdp2 ++
     text_of (bs "RTSP/1.0 200 OK|CSeq: 3|Transport: RTP/AVP;multicast;destination=224.1.1.1;port=" ++ client) []) [] [] [] [].
Example C129_case : let '(w', _) := M_session.run (udp_talk (bs "9000-9001"), Live) [App COptions; Turn 0 0; Turn 0 0] in
  asks (w_log w') = [bs "RTP/AVP;multicast;port=50000-50001"; bs "RTP/AVP;multicast;port=50002-50003"].
Proof. vm_compute. reflexivity. Qed.
Example C130_case : let '(w', _) := M_session.run (udp_talk (bs "9000-9001"), Live) [App COptions; Turn 0 0; Turn 0 0; Turn 0 0] in
  sockets None (w_log w') = [mkSock [127; 0; 0; 1] 9000 2; mkSock [127; 0; 0; 1] 9001 3].
Proof. vm_compute. reflexivity. Qed.
(* asked for on the connection, granted over UDP *)
Example C131_case :
  let w := mkW (dialled ProtoTCP None (bs "rtsp://h/s"))
    (text_of (bs "RTSP/1.0 200 OK|CSeq: 1") [] ++ text_of (bs "RTSP/1.0 200 OK|CSeq: 2|Content-Length: 120") sdp2 ++
     text_of (bs "RTSP/1.0 200 OK|CSeq: 3|Transport: RTP/AVP;unicast;client_port=9000-9001;server_port=6000-6001") [] ++ text_of (bs "RTSP/1.0 200 OK|CSeq: 4") []) [] [] [] [] in
  let '(w', l) := M_session.run (w, Live) [App COptions; Turn 0 0; Turn 0 0; Turn 0 0; Turn 0 0] in
  asks (w_log w') = [bs "RTP/AVP/TCP;interleaved=0-1"; bs "RTP/AVP/TCP;interleaved=2-3"] /\
  skipn 8 (w_log w') = [Notified 1; Started] /\ s_sinks (w_s w') = [] /\ map fd_set (s_feeds (w_s w')) = [true; true].
Proof. vm_compute. repeat split. Qed.
Example C131_refused_case : snd (transport_parse transport0 (bs "RTP/AVP;unicast;Client_Port;ssrc=1")) = Some ErrMalformedTransport /\
  snd (transport_parse transport0 (bs "RTP/AVP;port=x")) = Some ErrAtoiSyntax.
Proof. vm_compute. split; reflexivity. Qed.
