(* C61, C74: the answers to SETUP for a second description, and over UDP in any order. *)
From Coq Require Import String.
From Verif Require Import Base GoStrings M_conn M_message M_transport M_sdp M_digest M_sps M_session S_transport S_session S_rounds L_base L_session L_flow L_rounds P_session.
From Coq Require Import ZifyBool ZifyNat.

(* C61  the count goes on from one description to the next: after one round, the first answer of the second announces Ready, whatever
   it is, if the second description has no more streams than the first *)
Theorem C61_again_refuted : forall (w w1 w2 w3 w4 : world) (rs : list response) (fs : list feed) (r : response),
  s_conn (w_s w) = true -> s_proto (w_s w) <> ProtoHTTP -> s_feedidx (w_s w) = 0 -> s_feeds (w_s w) <> [] ->
  0 <= s_cseq (w_s w) -> s_cseq (w_s w) + zlen (s_feeds (w_s w)) < 2 ^ 63 - 1 -> setup w = (w1, Ok tt) ->
  NoDup (map p_cseq rs) -> Forall (fun r => s_cseq (w_s w) < p_cseq r <= s_cseq (w_s w) + zlen (s_feeds (w_s w)) /\ p_code r <> 401) rs ->
  handled w1 rs w2 -> zlen rs = zlen (s_feeds (w_s w)) ->
  zlen fs <= zlen (s_feeds (w_s w)) < 2 ^ 62 - 1 -> 0 <= s_cseq (w_s w2) -> s_cseq (w_s w2) + zlen fs < 2 ^ 63 ->
  setup (upd_s w2 (fun s => set_feeds s fs)) = (w3, Ok tt) ->
  s_cseq (w_s w2) < p_cseq r <= s_cseq (w_s w2) + zlen fs -> p_code r <> 401 -> handle_response w3 r = (w4, Ok tt) ->
  readies (w_log w4) = readies (w_log w3) ++ [Notified 1] /\ s_stage (w_s w4) = 1.
Proof.
  intros w w1 w2 w3 w4 rs fs r C P F0 NE C0 B E ND FA H LR LF C2 B2 E2 IN NC H4.
  destruct (setup_counts w w1 rs w2 C P F0 NE C0) as (I & C3 & P3); [lia|assumption..|]. unfold setup in E2.
  apply setup_from_exact in E2; [|assumption..|reflexivity]. destruct E2 as (E1 & E3 & _ & E4 & _). cbn [firstn app] in E1. cbn [upd_s w_s set_feeds s_feedidx s_cseq s_feeds] in *.
  destruct (E4 (p_cseq r) IN) as (req & Q & V).
  assert (L3 : zlen (s_feeds (w_s w3)) = zlen fs) by (unfold zlen; rewrite <- (map_length fd_cseq), E1, from_z_len; reflexivity).
  apply (answered_ready w3 r req w4 Q V NC); [lia|lia|exact H4].
Qed.
Print Assumptions C61_again_refuted.
(* two streams set up; Setup again, and the first of two answers *)
Example C61_again_case :
  let w := fst (M_session.run (mkW (dialled ProtoTCP None (bs "rtsp://h/s"))
    (text_of (bs "RTSP/1.0 200 OK|CSeq: 1") [] ++ text_of (bs "RTSP/1.0 200 OK|CSeq: 2|Content-Length: 120") sdp2 ++
     text_of (bs "RTSP/1.0 200 OK|CSeq: 3|Transport: RTP/AVP/TCP;interleaved=0-1") [] ++
     text_of (bs "RTSP/1.0 200 OK|CSeq: 4|Transport: RTP/AVP/TCP;interleaved=2-3") []) [] [] [] [], Live)
    [App COptions; Turn 0 0; Turn 0 0; Turn 0 0; Turn 0 0]) in
  let r := mkRsp (bs "200 OK") 200 0 5 [(bs "Transport", bs "RTP/AVP/TCP;interleaved=0-1")] None in
  length (s_feeds (w_s w)) = 2%nat /\ s_cseq (w_s w) = 4 /\ readies (w_log w) = [Notified 1] /\
  readies (w_log (fst (handle_response (fst (setup w)) r))) = [Notified 1; Notified 1].
Proof. vm_compute. repeat split. Qed.

(* C74  Full statement: stream j (from 0) is received on the channels 2j and 2j+1.  Exactly: when the streams are granted, in whatever
   order, the k-th answer (from 1) has the channels 2k and 2k+1, whichever stream it is for. *)
Theorem C74_exact : forall (w w1 : world) (answers : list (nat * transport)) (rs : list response),
  s_conn (w_s w) = true -> s_proto (w_s w) <> ProtoHTTP -> s_feedidx (w_s w) = 0 -> Forall over_udp (s_feeds (w_s w)) -> w_listens w = [] ->
  0 <= s_cseq (w_s w) -> s_cseq (w_s w) + zlen (s_feeds (w_s w)) < 2 ^ 63 -> setup w = (w1, Ok tt) ->
  NoDup (map fst answers) -> Forall (fun a => (fst a < length (s_feeds (w_s w)))%nat) answers -> zlen answers <= 127 ->
  Forall2 (grants (s_cseq (w_s w) + 1)) answers rs ->
  exists w2, handled w1 rs w2 /\ listenings (w_log w2) = listenings (w_log w) ++ channels 1 answers.
Proof.
  intros w w1 answers rs C P F0 FU WL C0 B E ND L LA G. destruct (setup_waiting w w1 answers C P FU WL C0 B E L) as (W & I & LG).
  destruct (listen_all answers rs w1 _ _ W ND G) as (w2 & H & LL); [lia|lia|]. exists w2. split; [exact H|]. rewrite LL, I, F0, LG. reflexivity.
Qed.
Print Assumptions C74_exact.

(* So of two streams the first is never on channel 0, and they exchange channels with the order of the answers, in every session. *)
Theorem C74_order_refuted : forall (w w1 : world) (f0 f1 : feed) (t0 t1 : transport) (r0 r1 : response),
  s_conn (w_s w) = true -> s_proto (w_s w) <> ProtoHTTP -> s_feedidx (w_s w) = 0 -> s_feeds (w_s w) = [f0; f1] -> over_udp f0 -> over_udp f1 -> w_listens w = [] ->
  0 <= s_cseq (w_s w) -> s_cseq (w_s w) < 2 ^ 62 -> setup w = (w1, Ok tt) ->
  grants (s_cseq (w_s w) + 1) (0%nat, t0) r0 -> grants (s_cseq (w_s w) + 1) (1%nat, t1) r1 ->
  (exists w2, handled w1 [r0; r1] w2 /\ listenings (w_log w2) = listenings (w_log w) ++
     [(2, p_one (t_port t0)); (3, p_two (t_port t0)); (4, p_one (t_port t1)); (5, p_two (t_port t1))]) /\
  (exists w2, handled w1 [r1; r0] w2 /\ listenings (w_log w2) = listenings (w_log w) ++
     [(2, p_one (t_port t1)); (3, p_two (t_port t1)); (4, p_one (t_port t0)); (5, p_two (t_port t0))]).
Proof.
  intros w w1 f0 f1 t0 t1 r0 r1 C P F0 F U0 U1 WL C0 B E G0 G1.
  assert (X : forall a b ra rb, NoDup [fst a; fst b] -> (fst a < 2)%nat -> (fst b < 2)%nat -> grants (s_cseq (w_s w) + 1) a ra -> grants (s_cseq (w_s w) + 1) b rb ->
    exists w2, handled w1 [ra; rb] w2 /\ listenings (w_log w2) = listenings (w_log w) ++ channels 1 [a; b]).
  { intros a b ra rb ND La Lb Ga Gb. apply C74_exact; try assumption; rewrite ?F.
    - constructor; [exact U0|constructor; [exact U1|constructor]].
    - change (zlen [f0; f1]) with 2. lia.
    - constructor; [exact La|constructor; [exact Lb|constructor]].
    - change (zlen [a; b]) with 2. lia.
    - constructor; [exact Ga|constructor; [exact Gb|constructor]]. }
  split; [apply (X (0%nat, t0) (1%nat, t1) r0 r1)|apply (X (1%nat, t1) (0%nat, t0) r1 r0)]; cbn [fst]; try assumption; try lia; (constructor; [intros [Y|[]]; discriminate|repeat constructor; intros []]).
Qed.
Print Assumptions C74_order_refuted.
(* the two orders, over multicast, from the description on *)
Example C74_case :
  let w := fst (M_session.run (mkW (dialled ProtoMulticast None (bs "rtsp://h/s"))
    (text_of (bs "RTSP/1.0 200 OK|CSeq: 1") [] ++ text_of (bs "RTSP/1.0 200 OK|CSeq: 2|Content-Length: 120") sdp2) [] [] [] [], Live) [App COptions; Turn 0 0; Turn 0 0]) in
  let r0 := mkRsp (bs "200 OK") 200 0 3 [(bs "Transport", bs "RTP/AVP;multicast;port=9000-9001")] None in
  let r1 := mkRsp (bs "200 OK") 200 0 4 [(bs "Transport", bs "RTP/AVP;multicast;port=9002-9003")] None in
  let go a b := listenings (w_log (fst (handle_response (fst (handle_response w a)) b))) in
  map (fun f => (m_control (fd_media f), fd_cseq f)) (s_feeds (w_s w)) = [(bs "one", 3); (bs "two", 4)] /\
  go r0 r1 = [(2, 9000); (3, 9001); (4, 9002); (5, 9003)] /\ go r1 r0 = [(2, 9002); (3, 9003); (4, 9000); (5, 9001)].
Proof. vm_compute. repeat split. Qed.
