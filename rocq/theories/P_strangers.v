(* C160: packets of streams nobody asked for. *)
From Coq Require Import String.
From Verif Require Import Base GoStrings S_rtp S_annexb S_nal M_nal M_conn S_message M_message M_transport M_sdp M_session S_session M_main S_main S_handshake S_media
  L_base L_frames L_handshake L_main L_media P_nal P_media P_frames P_stream.
From Coq Require Import ZifyBool ZifyNat.

(* Full statement: what is passed on and shown are the packets of the streams that were set up, on the channels granted, while they are played.
   False in every state of a session: before anything was described, and while it is paused; on every channel no stream was granted. *)
Theorem C160_unasked_refuted : forall (w : world) (ch : Z) (arrived : list (rtp_header * (Z * bytes))) (times : list (Z * Z)) (rest : stream) (c : client),
  s_conn (w_s w) = true -> s_proto (w_s w) = ProtoTCP -> s_stage (w_s w) <> StagePlay ->
  byte_ok ch -> ch mod 2 = 0 -> Forall (fun f => fd_set f = true -> ch < p_one (t_interleave (fd_transp f)) \/ p_two (t_interleave (fd_transp f)) < ch) (s_feeds (w_s w)) ->
  Forall (fun e => rtp_legal (fst e) /\ h_padding (fst e) = false /\ sending_ok (Whole (fst (snd e)) (snd (snd e))) /\ zlen (rtp_layout (fst e) (encapsulate (fst (snd e) :: snd (snd e)))) <= 2048) arrived ->
  length times = length arrived -> don_ok (c_sink c) ->
  let packet := fun e : rtp_header * (Z * bytes) => (ch, rtp_layout (fst e) (encapsulate (fst (snd e) :: snd (snd e)))) in
  w_in w = flat_map (fun e => map Some (frame_text ch (snd (packet e)))) arrived ++ rest ->
  let w' := fst (M_session.run (w, Live) (map (fun t => Turn (fst t) (snd t)) times)) in
  w_log w' = w_log w ++ map (fun e => Delivered ch (snd (packet e))) arrived /\ w_s w' = w_s w /\
  exists us c', shown c (map packet arrived) = (us, c', Goes) /\
    map (fun u => (u_header u, u_ts u, u_data u)) us = map (fun e => (fst (snd e), h_time (fst e), snd (snd e))) arrived.
Proof.
  intros w ch arrived times rest c C P _ B E _ F L D packet I w'.
  assert (R : M_session.run (w, Live) (map (fun t => Turn (fst t) (snd t)) times) =
    (mkW (w_s w) rest (w_writes w) (w_listens w) (w_rand w) (w_log w ++ map (fun e => Delivered (fst e) (snd e)) (map packet arrived)), Live)).
  { apply C55_frames; [exact C|exact P| |rewrite map_length; exact L|].
    - apply Forall_map. eapply Forall_impl; [|exact F]. intros e (_ & _ & _ & Z4). split; [exact B|exact Z4].
    - rewrite I. f_equal. clear. induction arrived as [|e r IH]; [reflexivity|]. cbn [map flat_map]. rewrite IH. reflexivity. }
  unfold w'. rewrite R. cbn [fst w_log w_s]. rewrite map_map. splits; try reflexivity.
  destruct (C139_order_refuted ch arrived c E D) as (us & c' & Sh & M & _); [eapply Forall_impl; [|exact F]; intros e (X & Y & Z3 & _); auto|].
  exists us, c'. split; assumption.
Qed.
Print Assumptions C160_unasked_refuted.

(* What holds: nothing is passed on that the server did not send as a packet, in any history; so that from a server that sends packets of the
   streams asked for only, no others are passed on. *)
Theorem C160_sent_partial : forall (items : list item) (rest : stream) (w : world) (es : list event) (w' : world) (l' : life) (Q : Z * bytes -> Prop),
  Forall item_ok items -> (turns es <= length items)%nat -> w_in w = flat_map item_stream items ++ rest -> M_session.run (w, Live) es = (w', l') ->
  (forall ch p, In (Frame ch p) items -> Q (ch, p)) ->
  exists new, packets (w_log w') = packets (w_log w) ++ new /\ Forall Q new.
Proof.
  intros items rest w es w' l' Q F T I R K. destruct (C55_interleaving items rest w es w' l' F T I R) as (j & effs & _ & _ & H & L & _).
  exists (packets effs). split.
  - rewrite <- (packets_incoming (w_log w')), L, packets_app, packets_incoming. reflexivity.
  - rewrite (packets_heard _ _ H). apply Forall_forall. intros [ch p] X. apply in_flat_map in X as (it & X & Y). destruct it as [ch' p'| |]; [|destruct Y|destruct Y].
    destruct Y as [Y|[]]. injection Y as -> ->. apply K. rewrite <- (firstn_skipn j items), in_app_iff. left. exact X.
Qed.
Print Assumptions C160_sent_partial.

(* a session on which nothing has been asked yet: a unit on channel 4 is passed on and shown *)
Example C160_case :
  let packet := rtp_layout (mkRtpH false true 96 5 93 1 [] None) [101; 7; 8] in
  let w := mkW (dialled ProtoTCP None (bs "rtsp://h/s")) (map Some (frame_text 4 packet)) [] [] [] [] in
  s_stage (w_s w) = StageInit /\ s_feeds (w_s w) = [] /\
  w_log (fst (M_session.run (w, Live) [Turn 0 0])) = [Delivered 4 packet] /\
  fst (fst (shown client0 [(4, packet)])) = [mkUnit 101 0 93 [7; 8]].
Proof. cbv zeta. splits; vm_compute; reflexivity. Qed.
