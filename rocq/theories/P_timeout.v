(* C123: the session does not time out at the server while it is used. *)
From Coq Require Import String.
From Verif Require Import Base GoStrings M_conn M_message M_transport M_session S_session S_message S_handshake L_base L_session L_frames L_paired L_timeout P_session.
From Coq Require Import ZifyBool.

(* Full statement: while a session plays, the server gets a request at least once in the time it has set (the timeout of the Session field,
   RFC 2326 12.37; 60 seconds unless given). *)

(* Over UDP: with turns of the loop at most p apart there is a keep-alive in any two seconds and p; so every time of at least that is
   kept to.  Times are in nanoseconds. *)
Theorem C123_udp_partial : forall (proto : Z) (w : world) (es : list event) (w1 : world) (t1 t2 p timeout now : Z) (w2 : world) (l2 : life),
  opened w proto -> proto <> ProtoTCP -> proto <> ProtoHTTP -> M_session.run (w, Live) es = (w1, Live) -> 1 <= last_stage (w_log w1) <= 3 -> t1 <= t2 ->
  M_session.run (w1, Live) [Turn t1 t2] = (w2, l2) ->
  t1 <= now <= t1 + p -> 2000000000 + p <= timeout ->
  exists (a : list effect) (x y : Z) (r : request) (b : list effect) (id : bytes),
    w_log w2 = a ++ Alive x y :: Sent false r :: b /\ q_verb r = bs "OPTIONS" /\ q_header r = [(bs "Session", id)] /\ now - y < timeout.
Proof.
  intros proto w es w1 t1 t2 p timeout now w2 l2 O T H E S L R N P.
  destruct (C65_regular proto w es w1 t1 t2 w2 l2 O T H E S L R) as (a & x & y & b & LG & D).
  assert (PW : paired w). { destruct O as (user & uri & _ & LO). unfold paired. rewrite LO. intros a' x' y' b' X. destruct a'; discriminate. }
  pose proof (run_paired es w Live w1 Live PW E) as P1. pose proof (run_paired [Turn t1 t2] w1 Live w2 l2 P1 R) as P2.
  destruct (P2 a x y b LG) as (r & b' & -> & (V & id & HD)). exists a, x, y, r, b', id. splits; try assumption. lia.
Qed.
Print Assumptions C123_udp_partial.

(* Over TCP, false for every time: whatever the server sends of media and however long it takes, no request is made. *)
Theorem C123_tcp_refuted : forall (items : list item) (clocks : list (Z * Z)) (w : world),
  s_conn (w_s w) = true -> s_proto (w_s w) = ProtoTCP ->
  Forall (fun i => match i with Frame ch p => zlen p <= 2048 | Quiet => True | Resp _ _ _ _ => False end) items -> length clocks = length items ->
  forall rest, w_in w = flat_map item_stream items ++ rest ->
  exists w' more, M_session.run (w, Live) (turns_at clocks) = (w', Live) /\ w_log w' = w_log w ++ more /\ sent_requests more = [] /\ w_in w' = rest.
Proof.
  intros items clocks w C P F L rest E. apply (idle_turns items clocks w); try assumption. apply Forall_forall. intros c _ w1 S1.
  apply C65_not_due; rewrite S1; [exact C|rewrite P; discriminate|left; exact P].
Qed.
Print Assumptions C123_tcp_refuted.

(* Over UDP, false for times below two seconds: however often the loop turns in the two seconds after a keep-alive, no request is made. *)
Theorem C123_idle_refuted : forall (items : list item) (clocks : list (Z * Z)) (w : world) (last : Z),
  s_conn (w_s w) = true -> s_proto (w_s w) <> ProtoHTTP -> s_last (w_s w) = Some last -> Forall (fun t => fst t < last + 2000000000) clocks ->
  Forall (fun i => match i with Frame ch p => zlen p <= 2048 | Quiet => True | Resp _ _ _ _ => False end) items -> length clocks = length items ->
  forall rest, w_in w = flat_map item_stream items ++ rest ->
  exists w' more, M_session.run (w, Live) (turns_at clocks) = (w', Live) /\ w_log w' = w_log w ++ more /\ sent_requests more = [] /\ w_in w' = rest.
Proof.
  intros items clocks w last C P H T F L rest E. apply (idle_turns items clocks w); try assumption. eapply Forall_impl; [|exact T]. intros c B w1 S1.
  apply C65_not_due; rewrite S1; [exact C|exact P|]. do 3 right. exists last. cbn beta in B. split; [exact H|lia].
Qed.
Print Assumptions C123_idle_refuted.

(* The server has asked for one second and hears nothing for 1.9. *)
Theorem C123_short_refuted :
  let s := set_session (set_stage (dialled ProtoUnicast None (bs "rtsp://h/s")) StageReady) (bs "1F") in
  let w0 := mkW (set_queue s [(7, mkReq (bs "PLAY") 7 (bs "rtsp://h/s") [] (bs "1F") [])])
               (item_stream (Resp 200 (bs "OK") [mkField (bs "CSeq") (bs " ") (bs "7"); mkField (bs "Session") (bs " ") (bs "1F;timeout=1")] []) ++ [None; None]) [] [] [] [] in
  let w := fst (M_session.run (w0, Live) [Turn 0 0; Turn 900000000 900000000; Turn 1900000000 1900000000]) in
  stages (w_log w) = [StagePlay] /\ flat_map (fun e => match e with Alive x _ => [x] | _ => [] end) (w_log w) = [0].
Proof. cbv zeta. splits; vm_compute; reflexivity. Qed.
Print Assumptions C123_short_refuted.

(* five seconds over UDP: three keep-alives; over TCP: none *)
Example C123_case :
  let at_play proto := mkW (set_session (set_stage (dialled proto None (bs "rtsp://h/s")) StagePlay) (bs "1F")) [None; None; None; None; None; None] [] [] [] [] in
  let turns := map (fun t => Turn (t * 1000000000) (t * 1000000000)) [0; 1; 2; 3; 4; 5] in
  map q_verb (sent_requests (w_log (fst (M_session.run (at_play ProtoUnicast, Live) turns)))) = [bs "OPTIONS"; bs "OPTIONS"; bs "OPTIONS"] /\
  sent_requests (w_log (fst (M_session.run (at_play ProtoTCP, Live) turns))) = [].
Proof. cbv zeta. splits; vm_compute; reflexivity. Qed.
