(* C113: streams set up while other goroutines issue commands. *)
From Coq Require Import String.
From Verif Require Import Base GoStrings M_conn M_message M_transport M_sdp M_sps M_session S_session M_race M_among S_among L_base L_among.

(* What Setup keeps for a stream is the number of its request and the number of commands others issued before it looked. *)
Theorem C113_exact : forall (w w1 : world) (between : nat -> list order), s_conn (w_s w) = true -> s_proto (w_s w) <> ProtoHTTP -> 0 <= s_cseq (w_s w) ->
  number (s_cseq (w_s w)) between (length (s_feeds (w_s w))) < 2 ^ 63 -> setup_among w 0 (s_feeds (w_s w)) between = (w1, Ok tt) ->
  forall k, (k < length (s_feeds (w_s w)))%nat ->
  exists req f, qget (s_queue (w_s w1)) (number (s_cseq (w_s w)) between k) = Some req /\ q_verb req = bs "SETUP" /\
    nth_error (s_feeds (w_s w1)) k = Some f /\ fd_cseq f = number (s_cseq (w_s w)) between k + zlen (between k).
Proof. intros w w1 b. apply among_numbers. Qed.
Print Assumptions C113_exact.

(* without such commands it is Setup of C61 *)
Theorem C113_nobody_partial : forall (w : world) (between : nat -> list order), (forall k, between k = []) ->
  setup_among w 0 (s_feeds (w_s w)) between = setup w.
Proof. intros w b H. apply among_nobody. exact H. Qed.
Print Assumptions C113_nobody_partial.

(* With one, at whichever stream, Ready is never announced, however many of the SETUP requests are granted. *)
Theorem C113_never_ready_refuted : forall (w w1 w2 : world) (between : nat -> list order) (rs : list response) (k : nat),
  s_conn (w_s w) = true -> s_proto (w_s w) <> ProtoHTTP -> s_feedidx (w_s w) = 0 -> 0 <= s_cseq (w_s w) ->
  number (s_cseq (w_s w)) between (length (s_feeds (w_s w))) < 2 ^ 63 -> setup_among w 0 (s_feeds (w_s w)) between = (w1, Ok tt) ->
  (k < length (s_feeds (w_s w)))%nat -> between k <> [] ->
  Forall (fun r => (exists j, (j < length (s_feeds (w_s w)))%nat /\ p_cseq r = number (s_cseq (w_s w)) between j) /\ p_code r = 200) rs ->
  handled w1 rs w2 ->
  readies (w_log w2) = readies (w_log w) /\ s_stage (w_s w2) = s_stage (w_s w).
Proof. intros w w1 w2 b rs k. apply never_ready. Qed.
Print Assumptions C113_never_ready_refuted.

(* one stream; the application asks for the state of the session in between, and the server grants the stream *)
Example C113_case :
  let f := mkFeed (mkMedia 0 0 (bs "one") 0 [] [] 0 0 0) (new_transport ProtoTCP 0) 0 false (mkStore (fun _ => None) (fun _ => None)) in
  let w := mkW (set_feeds (set_cseq (dialled ProtoTCP None (bs "rtsp://h/s")) 2) [f]) [] [] [] [] [] in
  let granted := mkRsp [] 200 0 3 [(bs "Transport", bs "RTP/AVP/TCP;interleaved=0-1")] None in
  let after b := handle_response (fst (setup_among w 0 [f] b)) granted in
  readies (w_log (fst (after (fun _ => [])))) = [Notified 1] /\ snd (after (fun _ => [])) = Ok tt /\
  readies (w_log (fst (after (fun _ => [(bs "OPTIONS", bs "rtsp://h/s", [])])))) = [] /\ snd (after (fun _ => [(bs "OPTIONS", bs "rtsp://h/s", [])])) = Ok tt.
Proof. vm_compute. repeat split. Qed.
