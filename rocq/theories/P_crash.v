(* Property C78: what the server sends does not crash the session. *)
From Coq Require Import String.
From Verif Require Import Base GoStrings S_bits S_sps S_sdp M_conn S_message M_message S_transport M_transport M_sdp M_digest M_sps M_session S_session S_crash
  L_base L_sdp L_crash.
From Coq Require Import ZifyBool.

(* Full statement: no history of commands and loop turns ends in a crash, whatever the bytes received.  False; a crash
   has one cause: the server sent a description with a line m=video without more, or with a picture parameter set that
   declares more than eight slice groups. *)
Theorem C78_survives_partial : forall (proto : Z) (w : world) (es : list event) (w' : world),
  opened w proto -> proto <> ProtoHTTP -> run (w, Live) es = (w', Dead) ->
  exists r body, In (Got r) (w_log w') /\ p_body r = Some body /\ bad_description body.
Proof. exact run_dead. Qed.
Print Assumptions C78_survives_partial.

(* reading is bounded by fuel in the model: it is never used up, and no response is taken with a body that was not read *)
Theorem C78_reading : forall (s s' : stream) (o : res response), unpack_response s = (s', o) ->
  o <> Panic /\ o <> Fuel /\ (forall r b, o = Ok r -> p_body r = Some b -> zlen b <= 2048).
Proof. intros s s' o E. destruct (unpack_no_fuel s s' o E) as [[A B] C]. auto. Qed.
Print Assumptions C78_reading.

(* every description with such a line crashes the session that asked for it *)
Theorem C78_description_refuted : forall (w : world) (r : response) (req : request) (body l : bytes),
  qget (s_queue (w_s w)) (p_cseq r) = Some req -> q_verb req = bs "DESCRIBE" -> p_code r <> 401 -> p_body r = Some body ->
  In l (split_on 10 body) -> bare_video_line l -> snd (handle_response w r) = Panic.
Proof.
  intros w r req body l Q V C B I L. unfold handle_response. cbv zeta. cbn [note w_s]. rewrite Q. destruct (p_code r =? 401) eqn:E; [lia|].
  unfold react. rewrite V. change (beq (bs "DESCRIBE") (bs "OPTIONS")) with false. change (beq (bs "DESCRIBE") (bs "DESCRIBE")) with true. cbv iota. rewrite B.
  unfold parse_feeds. rewrite (parse_crash _ _ I L). reflexivity.
Qed.
Print Assumptions C78_description_refuted.

(* a message; | is the end of a line *)
Definition message (head body : bytes) : stream := map Some (flat_map (fun c => if c =? 124 then [13; 10] else [c]) head ++ [13; 10; 13; 10] ++ body).
(* a description with one feed, and this parameter set *)
Definition described_by (set : bytes) : bytes := bs "m=video 0 RTP/AVP 96
a=fmtp:96 packetization-mode=1;sprop-parameter-sets=" ++ b64_encode set.
Definition conversation (body : bytes) : stream :=
  message (bs "RTSP/1.0 200 OK|CSeq: 1") [] ++ message (bs "RTSP/1.0 200 OK|CSeq: 2|Content-Length: " ++ itoa (zlen body)) body ++
  message (bs "RTSP/1.0 200 OK|CSeq: 3|Transport: RTP/AVP/TCP;interleaved=0-1") [].
Definition three_turns (body : bytes) : world * life :=
  run (mkW (dialled ProtoTCP None (bs "rtsp://h/s")) (conversation body) [] [] [] [], Live) [App COptions; Turn 0 0; Turn 0 0; Turn 0 0].

Theorem C78_survives_refuted : exists (w w' : world) (es : list event), opened w ProtoTCP /\ run (w, Live) es = (w', Dead).
Proof.
  exists (mkW (dialled ProtoTCP None (bs "rtsp://h/s")) (conversation (described_by [8; 193; 63; 248])) [] [] [] []), (fst (three_turns (described_by [8; 193; 63; 248]))), [App COptions; Turn 0 0; Turn 0 0; Turn 0 0].
  split; [exists None, (bs "rtsp://h/s"); split; reflexivity|]. vm_compute. reflexivity.
Qed.
Print Assumptions C78_survives_refuted.

(* both kinds, and neither *)
Example C78_example : snd (three_turns (described_by [8; 193; 63; 248])) = Dead /\ snd (three_turns (bs "m=video")) = Dead /\
  snd (three_turns (described_by [8; 1; 2; 3])) = NoLoop /\ snd (three_turns (described_by [1; 2; 3])) = Live.
Proof. vm_compute. repeat split. Qed.
