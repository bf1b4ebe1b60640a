(* C75: a DESCRIBE that yields no usable description. *)
From Coq Require Import String.
From Verif Require Import Base GoStrings S_sdp M_conn M_message M_transport M_sdp M_digest M_session L_base L_sdp P_sdp P_session L_nodesc.

(* A body without a video stream, whatever it is and whatever the status: nothing is sent, announced or reported. *)
Theorem C75_nothing_refuted : forall (w : world) (r : response) (req : request) (lines : list bytes),
  qget (s_queue (w_s w)) (p_cseq r) = Some req -> q_verb req = bs "DESCRIBE" -> p_code r <> 401 -> p_body r = Some (body_of lines) ->
  Forall one_line lines -> Forall (fun l => ~ video_line l /\ ~ bare_video_line l) lines ->
  exists w', handle_response w r = (w', Ok tt) /\ w_log w' = w_log w ++ [Got r] /\ s_stage (w_s w') = s_stage (w_s w) /\ s_feeds (w_s w') = [].
Proof.
  intros w r req lines Q V C B O N. destruct (describe_reply w r req Q V C) as (w1 & E & L & G & _). rewrite B in E. unfold parse_feeds in E.
  rewrite (C41_other_sections lines O N) in E. cbn in E. rewrite E. eexists. split; [reflexivity|]. cbn. repeat split; assumption.
Qed.
Print Assumptions C75_nothing_refuted.

(* A body that cannot be read (a video line with nothing on it) is not reported either: the program crashes. *)
Theorem C75_crash_refuted : forall (w : world) (r : response) (req : request) (lines : list bytes),
  qget (s_queue (w_s w)) (p_cseq r) = Some req -> q_verb req = bs "DESCRIBE" -> p_code r <> 401 -> p_body r = Some (body_of lines) ->
  Forall one_line lines -> Exists bare_video_line lines ->
  exists w', handle_response w r = (w', Panic) /\ w_log w' = w_log w ++ [Got r].
Proof.
  intros w r req lines Q V C B O X. destruct (describe_reply w r req Q V C) as (w1 & E & L & _). rewrite B in E. unfold parse_feeds in E.
  apply Exists_exists in X. destruct X as (l & I & X). rewrite (C42_crash (body_of lines) l) in E; [exists w1; now split| |exact X].
  rewrite split_body by exact O. destruct lines; [contradiction|exact I].
Qed.
Print Assumptions C75_crash_refuted.

(* So no answer is ever reported: the only errors are those of writing the SETUP requests for the streams of a description. *)
Theorem C75_partial : forall (w w' : world) (r : response) (req : request) (e : goerr),
  s_conn (w_s w) = true -> qget (s_queue (w_s w)) (p_cseq r) = Some req -> q_verb req = bs "DESCRIBE" -> p_code r <> 401 ->
  handle_response w r = (w', Err e) ->
  In (Some e) (w_writes w) /\ exists lines, p_body r = Some (body_of lines) /\ Forall one_line lines /\ Exists video_line lines.
Proof.
  intros w w' r req e S Q V C H. destruct (describe_reply w r req Q V C) as (w1 & E & _ & _ & W & K & _). rewrite H in E. clear H.
  destruct (p_body r) as [body|]; [|discriminate]. destruct (C41_every_body body) as (lines & O & ->). unfold parse_feeds in E.
  destruct (C42_total_partial (body_of lines)) as [(l & I & X)|(fs & P)]; [rewrite (C42_crash _ l I X) in E; discriminate|]. rewrite P in E. cbn in E. unfold setup in E. symmetry in E.
  apply setup_from_err in E; [|cbn; congruence]. destruct E as (N & IN). cbn in N, IN. rewrite W in IN. split; [exact IN|].
  exists lines. split; [reflexivity|]. split; [exact O|]. destruct fs as [|f fs]; [contradiction N; reflexivity|]. exact (some_video lines f fs O P).
Qed.
Print Assumptions C75_partial.

(* a page that says not found; a description of sound only; a video line with nothing on it; a video and a connection that fails *)
Example C75_case :
  let answer status body := mkRsp status 404 (zlen body) 1 [] (Some body) in
  let w outs := mkW (fst (enqueue (set_cseq (dialled ProtoTCP None (bs "rtsp://h/s")) 1) (mkReq (bs "DESCRIBE") 0 (bs "rtsp://h/s") [] [] []))) [] outs [] [] [] in
  let after outs body := let '(x, o) := handle_response (w outs) (answer (bs "404 Not Found") body) in (length (w_log x), o) in
  after [] (bs "<html>no such stream</html>") = (1%nat, Ok tt) /\
  after [] (body_of [bs "v=0"; bs "m=audio 0 RTP/AVP 0"; bs "a=control:a"]) = (1%nat, Ok tt) /\
  after [] (body_of [bs "v=0"; bs "m=video"]) = (1%nat, Panic) /\
  after [Some ErrTimeout] (body_of [bs "v=0"; bs "m=video 0 RTP/AVP 96"]) = (2%nat, Err ErrTimeout) /\
  after [] (body_of [bs "v=0"; bs "m=video 0 RTP/AVP 96"]) = (2%nat, Ok tt).
Proof. vm_compute. repeat split. Qed.
