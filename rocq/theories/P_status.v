(* Properties C134 and C135: redirections, and the status of the first answers. *)
From Coq Require Import String.
From Verif Require Import Base GoStrings M_conn M_message M_transport M_sdp M_session S_session S_message S_handshake S_aggregate S_ports S_status
  L_base L_ports L_home L_status.
From Verif Require Import M_dial.
From Coq Require Import ZifyBool.

(* ---- C134  full statement: after an answer that redirects to another location, the requests go there ---- *)
(* Not one of a session's requests, but perhaps a SETUP whose URI a description gave, goes to a location that any answer redirected to. *)
Theorem C134_location_refuted : forall proto user uri input writes listens rand es w' l' again rq rsp location,
  run (mkW (dialled proto user uri) input writes listens rand [], Live) es = (w', l') ->
  In (Got rsp) (w_log w') -> redirects rsp location -> location <> uri ->
  In (Sent again rq) (w_log w') -> q_verb rq <> bs "SETUP" -> q_uri rq = uri /\ q_uri rq <> location.
Proof.
  intros proto user uri input writes listens rand es w' l' again rq rsp location R _ _ N H V.
  assert (T : home uri (mkW (dialled proto user uri) input writes listens rand [])) by (split; [split; [reflexivity|constructor]|constructor]).
  pose proof (run_home uri es _ _ _ _ T R) as [_ L]. rewrite Forall_forall in L. pose proof (L _ H : shape uri rq) as K.
  assert (U : q_uri rq = uri) by (destruct K; cbn [q_uri q_verb] in *; try reflexivity; contradiction V; reflexivity).
  split; [exact U|]. rewrite U. intros E. apply N. symmetry. exact E.
Qed.
Print Assumptions C134_location_refuted.

(* A redirected DESCRIBE, that has no content, is the end of it: nothing is sent, nothing told, the session waits at the stage it is at. *)
Theorem C134_waits_refuted : forall (w : world) (r : response) (req : request) (location : bytes),
  qget (s_queue (w_s w)) (p_cseq r) = Some req -> q_verb req = bs "DESCRIBE" -> redirects r location -> p_body r = None ->
  exists w', handle_response w r = (w', Ok tt) /\ w_log w' = w_log w ++ [Got r] /\ s_stage (w_s w') = s_stage (w_s w) /\ s_uri (w_s w') = s_uri (w_s w).
Proof.
  intros w r req location Q V [C _] B. unfold handle_response. cbv zeta. cbn [note w_s]. rewrite Q. destruct (p_code r =? 401) eqn:E; [lia|]. unfold react. rewrite V, B.
  change (beq (bs "DESCRIBE") (bs "OPTIONS")) with false. change (beq (bs "DESCRIBE") (bs "DESCRIBE")) with true. cbv iota.
  eexists. split; [reflexivity|]. cbn [note upd_s w_log w_s]. unfold learn_session. destruct (beq _ _); splits; reflexivity.
Qed.
Print Assumptions C134_waits_refuted.

Definition nl : bytes := [13; 10].
Definition says (code : Z) (n : string) (fs : list sfield) (body : bytes) : item := Resp code (bs "X") (mkField (bs "CSeq") (bs " ") (bs n) :: fs) body.
Definition after (answers : list item) : world * life :=
  run (mkW (dialled ProtoTCP None (bs "rtsp://h/s")) (flat_map item_stream answers) [] [] [] [], Live) (App COptions :: repeat (Turn 0 0) (length answers)).
Definition asked (answers : list item) : list (bytes * bytes) := map (fun r => (q_verb r, q_uri r)) (sent_requests (w_log (fst (after answers)))).
Definition moved : sfield := mkField (bs "Location") (bs " ") (bs "rtsp://h2/s").

Example C134_case :
  asked [says 200 "1" [] []; says 302 "2" [moved] []] = [(bs "OPTIONS", bs "rtsp://h/s"); (bs "DESCRIBE", bs "rtsp://h/s")] /\
  snd (after [says 200 "1" [] []; says 302 "2" [moved] []]) = Live /\
  asked [says 301 "1" [moved] []] = [(bs "OPTIONS", bs "rtsp://h/s"); (bs "DESCRIBE", bs "rtsp://h/s")] /\
  exists r, In (Got r) (w_log (fst (after [says 301 "1" [moved] []]))) /\ redirects r (bs "rtsp://h2/s").
Proof.
  splits; try (vm_compute; reflexivity). eexists. split; [vm_compute; right; left; reflexivity|]. split; [|vm_compute; reflexivity]. cbn [p_code]. split; discriminate.
Qed.

(* ---- C135  full statement: the session goes on only after an answer of the class 2xx ---- *)
(* For every answer to OPTIONS but 401 the description is asked for. *)
Theorem C135_options_refuted : forall (w : world) (r : response) (req : request),
  qget (s_queue (w_s w)) (p_cseq r) = Some req -> q_verb req = bs "OPTIONS" -> p_code r <> 401 -> ~ success (p_code r) ->
  s_conn (w_s w) = true -> s_proto (w_s w) <> ProtoHTTP -> s_stage (w_s w) = StageInit ->
  exists w' o rq, handle_response w r = (w', o) /\ w_log w' = w_log w ++ [Got r; Sent false rq] /\ q_verb rq = bs "DESCRIBE" /\ q_uri rq = s_uri (w_s w).
Proof. intros w r req Q V C _. exact (options_goes w r req Q V C). Qed.
Print Assumptions C135_options_refuted.

(* Whatever the status of the answer to DESCRIBE, what its content describes is set up, stream by stream. *)
Theorem C135_describe_refuted : forall (w : world) (r : response) (body : bytes) ms w' o,
  described w r body -> ~ success (p_code r) -> In (s_proto (w_s w)) [ProtoTCP; ProtoUnicast; ProtoMulticast] ->
  sdp_parse body = Ok ms -> zlen ms < 2 ^ 61 -> handle_response w r = (w', o) ->
  exists k, (k <= length ms)%nat /\ asks (w_log w') = asks (w_log w) ++ map (fun i => request_text (s_proto (w_s w)) (Z.of_nat i)) (seq 0 k) /\ (o = Ok tt -> k = length ms).
Proof. intros w r body ms w' o D _. exact (describe_asks w r body ms w' o D). Qed.
Print Assumptions C135_describe_refuted.

(* Exactly: two answers to OPTIONS or DESCRIBE that differ in the status only, 401 aside, have the same effect. *)
Theorem C135_blind : forall (w : world) (r : response) (req : request) (status : bytes) (code : Z),
  qget (s_queue (w_s w)) (p_cseq r) = Some req -> q_verb req = bs "OPTIONS" \/ q_verb req = bs "DESCRIBE" -> p_code r <> 401 -> code <> 401 ->
  exists s inn wr li ra t o, handle_response w r = (mkW s inn wr li ra (w_log w ++ Got r :: t), o) /\
    handle_response w (with_status status code r) = (mkW s inn wr li ra (w_log w ++ Got (with_status status code r) :: t), o).
Proof. exact (fun w r req st code => status_blind w r req st code). Qed.
Print Assumptions C135_blind.

(* An answer to PLAY, PAUSE or TEARDOWN other than 200 moves nothing. *)
Theorem C135_orders_partial : forall (w : world) (r : response) (req : request),
  qget (s_queue (w_s w)) (p_cseq r) = Some req -> In (q_verb req) [bs "PLAY"; bs "PAUSE"; bs "TEARDOWN"] -> p_code r <> 401 -> ~ success (p_code r) ->
  exists w', handle_response w r = (w', Ok tt) /\ w_log w' = w_log w ++ [Got r] /\ s_stage (w_s w') = s_stage (w_s w).
Proof.
  intros w r req Q O C1 C2. unfold handle_response. cbv zeta. cbn [note w_s]. rewrite Q. destruct (p_code r =? 401) eqn:E; [lia|].
  assert (E2 : (p_code r =? 200) = false) by (unfold success in C2; lia).
  exists (upd_s (upd_s (note w (Got r)) (fun s => set_queue s (qdel (s_queue s) (p_cseq r)))) (fun s => learn_session s r)).
  splits; [|reflexivity|cbn [upd_s w_s note]; unfold learn_session; destruct (beq _ _); reflexivity].
  unfold react. cbv zeta. destruct O as [<-|[<-|[<-|[]]]]; rewrite E2; reflexivity.
Qed.
Print Assumptions C135_orders_partial.

Definition page : bytes := bs "m=video 0 RTP/AVP 96" ++ nl ++ bs "a=control:t" ++ nl.
Definition len (b : bytes) : sfield := mkField (bs "Content-Length") (bs " ") (itoa (zlen b)).
Example C135_case :
  asked [says 404 "1" [] []; says 404 "2" [len page] page] =
    [(bs "OPTIONS", bs "rtsp://h/s"); (bs "DESCRIBE", bs "rtsp://h/s"); (bs "SETUP", bs "rtsp://h/s/t")] /\
  snd (after [says 404 "1" [] []; says 404 "2" [len page] page]) = Live /\ ~ success 404.
Proof. splits; try (vm_compute; reflexivity). unfold success. lia. Qed.
