(* Properties C70, C71, C77: the command-line client. *)
From Coq Require Import String.
From Verif Require Import Base GoStrings S_rtp M_rtp S_annexb M_annexb S_nal M_nal M_conn M_message M_transport M_session S_session M_main S_main
  L_base L_annexb L_rtp L_nal L_session L_flow L_main.
From Coq Require Import ZifyBool.

(* ---- C70 ---- *)
(* Full statement: no packet makes the client crash.  False; control packets first: exactly what happens with each. *)
Theorem C70_control_exact : forall (c : client) (ch : Z) (p : bytes), bytes_ok p -> ch mod 2 = 1 ->
  (snd (on_packet c ch p) = Crashes <-> control_crash p) /\ (snd (on_packet c ch p) = Returns <-> control_leave p) /\
  fst (on_packet c ch p) = c.
Proof.
  intros c ch p B O. unfold control_crash, control_leave. destruct (control_cases c ch p B O) as [[X ->]|[[X ->]|(X & Y & ->)]]; cbn [fst snd];
    unfold control_crash, control_leave in *; splits; try reflexivity; split; intros K; try discriminate; try reflexivity; try exact X; try lia; tauto.
Qed.
Print Assumptions C70_control_exact.

(* Media packets that are not whole: a crash for an empty one and for one cut short, the end of the client for another version. *)
Theorem C70_media_refuted : forall (c : client) (ch : Z) (p : bytes), bytes_ok p -> ch mod 2 = 0 ->
  (p = [] \/ version2 p /\ ~ rtp_complete p -> on_packet c ch p = (c, Crashes)) /\
  (p <> [] /\ ~ version2 p -> on_packet c ch p = (c, Returns)).
Proof. exact media_unready. Qed.
Print Assumptions C70_media_refuted.

(* Whole ones: what happens depends on the packets between the start codes of the payload, as in C22. *)
Theorem C70_media_exact : forall (c : client) (ch : Z) (h : rtp_header) (payload : bytes),
  sink_ok c -> bytes_ok payload -> ch mod 2 = 0 -> rtp_legal h -> exists nals, split_annexb payload = Ok nals /\
  (snd (on_packet c ch (rtp_layout h payload)) = Goes <-> Forall taken nals) /\ (snd (on_packet c ch (rtp_layout h payload)) = Crashes <-> breaks_at nals) /\
  (snd (on_packet c ch (rtp_layout h payload)) = Returns <-> ~ Forall taken nals /\ ~ breaks_at nals).
Proof.
  intros c ch h payload D B O L. destruct (push_nals_bytes payload B) as (nals & E & F). exists nals. split; [exact E|]. rewrite media_layout by assumption.
  destruct (push_nals_exact nals (c_sink c) (h_time h) F D) as (X1 & X2 & X3). rewrite <- X3, <- X1, <- X2. unfold push. rewrite E.
  destruct (push_nals_outcome nals (c_sink c) (h_time h) F D) as [[Y _]|[Y|Y]]; destruct (push_nals (c_sink c) nals (h_time h)) as [s' o]; cbn [snd] in *; rewrite Y; cbn [snd]; splits; split; congruence.
Qed.
Print Assumptions C70_media_exact.

(* Over a whole stream of packets without those, the client does not crash, and stays in a state where this goes on. *)
Theorem C70_safe_partial : forall (c : client) (ch : Z) (p : bytes),
  bytes_ok p -> sink_ok c -> (if ch mod 2 =? 0 then media_safe p else control_safe p) ->
  snd (on_packet c ch p) <> Crashes /\ sink_ok (fst (on_packet c ch p)).
Proof. intros c ch p B D S. split; [apply safe_packet; assumption|apply packet_sink_ok; assumption]. Qed.
Print Assumptions C70_safe_partial.

(* Four bytes from the server are enough to end the client. *)
Theorem C70_four_bytes_refuted : forall (rest : stream),
  exists y, yrun (launch (mkW (dialled ProtoTCP None (bs "rtsp://h/s")) (map Some [36; 0; 0; 0] ++ rest) [] [] [] [])) [YTurn 0 0; YPacket] = Some y /\ y_fate y = Crashes.
Proof. intros rest. eexists. split; vm_compute; reflexivity. Qed.
Print Assumptions C70_four_bytes_refuted.

Definition hdr := mkRtpH false true 96 1 2 3 [] None.
Example C70_example :
  sink_ok client0 /\ snd (on_packet client0 0 (rtp_layout hdr [101; 1; 2])) = Goes /\ snd (on_packet client0 0 (rtp_layout hdr [24; 0; 0])) = Crashes /\
  snd (on_packet client0 0 (rtp_layout hdr [])) = Returns /\ snd (on_packet client0 1 [128; 201; 0; 1; 0; 0; 0; 7]) = Goes /\
  snd (on_packet client0 1 [128; 200; 0; 6]) = Returns /\ snd (on_packet client0 1 [128; 200; 0]) = Crashes.
Proof. vm_compute. splits; try reflexivity; intros; discriminate. Qed.

(* ---- C71 ---- *)
(* In every execution: PLAY is sent after Ready, PAUSE after Play, TEARDOWN after Pause was announced. *)
Theorem C71_order : forall (proto : Z) (w : world) (es : list yevent) (y : system),
  opened w proto -> yrun (launch w) es = Some y -> in_order (w_log (y_w y)).
Proof. intros proto w es y O R. destruct (yrun_good es _ _ R (launch_good w proto O)) as [H _]. exact H. Qed.
Print Assumptions C71_order.

(* and therefore after the response that acknowledges the step before *)
Theorem C71_acknowledged : forall (proto : Z) (w : world) (es : list yevent) (y : system) (a b : list effect) (r : request) (n : Z),
  opened w proto -> yrun (launch w) es = Some y -> w_log (y_w y) = a ++ Sent false r :: b -> waits_for (q_verb r) = Some n ->
  exists a1 a2 req rsp, a = a1 ++ a2 /\ answers a1 req rsp /\ q_verb req = verb_of n /\ (n <> 1 -> p_code rsp = 200).
Proof.
  intros proto w es y a b r n O R L V. pose proof (C71_order proto w es y O R a r b n L V) as I. apply in_split in I as (a1 & a2 & ->).
  destruct (yrun_lived es w _ _ R ltac:(unfold launch; destruct (options w); discriminate) (launch_lived w proto O)) as (evs & l & RR & _).
  rewrite <- app_assoc in L. cbn [app] in L. destruct (run_all_legal _ _ _ _ _ O RR _ _ _ L) as [(S & _) _]. cbn [stage_legal] in S.
  destruct S as (req & rsp & C & B & Q & K). exists a1, (Notified n :: a2), req, rsp. splits; auto. apply observe_cur. exact C.
Qed.
Print Assumptions C71_acknowledged.

(* The steps are taken: Ready leads to PLAY; Play, Pause and Done start the timer; its tick leads to PAUSE, to TEARDOWN, to the end. *)
Theorem C71_steps : forall (y : system),
  y_fate y = Goes -> s_conn (w_s (y_w y)) = true -> s_proto (w_s (y_w y)) <> ProtoHTTP ->
  (forall n, y_stage y = Some n -> exists y', ystep y YStage = Some y' /\ y_stage y' = None /\ c_state (y_c y') = n /\
     (n = 1 -> exists r, w_log (y_w y') = w_log (y_w y) ++ [Sent false r] /\ q_verb r = bs "PLAY") /\
     (2 <= n <= 4 -> y_fate y' = Goes /\ c_running (y_c y') = true /\ y_w y' = y_w y)) /\
  (c_running (y_c y) = true -> exists y', ystep y YExpire = Some y' /\ y_fate y' = Goes /\ c_ticked (y_c y') = true /\ c_state (y_c y') = c_state (y_c y)) /\
  (c_ticked (y_c y) = true -> exists y', ystep y YTick = Some y' /\
     (c_state (y_c y) = 2 -> exists r, w_log (y_w y') = w_log (y_w y) ++ [Sent false r] /\ q_verb r = bs "PAUSE") /\
     (c_state (y_c y) = 3 -> exists r, w_log (y_w y') = w_log (y_w y) ++ [Sent false r] /\ q_verb r = bs "TEARDOWN") /\
     (c_state (y_c y) = 4 -> y_fate y' = Returns)).
Proof.
  intros y F C P.
  assert (K : forall verb c, exists w' f r, must (with_conn (y_w y) (fun s => command (y_w y) verb (s_uri s) [])) c = (w', c, f) /\ w_log w' = w_log (y_w y) ++ [Sent false r] /\ q_verb r = verb).
  { intros verb c. unfold with_conn. rewrite C. destruct (command_exact (y_w y) verb (s_uri (w_s (y_w y))) [] C P) as (rq & w' & o & E & L & V & _). rewrite E.
    exists w'. destruct o; do 2 eexists; (split; [reflexivity|]); eauto. }
  unfold ystep. rewrite F. splits.
  - intros n S. rewrite S. unfold on_stage. destruct (n =? StageReady) eqn:E1.
    + destruct (K (bs "PLAY") (mkC n (c_sink (y_c y)) (c_running (y_c y)) (c_ticked (y_c y)))) as (w' & f & r & M & L & V). unfold play. rewrite M. eexists. split; [reflexivity|]. cbn.
      splits; eauto. intros. unfold StageReady in E1. lia.
    + cbn [c_sink c_running c_ticked]. unfold StageReady, StagePlay, StagePause, StageDone in *. destruct ((n =? 2) || (n =? 3) || (n =? 4)) eqn:E2; eexists; (split; [reflexivity|]); cbn; splits; auto; intros; lia.
  - intros S. cbv zeta. rewrite S. eexists. split; [reflexivity|]. cbn. auto.
  - intros S. rewrite S. cbv zeta. unfold on_tick. cbn [c_state]. unfold StagePlay, StagePause, StageDone.
    destruct (c_state (y_c y) =? 2) eqn:E1; [|destruct (c_state (y_c y) =? 3) eqn:E2; [|destruct (c_state (y_c y) =? 4) eqn:E3]].
    + destruct (K (bs "PAUSE") (mkC (c_state (y_c y)) (c_sink (y_c y)) (c_running (y_c y)) false)) as (w' & f & r & M & L & V). unfold pause. rewrite M. eexists. split; [reflexivity|]. cbn. splits; intros; try lia; eauto.
    + destruct (K (bs "TEARDOWN") (mkC (c_state (y_c y)) (c_sink (y_c y)) (c_running (y_c y)) false)) as (w' & f & r & M & L & V). unfold teardown. rewrite M. eexists. split; [reflexivity|]. cbn. splits; intros; try lia; eauto.
    + eexists. split; [reflexivity|]. cbn. splits; intros; try lia; reflexivity.
    + eexists. split; [reflexivity|]. cbn. splits; intros; lia.
Qed.
Print Assumptions C71_steps.

(* It ends after Done, or else because of a packet: the second is not part of the claim. *)
Theorem C71_exit_partial : forall (y y' : system) (e : yevent),
  ystep y e = Some y' -> y_fate y' = Returns ->
  (e = YTick /\ c_state (y_c y) = 4) \/ (e = YPacket /\ exists ch p rest, y_data y = (ch, p) :: rest /\ snd (on_packet (y_c y) ch p) = Returns).
Proof.
  intros y y' e H X. unfold ystep in H. destruct (y_fate y); try discriminate. destruct e.
  - destruct (y_loop y), (y_stage y); try discriminate. destruct (zlen (y_data y) <=? 20); try discriminate. destruct (turn (y_w y) t1 t2) as [w en]. injection H as <-. destruct en; discriminate X.
  - destruct (y_stage y) as [n|]; try discriminate. unfold on_stage in H. destruct (n =? StageReady).
    + destruct (play (y_w y)) as [w [u|er| |]]; cbn in H; injection H as <-; discriminate X.
    + cbn [c_sink c_running c_ticked] in H. destruct ((n =? StagePlay) || (n =? StagePause) || (n =? StageDone)); injection H as <-; discriminate X.
  - destruct (y_data y) as [|[ch p] rest]; try discriminate. destruct (on_packet (y_c y) ch p) as [c f] eqn:P. injection H as <-. right. split; [reflexivity|]. do 3 eexists. split; [reflexivity|]. rewrite P. exact X.
  - destruct (c_ticked (y_c y)); try discriminate. cbv zeta in H. unfold on_tick in H. cbn [c_state] in H. destruct (c_state (y_c y) =? StagePlay) eqn:E1; [|destruct (c_state (y_c y) =? StagePause) eqn:E2].
    + destruct (pause (y_w y)) as [w [u|er| |]]; cbn in H; injection H as <-; discriminate X.
    + destruct (teardown (y_w y)) as [w [u|er| |]]; cbn in H; injection H as <-; discriminate X.
    + destruct (c_state (y_c y) =? StageDone) eqn:E3; injection H as <-; [|discriminate X]. left. split; [reflexivity|]. unfold StageDone in E3. lia.
  - cbv zeta in H. destruct (c_running (y_c y)); try discriminate. injection H as <-. discriminate X.
Qed.
Print Assumptions C71_exit_partial.

(* a message; | is the end of a line *)
Definition message (head body : bytes) : stream := map Some (flat_map (fun c => if c =? 124 then [13; 10] else [c]) head ++ [13; 10; 13; 10] ++ body).
Definition sdp1 : bytes := bs "v=0
m=video 0 RTP/AVP 96
a=rtpmap:96 H264/90000
a=control:one
".
Definition start_up : stream :=
  message (bs "RTSP/1.0 200 OK|CSeq: 1|Public: OPTIONS, PLAY") [] ++
  message (bs "RTSP/1.0 200 OK|CSeq: 2|Content-Length: 62") sdp1 ++
  message (bs "RTSP/1.0 200 OK|CSeq: 3|Session: 7|Transport: RTP/AVP/TCP;interleaved=0-1") [] ++
  message (bs "RTSP/1.0 200 OK|CSeq: 4") [].
Definition new_verbs (log : list effect) : list bytes := flat_map (fun e => match e with Sent false r => [q_verb r] | _ => [] end) log.

(* Whenever the client takes a packet that is not empty and of another version, on any channel and at any stage, it ends at once and
   sends nothing: no PAUSE, no TEARDOWN. *)
Theorem C71_version_refuted : forall (y : system) (ch : Z) (p : bytes) (rest : list (Z * bytes)),
  y_fate y = Goes -> y_data y = (ch, p) :: rest -> bytes_ok p -> (if ch mod 2 =? 0 then p <> [] else 4 <= zlen p) -> ~ version2 p ->
  exists y', ystep y YPacket = Some y' /\ y_fate y' = Returns /\ w_log (y_w y') = w_log (y_w y) /\ forall e, ystep y' e = None.
Proof.
  intros y ch p rest G D B N V. unfold ystep at 1. rewrite G, D.
  assert (X : on_packet (y_c y) ch p = (y_c y, Returns)).
  { destruct (ch mod 2 =? 0) eqn:E.
    - apply C70_media_refuted; [exact B|lia|split; assumption].
    - assert (M : ch mod 2 = 1) by (pose proof (Z.mod_pos_bound ch 2 ltac:(lia)); lia).
      destruct (C70_control_exact (y_c y) ch p B M) as (_ & (_ & R) & C). rewrite (surjective_pairing (on_packet (y_c y) ch p)), C.
      rewrite R; [reflexivity|]. split; [exact N|left; exact V]. }
  rewrite X. eexists. split; [reflexivity|]. splits; try reflexivity.
Qed.
Print Assumptions C71_version_refuted.

(* A packet of another version during play: the client ends without TEARDOWN. *)
Theorem C71_exit_refuted : exists (w : world) (es : list yevent) (y : system),
  opened w ProtoTCP /\ yrun (launch w) es = Some y /\ y_fate y = Returns /\ c_state (y_c y) = 2 /\
  new_verbs (w_log (y_w y)) = [bs "OPTIONS"; bs "DESCRIBE"; bs "SETUP"; bs "PLAY"].
Proof.
  exists (mkW (dialled ProtoTCP None (bs "rtsp://h/s")) (start_up ++ map Some [36; 0; 0; 1; 0]) [] [] [] []).
  exists [YTurn 0 0; YTurn 0 0; YTurn 0 0; YStage; YTurn 0 0; YStage; YTurn 0 0; YPacket]. eexists.
  split; [exists None, (bs "rtsp://h/s"); split; reflexivity|]. vm_compute. splits; reflexivity.
Qed.
Print Assumptions C71_exit_refuted.

(* A whole session. *)
Example C71_example :
  let w := mkW (dialled ProtoTCP None (bs "rtsp://h/s"))
    (start_up ++ map Some (frame_text 0 (rtp_layout hdr [101; 1; 2])) ++ map Some (frame_text 1 [128; 201; 0; 1; 0; 0; 0; 7]) ++
     message (bs "RTSP/1.0 200 OK|CSeq: 5") [] ++ message (bs "RTSP/1.0 200 OK|CSeq: 6") []) [] [] [] [] in
  exists y, yrun (launch w) [YTurn 0 0; YTurn 0 0; YTurn 0 0; YStage; YTurn 0 0; YStage; YTurn 0 0; YTurn 0 0; YPacket; YExpire; YPacket; YTick;
                             YTurn 0 0; YStage; YExpire; YTick; YTurn 0 0; YStage; YExpire; YTick] = Some y /\
    y_fate y = Returns /\ y_loop y = Live /\
    new_verbs (w_log (y_w y)) = [bs "OPTIONS"; bs "DESCRIBE"; bs "SETUP"; bs "PLAY"; bs "PAUSE"; bs "TEARDOWN"].
Proof. eexists. split; vm_compute; [reflexivity|]. splits; reflexivity. Qed.

(* ---- C77 ---- *)
(* Full statement: when the session's loop ends, the application hears of it.  False: the turn that ends it announces nothing. *)
Theorem C77_silent_refuted : forall (w w' : world) (t1 t2 : Z),
  turn w t1 t2 = (w', Stop) -> exists es, w_log w' = w_log w ++ es /\ signals es = [].
Proof.
  intros w w' t1 t2 T. apply turn_grows in T as (es & L & _ & N). exists es. split; [exact L|]. destruct (signals es); [reflexivity|cbn in N; lia].
Qed.
Print Assumptions C77_silent_refuted.

(* Then, once what is under way has been taken, nothing more can happen to the client unless its timer is set: it waits for ever. *)
Theorem C77_hang_refuted : forall (y : system) (e : yevent),
  y_loop y = NoLoop -> y_stage y = None -> y_data y = [] -> c_running (y_c y) = false -> c_ticked (y_c y) = false -> ystep y e = None.
Proof. intros y e L S D R T. unfold ystep. destruct (y_fate y); try reflexivity. destruct e; rewrite ?L, ?S, ?D, ?T; cbv zeta; rewrite ?R; reflexivity. Qed.
Print Assumptions C77_hang_refuted.

(* With the timer set the next command is still sent (and an error of the write is then fatal). *)
Theorem C77_write_partial : forall (y : system) (er : goerr) (more : list (option goerr)),
  y_fate y = Goes -> s_conn (w_s (y_w y)) = true -> s_proto (w_s (y_w y)) <> ProtoHTTP -> w_writes (y_w y) = Some er :: more -> c_ticked (y_c y) = true ->
  c_state (y_c y) = 2 \/ c_state (y_c y) = 3 -> exists y', ystep y YTick = Some y' /\ y_fate y' = Fatals.
Proof.
  intros y er more F C P W T S.
  assert (K : forall verb c, exists w', must (with_conn (y_w y) (fun s => command (y_w y) verb (s_uri s) [])) c = (w', c, Fatals)).
  { intros verb c. unfold with_conn. rewrite C. destruct (command_exact (y_w y) verb (s_uri (w_s (y_w y))) [] C P) as (rq & w' & o & E & R). rewrite E.
    exists w'. destruct R as (_ & _ & _ & _ & _ & _ & _ & _ & _ & _ & _ & _ & _ & _ & _ & O & _). rewrite W in O. subst o. reflexivity. }
  unfold ystep. rewrite F, T. cbv zeta. unfold on_tick. cbn [c_state]. unfold StagePlay, StagePause, StageDone.
  destruct S as [S|S]; rewrite S; cbn [Z.eqb Pos.eqb].
  - destruct (K (bs "PAUSE") (mkC 2 (c_sink (y_c y)) (c_running (y_c y)) false)) as (w' & M). unfold pause. rewrite M. eexists. split; reflexivity.
  - destruct (K (bs "TEARDOWN") (mkC 3 (c_sink (y_c y)) (c_running (y_c y)) false)) as (w' & M). unfold teardown. rewrite M. eexists. split; reflexivity.
Qed.
Print Assumptions C77_write_partial.
(* So is an error of writing the first request, and of PLAY. *)
Theorem C77_start_partial : forall (w : world) (proto : Z) (er : goerr) (more : list (option goerr)),
  opened w proto -> proto <> ProtoHTTP -> w_writes w = Some er :: more -> y_fate (launch w) = Fatals.
Proof.
  intros w proto er more (u & uri & E & _) P W. unfold launch, options, with_conn.
  destruct (command_exact w (bs "OPTIONS") (s_uri (w_s w)) [] ltac:(rewrite E; reflexivity) ltac:(rewrite E; exact P)) as (rq & w' & o & K & R).
  destruct R as (_ & _ & _ & _ & _ & _ & _ & _ & _ & _ & _ & _ & _ & _ & _ & O & _). rewrite W in O. subst o.
  replace (s_conn (w_s w)) with true by (rewrite E; reflexivity). rewrite K. reflexivity.
Qed.
Print Assumptions C77_start_partial.
Theorem C77_play_partial : forall (y : system) (er : goerr) (more : list (option goerr)),
  y_fate y = Goes -> s_conn (w_s (y_w y)) = true -> s_proto (w_s (y_w y)) <> ProtoHTTP -> w_writes (y_w y) = Some er :: more -> y_stage y = Some 1 ->
  exists y', ystep y YStage = Some y' /\ y_fate y' = Fatals.
Proof.
  intros y er more F C P W S. unfold ystep. rewrite F, S. unfold on_stage, StageReady. cbn [Z.eqb Pos.eqb]. cbv zeta. unfold play, with_conn. rewrite C.
  destruct (command_exact (y_w y) (bs "PLAY") (s_uri (w_s (y_w y))) [] C P) as (rq & w' & o & K & R).
  destruct R as (_ & _ & _ & _ & _ & _ & _ & _ & _ & _ & _ & _ & _ & _ & _ & O & _). rewrite W in O. subst o. rewrite K. eexists. split; reflexivity.
Qed.
Print Assumptions C77_play_partial.

(* the server closes the connection after OPTIONS *)
Example C77_example : exists y, yrun (launch (mkW (dialled ProtoTCP None (bs "rtsp://h/s")) [] [] [] [] [])) [YTurn 0 0] = Some y /\
  y_loop y = NoLoop /\ y_stage y = None /\ y_data y = [] /\ c_running (y_c y) = false /\ c_ticked (y_c y) = false /\ y_fate y = Goes.
Proof. eexists. split; vm_compute; [reflexivity|]. splits; reflexivity. Qed.
(* the write of OPTIONS fails; that of PLAY; that of PAUSE; and that of DESCRIBE, which the receiver loop sends: then the client goes on *)
Example C77_write_example :
  let w bad := mkW (dialled ProtoTCP None (bs "rtsp://h/s")) start_up (repeat None bad ++ [Some ErrWrite]) [] [] [] in
  let play := [YTurn 0 0; YTurn 0 0; YTurn 0 0; YStage] in
  y_fate (launch (w 0%nat)) = Fatals /\
  option_map y_fate (yrun (launch (w 3%nat)) play) = Some Fatals /\
  option_map y_fate (yrun (launch (w 4%nat)) (play ++ [YTurn 0 0; YStage; YExpire; YTick])) = Some Fatals /\
  option_map (fun y => (y_fate y, y_loop y)) (yrun (launch (w 1%nat)) [YTurn 0 0]) = Some (Goes, NoLoop).
Proof. vm_compute. splits; reflexivity. Qed.
