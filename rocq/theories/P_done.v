(* C126: Done is the end. *)
From Coq Require Import String.
From Verif Require Import Base GoStrings M_conn S_message M_message M_transport M_session S_session L_base L_session L_frames L_flow L_done P_session.

(* Full statement: after Done no stage is announced, nothing is passed on and nothing is sent (unless the application
   says so), and the session's loop ends.  True of stages and requests if everything sent has been answered: then,
   whatever comes, only packets are passed on, and the first message other than a packet ends the loop. *)
Theorem C126_quiet_partial : forall (proto : Z) (w : world) (es : list event) (w1 : world) (ts : list event) (w2 : world) (l2 : life),
  proto <> ProtoHTTP -> opened w proto -> run (w, Live) es = (w1, Live) ->
  last_stage (w_log w1) = 4 -> (forall k, ~ outstanding (w_log w1) k) ->
  Forall (fun e => exists t1 t2, e = Turn t1 t2) ts -> run (w1, Live) ts = (w2, l2) ->
  exists packets tail, w_log w2 = w_log w1 ++ map (fun f => Delivered (fst f) (snd f)) packets ++ tail /\
    (tail = [] \/ exists r, tail = [Got r] /\ l2 = NoLoop).
Proof.
  intros proto w es w1 ts w2 l2 P O R S N H R2. exact (run_silent ts w1 w2 l2 (reached_silent proto w es w1 P O R S N) H R2).
Qed.
Print Assumptions C126_quiet_partial.

(* False of packets and of the loop: after Done, whatever was before it, every packet is passed on as ever, and the loop goes
   on as long as packets or silences come; however many. *)
Theorem C126_goes_on_refuted : forall (proto : Z) (w : world) (es : list event) (w1 : world) (items : list item) (rest : stream) (ts : list (Z * Z)),
  proto <> ProtoHTTP -> opened w proto -> run (w, Live) es = (w1, Live) -> last_stage (w_log w1) = 4 ->
  Forall item_ok items -> Forall (fun it => match it with Resp _ _ _ _ => False | _ => True end) items ->
  w_in w1 = flat_map item_stream items ++ rest -> length ts = length items ->
  exists w2, run (w1, Live) (map (fun t => Turn (fst t) (snd t)) ts) = (w2, Live) /\
    w_log w2 = w_log w1 ++ flat_map (fun it => match it with Frame ch p => [Delivered ch p] | _ => [] end) items.
Proof.
  intros proto w es w1 items rest ts P O R S K St E L.
  eexists. split; [exact (run_still items w1 ts rest (reached_done proto w es w1 P O R S) K St L E)|]. reflexivity.
Qed.
Print Assumptions C126_goes_on_refuted.

(* False of stages: the answer to a PLAY or PAUSE that was still to come is announced after Done, and is then the stage of the session. *)
Theorem C126_stage_refuted : forall (proto : Z) (w : world) (es : list event) (w1 : world) (req : request) (st : Z) (r : response),
  proto <> ProtoHTTP -> opened w proto -> run (w, Live) es = (w1, Live) -> last_stage (w_log w1) = 4 ->
  o_pending (observe (w_log w1)) (q_cseq req) = Some req -> (st = 2 /\ q_verb req = bs "PLAY" \/ st = 3 /\ q_verb req = bs "PAUSE") ->
  p_cseq r = q_cseq req -> p_code r = 200 ->
  exists w2, handle_response w1 r = (w2, Ok tt) /\ w_log w2 = w_log w1 ++ [Got r; Notified st] /\ last_stage (w_log w2) = st.
Proof.
  intros proto w es w1 req st r P O R S Q V C K.
  destruct (run_legal proto w es w1 Live P O R) as (c & (A & _) & _). cbn [fst] in A. rewrite A, <- C in Q.
  destruct (C60_acknowledged w1 r req st) as (w2 & E & L & _); [destruct V as [(-> & _)|(-> & _)]; cbn; auto|exact Q|destruct V as [(-> & V)|(-> & V)]; exact V|exact K|].
  exists w2. splits; [exact E|exact L|]. rewrite L. unfold last_stage. rewrite fold_left_app. reflexivity.
Qed.
Print Assumptions C126_stage_refuted.

(* PLAY and TEARDOWN are sent, TEARDOWN is answered first: Done, a packet, and then Play; over UDP keep-alives begin again. *)
Example C126_case :
  let rsp n := text_of (bs "RTSP/1.0 200 OK|CSeq: " ++ itoa n) [] in
  let w := mkW (dialled ProtoUnicast None (bs "rtsp://h/s")) (rsp 2 ++ sent (frame_text 0 [7]) ++ rsp 1 ++ [None; None]) [] [] [] [] in
  let '(w', l) := run (w, Live) [App CPlay; App CTeardown; Turn 0 0; Turn 0 0; Turn 0 0; Turn 5 6] in
  l = Live /\ map (fun e => match e with Sent _ r => q_verb r | Notified s => [s] | Delivered _ p => p | _ => [] end) (w_log w') =
    [bs "PLAY"; bs "TEARDOWN"; []; [4]; [7]; []; [2]; []; bs "OPTIONS"].
Proof. vm_compute. split; reflexivity. Qed.

(* With all answered: a packet is passed on; a response that answers nothing ends the loop. *)
Example C126_quiet_case :
  let rsp n := text_of (bs "RTSP/1.0 200 OK|CSeq: " ++ itoa n) [] in
  let w := mkW (dialled ProtoTCP None (bs "rtsp://h/s")) (rsp 1 ++ sent (frame_text 0 [7]) ++ [None] ++ rsp 1 ++ sent (frame_text 0 [8])) [] [] [] [] in
  let '(w1, l1) := run (w, Live) [App CTeardown; Turn 0 0] in
  let '(w2, l2) := run (w1, l1) [Turn 0 0; Turn 0 0; Turn 0 0; Turn 0 0] in
  l1 = Live /\ last_stage (w_log w1) = 4 /\ l2 = NoLoop /\
  match skipn 3 (w_log w2) with [Delivered 0 [7]; Got r] => p_code r = 200 | _ => False end.
Proof. vm_compute. splits; reflexivity. Qed.
