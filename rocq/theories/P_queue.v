(* C137: the requests a session keeps. *)
From Coq Require Import String.
From Verif Require Import Base GoStrings M_conn M_message M_transport M_session S_session S_message S_handshake S_queue L_base L_queue.

(* Full statement: what a session keeps does not grow as long as it lives.  Exactly: it keeps the requests that have not been answered. *)
Theorem C137_exact : forall (proto : Z) (w : world) (es : list event) (w' : world) (l' : life) (k : Z),
  proto <> ProtoHTTP -> opened w proto -> M_session.run (w, Live) es = (w', l') ->
  ((exists rq, qget (s_queue (w_s w')) k = Some rq) <-> outstanding (w_log w') k).
Proof. exact kept_outstanding. Qed.
Print Assumptions C137_exact.

(* So nothing is kept when all have been. *)
Theorem C137_none_partial : forall (proto : Z) (w : world) (es : list event) (w' : world) (l' : life),
  proto <> ProtoHTTP -> opened w proto -> M_session.run (w, Live) es = (w', l') -> (forall k, ~ outstanding (w_log w') k) -> s_queue (w_s w') = [].
Proof.
  intros proto w es w' l' P O E N. apply qget_nil. intros k. destruct (qget (s_queue (w_s w')) k) as [rq|] eqn:Q; [|reflexivity].
  destruct (N k). apply (kept_outstanding proto w es w' l' k P O E). exists rq. exact Q.
Qed.
Print Assumptions C137_none_partial.

(* False over UDP while the server is silent: each turn of the loop two seconds after the last leaves one request more, whatever becomes of the
   writing of it, and none is ever dropped. *)
Theorem C137_grows_refuted : forall (clocks : list (Z * Z)) (w : world) (rest : stream),
  s_conn (w_s w) = true -> s_proto (w_s w) <> ProtoHTTP -> s_proto (w_s w) <> ProtoTCP -> 1 <= s_stage (w_s w) <= 3 ->
  spaced (s_last (w_s w)) clocks -> w_in w = repeat None (length clocks) ++ rest -> 0 <= s_cseq (w_s w) -> s_cseq (w_s w) + zlen clocks < 2 ^ 63 ->
  exists w', M_session.run (w, Live) (turns_at clocks) = (w', Live) /\ w_in w' = rest /\
    (forall k rq, k <= s_cseq (w_s w) -> qget (s_queue (w_s w)) k = Some rq -> qget (s_queue (w_s w')) k = Some rq) /\
    (forall k, s_cseq (w_s w) < k <= s_cseq (w_s w) + zlen clocks -> exists rq, qget (s_queue (w_s w')) k = Some rq /\ q_verb rq = bs "OPTIONS").
Proof. exact pile. Qed.
Print Assumptions C137_grows_refuted.

(* Four keep-alives, the third of which cannot be written; then the second is answered. *)
Example C137_case :
  let s := set_cseq (set_session (set_stage (dialled ProtoUnicast None (bs "rtsp://h/s")) StagePlay) (bs "1F")) 5 in
  let w := mkW s ([None; None; None; None] ++ item_stream (Resp 200 (bs "OK") [mkField (bs "CSeq") (bs " ") (bs "7")] [])) [None; None; Some ErrTimeout] [] [] [] in
  let clocks := map (fun t => (t * 1000000000, t * 1000000000)) [1; 3; 5; 7] in
  spaced None clocks /\
  map fst (s_queue (w_s (fst (M_session.run (w, Live) (turns_at clocks))))) = [9; 8; 7; 6] /\
  map fst (s_queue (w_s (fst (M_session.run (w, Live) (turns_at (clocks ++ [(8000000000, 8000000000)])))))) = [9; 8; 6].
Proof. vm_compute. repeat split; congruence. Qed.
