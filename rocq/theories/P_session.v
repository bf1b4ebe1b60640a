(* Properties C58, C60-C65, C67, C69, C72-C76: the exchange of commands and responses.
   Histories: [opened] is the session as Open leaves it before its first command; an event is a command of the
   application or a turn of the session's loop; w_log is everything that was sent, received and announced. *)
From Coq Require Import String.
From Verif Require Import Base GoStrings M_conn S_message M_message S_transport M_transport M_sdp M_digest M_sps M_session S_session
  L_base L_transport L_session L_flow.
From Verif Require L_main.
From Coq Require Import ZifyBool.

(* C58  the new requests of a history are numbered 1, 2, 3, ... *)
Theorem C58_sequence : forall (proto : Z) (w : world) (es : list event) (w' : world) (l' : life),
  opened w proto -> run (w, Live) es = (w', l') -> zlen (new_cseqs (w_log w')) < 2 ^ 63 ->
  new_cseqs (w_log w') = map Z.of_nat (seq 1 (length (new_cseqs (w_log w')))).
Proof.
  intros proto w es w' l' O E B. destruct (legal_numbers _ _ (run_all_legal _ _ _ _ _ O E)) as [N _]. rewrite N at 1.
  apply map_ext_in. intros k K. apply in_seq in K. unfold zlen in B. apply i64_small. lia.
Qed.
Print Assumptions C58_sequence.

Example C58_example :
  let w := mkW (dialled ProtoTCP None (bs "rtsp://h/s")) (map Some (bs "RTSP/1.0 200 OK" ++ [13; 10] ++ bs "CSeq: 1" ++ [13; 10; 13; 10])) [] [] [] [] in
  new_cseqs (w_log (fst (run (w, Live) [App COptions; Turn 0 0; App CPlay; App CTeardown]))) = [1; 2; 3; 4].
Proof. vm_compute. reflexivity. Qed.

(* C60  a stage is announced on a response to an unanswered request with that purpose, with status 200 (any final
   status for Ready, see C61) *)
Theorem C60_announced : forall (proto : Z) (w : world) (es : list event) (w' : world) (l' : life) (l1 l2 : list effect) (st : Z),
  opened w proto -> run (w, Live) es = (w', l') -> w_log w' = l1 ++ Notified st :: l2 ->
  1 <= st <= 4 /\ exists req r, answers l1 req r /\
    q_verb req = (if st =? 1 then bs "SETUP" else if st =? 2 then bs "PLAY" else if st =? 3 then bs "PAUSE" else bs "TEARDOWN") /\
    (st <> 1 -> p_code r = 200).
Proof.
  intros proto w es w' l' l1 l2 st O E L. destruct (run_all_legal _ _ _ _ _ O E _ _ _ L) as [(S & _) _]. cbn [stage_legal] in S.
  destruct S as (req & r & C & B & V & K). split; [exact B|]. exists req, r. split; [apply observe_cur; exact C|]. split; [|exact K].
  rewrite V. unfold verb_of. destruct (st =? 1) eqn:E1; [reflexivity|]. destruct (st =? 2) eqn:E2; [reflexivity|]. destruct (st =? 3) eqn:E3; [reflexivity|]. destruct (st =? 4) eqn:E4; [reflexivity|lia].
Qed.
Print Assumptions C60_announced.

(* and the session's stage is the last one announced *)
Theorem C60_current : forall (proto : Z) (w : world) (es : list event) (w' : world) (l' : life),
  proto <> ProtoHTTP -> opened w proto -> run (w, Live) es = (w', l') -> s_stage (w_s w') = last_stage (w_log w').
Proof. intros proto w es w' l' P O E. destruct (run_legal _ _ _ _ _ P O E) as (c & (_ & _ & S & _) & _). rewrite <- observe_stage. symmetry. exact S. Qed.
Print Assumptions C60_current.

(* conversely a 200 response to such a request announces the stage *)
Theorem C60_acknowledged : forall (w : world) (r : response) (req : request) (st : Z),
  In st [2; 3; 4] -> qget (s_queue (w_s w)) (p_cseq r) = Some req -> q_verb req = verb_of st -> p_code r = 200 ->
  exists w', handle_response w r = (w', Ok tt) /\ w_log w' = w_log w ++ [Got r; Notified st] /\ s_stage (w_s w') = st.
Proof.
  intros w r req st I Q V C. unfold handle_response. cbv zeta. cbn [note w_s]. rewrite Q, C. change (200 =? 401) with false. cbv iota.
  unfold react. rewrite V, C. change (200 =? 200) with true. destruct I as [<-|[<-|[<-|[]]]]; eexists; (split; [reflexivity|]); cbn [notify note upd_s w_log w_s]; (split; [rewrite <- app_assoc; reflexivity|reflexivity]).
Qed.
Print Assumptions C60_acknowledged.

(* a message; | is the end of a line *)
Definition text_of (head body : bytes) : stream := map Some (flat_map (fun c => if c =? 124 then [13; 10] else [c]) head ++ [13; 10; 13; 10] ++ body).
Definition sdp2 : bytes := bs "v=0
m=video 0 RTP/AVP 96
a=rtpmap:96 H264/90000
a=control:one
m=video 0 RTP/AVP 97
a=rtpmap:97 H264/90000
a=control:two
".

Example C60_example :
  let w := mkW (dialled ProtoTCP None (bs "rtsp://h/s")) (text_of (bs "RTSP/1.0 200 OK|CSeq: 2") [] ++ text_of (bs "RTSP/1.0 404 Not Found|CSeq: 1") []) [] [] [] [] in
  let '(w', l) := run (w, Live) [App CPlay; App CPause; Turn 0 0; Turn 0 0] in
  l = Live /\ filter (fun e => match e with Notified _ => true | _ => false end) (w_log w') = [Notified 3] /\ s_stage (w_s w') = 3.
Proof. vm_compute. repeat split. Qed.

(* C61  Setup sends one SETUP per feed; when their responses (in any order, with any status other than 401) have been
   taken without error, Ready has been announced once if they are all there, and not otherwise *)
Theorem C61_ready_partial : forall (w w1 w2 : world) (rs : list response),
  s_conn (w_s w) = true -> s_proto (w_s w) <> ProtoHTTP -> s_feedidx (w_s w) = 0 -> s_feeds (w_s w) <> [] ->
  0 <= s_cseq (w_s w) -> s_cseq (w_s w) + zlen (s_feeds (w_s w)) < 2 ^ 63 ->
  setup w = (w1, Ok tt) ->
  NoDup (map p_cseq rs) ->
  Forall (fun r => s_cseq (w_s w) < p_cseq r <= s_cseq (w_s w) + zlen (s_feeds (w_s w)) /\ p_code r <> 401) rs ->
  handled w1 rs w2 ->
  readies (w_log w2) = readies (w_log w) ++ (if zlen rs =? zlen (s_feeds (w_s w)) then [Notified 1] else []) /\
  s_stage (w_s w2) = (if zlen rs =? zlen (s_feeds (w_s w)) then 1 else s_stage (w_s w)).
Proof. intros w w1 w2 rs. apply setup_ready. Qed.
Print Assumptions C61_ready_partial.

(* the whole start-up, answers to SETUP in reverse order *)
Example C61_example :
  let w := mkW (dialled ProtoTCP None (bs "rtsp://h/s"))
    (text_of (bs "RTSP/1.0 200 OK|CSeq: 1|Public: OPTIONS, PLAY") [] ++
     text_of (bs "RTSP/1.0 200 OK|CSeq: 2|Content-Length: 120") sdp2 ++
     text_of (bs "RTSP/1.0 200 OK|CSeq: 4|Session: 7;timeout=60|Transport: RTP/AVP/TCP;interleaved=2-3") [] ++
     text_of (bs "RTSP/1.0 404 Not Found|CSeq: 3") []) [] [] [] [] in
  zlen sdp2 = 120 /\
  let '(w1, l1) := run (w, Live) [App COptions; Turn 0 0; Turn 0 0; Turn 0 0] in
  let '(w2, l2) := run (w1, l1) [Turn 0 0] in
  readies (w_log w1) = [] /\ readies (w_log w2) = [Notified 1] /\ l2 = Live /\ s_session (w_s w2) = bs "7".
Proof. vm_compute. repeat split. Qed.

(* without feeds there is never a SETUP to answer, and Ready never comes *)
Theorem C61_no_feeds_refuted : forall (w : world), s_feeds (w_s w) = [] -> setup w = (w, Ok tt).
Proof. intros w F. unfold setup. rewrite F. reflexivity. Qed.
Print Assumptions C61_no_feeds_refuted.

(* C62  on a 401 with a usable challenge and credentials, the same request goes out again with an Authorization value,
   under the CSeq of the latest request; that entry of the table of outstanding requests is replaced *)
Theorem C62_retransmission_partial : forall (w : world) (r : response) (req : request) (user pass : bytes) (d : digest),
  qget (s_queue (w_s w)) (p_cseq r) = Some req -> p_code r = 401 -> s_proto (w_s w) <> ProtoHTTP ->
  s_user (w_s w) = Some (user, pass) -> new_digest (s_uri (w_s w)) (header_get (p_header r) (bs "WWW-Authenticate")) = Ok d ->
  exists rq w' o, handle_response w r = (w', o) /\ w_log w' = w_log w ++ [Got r; Sent true rq] /\
    q_verb rq = q_verb req /\ q_uri rq = q_uri req /\ q_header rq = q_header req /\ q_auth rq <> [] /\ q_cseq rq = s_cseq (w_s w) /\
    (forall k, qget (s_queue (w_s w')) k = if k =? s_cseq (w_s w) then Some rq else if k =? p_cseq r then None else qget (s_queue (w_s w)) k).
Proof.
  intros w r req user pass d Q C P U D. destruct (retry_exact w r req user pass d Q C P U D) as (rq & w' & o & E & L & _ & V & R & H & A & K & QQ & _).
  exists rq, w', o. repeat (split; [assumption|]). exact QQ.
Qed.
Print Assumptions C62_retransmission_partial.

(* so it is as stated when the answered request is the latest *)
Theorem C62_latest : forall (w : world) (r : response) (req : request) (user pass : bytes) (d : digest),
  qget (s_queue (w_s w)) (p_cseq r) = Some req -> p_code r = 401 -> s_proto (w_s w) <> ProtoHTTP ->
  s_user (w_s w) = Some (user, pass) -> new_digest (s_uri (w_s w)) (header_get (p_header r) (bs "WWW-Authenticate")) = Ok d ->
  p_cseq r = s_cseq (w_s w) ->
  exists rq w' o, handle_response w r = (w', o) /\ w_log w' = w_log w ++ [Got r; Sent true rq] /\
    q_verb rq = q_verb req /\ q_uri rq = q_uri req /\ q_header rq = q_header req /\ q_auth rq <> [] /\ q_cseq rq = p_cseq r /\
    (forall k, k <> p_cseq r -> qget (s_queue (w_s w')) k = qget (s_queue (w_s w)) k).
Proof.
  intros w r req user pass d Q C P U D X. destruct (retry_exact w r req user pass d Q C P U D) as (rq & w' & o & E & L & _ & V & R & H & A & K & QQ & _).
  exists rq, w', o. repeat (split; [first [assumption|congruence]|]). intros k N. rewrite QQ. destruct (k =? s_cseq (w_s w)) eqn:E1; [lia|]. destruct (k =? p_cseq r) eqn:E2; [lia|reflexivity].
Qed.
Print Assumptions C62_latest.

(* and never otherwise: the number changes, and an outstanding request is forgotten *)
Theorem C62_earlier_refuted : forall (w : world) (r : response) (req other : request) (user pass : bytes) (d : digest),
  qget (s_queue (w_s w)) (p_cseq r) = Some req -> p_code r = 401 -> s_proto (w_s w) <> ProtoHTTP ->
  s_user (w_s w) = Some (user, pass) -> new_digest (s_uri (w_s w)) (header_get (p_header r) (bs "WWW-Authenticate")) = Ok d ->
  p_cseq r <> s_cseq (w_s w) -> qget (s_queue (w_s w)) (s_cseq (w_s w)) = Some other -> q_uri other <> q_uri req ->
  exists rq w' o, handle_response w r = (w', o) /\ w_log w' = w_log w ++ [Got r; Sent true rq] /\ q_uri rq = q_uri req /\ q_cseq rq <> p_cseq r /\
    qget (s_queue (w_s w')) (p_cseq r) = None /\ qget (s_queue (w_s w')) (s_cseq (w_s w)) = Some rq /\ rq <> other.
Proof.
  intros w r req other user pass d Q C P U D X QO NU. destruct (retry_exact w r req user pass d Q C P U D) as (rq & w' & o & E & L & _ & V & R & H & A & K & QQ & _).
  exists rq, w', o. repeat (split; [first [assumption|congruence]|]). rewrite !QQ, Z.eqb_refl. destruct (p_cseq r =? s_cseq (w_s w)) eqn:E1; [lia|]. rewrite Z.eqb_refl. repeat (split; [reflexivity|]). congruence.
Qed.
Print Assumptions C62_earlier_refuted.

(* within a history: whatever is sent again is the request last answered, that answer was a 401, and there is an Authorization value *)
Theorem C62_history : forall (proto : Z) (w : world) (es : list event) (w' : world) (l' : life) (l1 l2 : list effect) (rq : request),
  opened w proto -> run (w, Live) es = (w', l') -> w_log w' = l1 ++ Sent true rq :: l2 ->
  exists req r, answers l1 req r /\ p_code r = 401 /\ q_verb rq = q_verb req /\ q_uri rq = q_uri req /\ q_header rq = q_header req /\ q_auth rq <> [].
Proof.
  intros proto w es w' l' l1 l2 rq O E L. destruct (run_all_legal _ _ _ _ _ O E _ _ _ L) as [(_ & _ & A & _) _]. cbn [again_legal] in A.
  destruct A as (_ & N & req & r & C & K & V & U & H). exists req, r. split; [apply observe_cur; exact C|]. repeat (split; [assumption|]). exact N.
Qed.
Print Assumptions C62_history.

(* two SETUPs, both refused at first, then both accepted: the second acceptance ends the session, and Ready never comes *)
Example C62_example :
  let w := mkW (dialled ProtoTCP (Some (bs "u", bs "p")) (bs "rtsp://h/s"))
    (text_of (bs "RTSP/1.0 200 OK|CSeq: 1") [] ++ text_of (bs "RTSP/1.0 200 OK|CSeq: 2|Content-Length: 120") sdp2 ++
     text_of (bs "RTSP/1.0 401 Unauthorized|CSeq: 3|WWW-Authenticate: Basic realm=x") [] ++
     text_of (bs "RTSP/1.0 401 Unauthorized|CSeq: 4|WWW-Authenticate: Basic realm=x") [] ++
     text_of (bs "RTSP/1.0 200 OK|CSeq: 4|Transport: RTP/AVP/TCP;interleaved=0-1") [] ++
     text_of (bs "RTSP/1.0 200 OK|CSeq: 4|Transport: RTP/AVP/TCP;interleaved=2-3") []) [] [] [] [] in
  let '(w', l) := run (w, Live) [App COptions; Turn 0 0; Turn 0 0; Turn 0 0; Turn 0 0; Turn 0 0; Turn 0 0] in
  l = NoLoop /\ readies (w_log w') = [] /\
  map (fun rq => (q_cseq rq, q_uri rq)) (retransmissions (w_log w')) = [(4, bs "rtsp://h/s/one"); (4, bs "rtsp://h/s/one")].
Proof. vm_compute. repeat split. Qed.

(* C63  a response that answers nothing outstanding is an error and changes nothing *)
Theorem C63_unsolicited : forall (proto : Z) (w : world) (es : list event) (w' : world) (l' : life) (r : response),
  proto <> ProtoHTTP -> opened w proto -> run (w, Live) es = (w', l') -> ~ outstanding (w_log w') (p_cseq r) ->
  handle_response w' r = (note w' (Got r), Err ErrBadResponse).
Proof. exact unsolicited. Qed.
Print Assumptions C63_unsolicited.

(* in particular a second response to the same request *)
Theorem C63_once : forall (proto : Z) (w : world) (es : list event) (w' : world) (l' : life) (r r' : response) (l1 l2 : list effect),
  proto <> ProtoHTTP -> opened w proto -> run (w, Live) es = (w', l') ->
  w_log w' = l1 ++ Got r :: l2 -> (forall again rq, In (Sent again rq) l2 -> q_cseq rq <> p_cseq r) -> p_cseq r' = p_cseq r ->
  handle_response w' r' = (note w' (Got r'), Err ErrBadResponse).
Proof.
  intros proto w es w' l' r r' l1 l2 P O E L N C. apply (unsolicited proto w es w' l' r' P O E). rewrite L, C. apply not_outstanding_after; [reflexivity|exact N].
Qed.
Print Assumptions C63_once.

(* while one that does answer an outstanding request is matched with it, and the match used up (unless it is sent again) *)
Theorem C63_matched : forall (proto : Z) (w : world) (es : list event) (w' : world) (l' : life) (r : response),
  proto <> ProtoHTTP -> opened w proto -> run (w, Live) es = (w', l') -> outstanding (w_log w') (p_cseq r) ->
  exists req l1 again l2, w_log w' = l1 ++ Sent again req :: l2 /\ q_cseq req = p_cseq r /\
    qget (s_queue (w_s w')) (p_cseq r) = Some req /\ (forall r', In (Got r') l2 -> p_cseq r' <> p_cseq r).
Proof.
  intros proto w es w' l' r P O E N. destruct (run_legal _ _ _ _ _ P O E) as (c & (A & _) & _). cbn [fst] in A.
  apply observe_outstanding in N. destruct (o_pending (observe (w_log w')) (p_cseq r)) as [req|] eqn:X; [|contradiction].
  destruct (observe_pending _ _ _ X) as (a & ag & b & L & Q & G). exists req, a, ag, b. rewrite <- A. auto.
Qed.
Print Assumptions C63_matched.

Example C63_example :
  let w := mkW (dialled ProtoTCP None (bs "rtsp://h/s")) (text_of (bs "RTSP/1.0 200 OK|CSeq: 1") [] ++ text_of (bs "RTSP/1.0 200 OK|CSeq: 1") []) [] [] [] [] in
  let '(w1, l1) := run (w, Live) [App CPlay; Turn 0 0] in
  let '(w2, l2) := run (w1, l1) [Turn 0 0] in
  l1 = Live /\ l2 = NoLoop /\ s_stage (w_s w1) = 2 /\ w_s w2 = w_s w1.
Proof. vm_compute. repeat split. Qed.

(* C64  after a response with a session identifier (any parameters after the semicolon), and until a response
   brings another, every request is given exactly that identifier *)
Theorem C64_identifier : forall (proto : Z) (w : world) (es : list event) (w' : world) (l' : life)
    (l1 l2 l3 : list effect) (r : response) (again : bool) (rq : request) (id params : bytes),
  opened w proto -> run (w, Live) es = (w', l') ->
  w_log w' = (l1 ++ Got r :: l2) ++ Sent again rq :: l3 ->
  outstanding l1 (p_cseq r) -> p_code r <> 401 ->
  (forall r', In (Got r') l2 -> p_code r' = 401 \/ header_get (p_header r') (bs "Session") = []) ->
  header_get (p_header r) (bs "Session") = id ++ params -> id <> [] -> ~ In 59 id -> (params = [] \/ hd 0 params = 59) ->
  q_session rq = id.
Proof.
  intros proto w es w' l' l1 l2 l3 r again rq id params O E L OS C N H NE NI PA.
  destruct (run_all_legal _ _ _ _ _ O E _ _ _ L) as [(_ & _ & _ & I & _) _]. cbn [id_legal] in I. rewrite I.
  rewrite (id_after l1 r l2 OS C); [|rewrite H; destruct id; [contradiction|discriminate]|exact N]. rewrite H. unfold id_of.
  destruct PA as [->|PA].
  - rewrite app_nil_r. rewrite L_strings.cut_none by exact NI. reflexivity.
  - destruct params as [|x p]; [rewrite app_nil_r, L_strings.cut_none by exact NI; reflexivity|]. cbn [hd] in PA. subst x. rewrite L_strings.cut_app by exact NI. reflexivity.
Qed.
Print Assumptions C64_identifier.

(* and it is on the wire: Session: id, for every verb but OPTIONS and SETUP *)
Theorem C64_header : forall (rq : request) (order : header),
  Permutation.Permutation (q_header rq) order ->
  line_text (q_verb rq) -> line_text (q_uri rq) -> line_text (q_session rq) -> line_text (q_auth rq) -> Forall field_ok (q_header rq) ->
  q_session rq <> [] -> q_verb rq <> bs "OPTIONS" -> q_verb rq <> bs "SETUP" ->
  exists first fields, read_message (pack_request rq order) = Some (first, fields, []) /\ In (bs "Session", q_session rq) fields.
Proof.
  intros rq order P V U S A F N1 N2 N3. destruct (L_message.pack_request_read rq order P V U S A F) as (m & R & PM). do 2 eexists. split; [exact R|]. right.
  apply (Permutation.Permutation_in _ (Permutation.Permutation_sym PM)). apply in_or_app. right. apply in_or_app. left.
  destruct (beq (q_session rq) []) eqn:E1; [apply beq_eq in E1; contradiction|]. destruct (beq (q_verb rq) (bs "OPTIONS")) eqn:E2; [apply beq_eq in E2; contradiction|].
  destruct (beq (q_verb rq) (bs "SETUP")) eqn:E3; [apply beq_eq in E3; contradiction|]. left. reflexivity.
Qed.
Print Assumptions C64_header.

Example C64_example :
  let w := mkW (dialled ProtoTCP None (bs "rtsp://h/s")) (text_of (bs "RTSP/1.0 200 OK|CSeq: 1|Session: 1F;timeout=60") []) [] [] [] [] in
  let '(w1, l1) := run (w, Live) [App CPlay; Turn 0 0; App CPause] in
  match w_log w1 with [_; _; _; Sent _ rq] => pack_request rq [] = bs "PAUSE rtsp://h/s RTSP/1.0" ++ [13; 10] ++ bs "CSeq: 2" ++ [13; 10] ++ bs "Session: 1F" ++ [13; 10] ++
    bs "User-Agent: Ouro/1.0" ++ [13; 10] ++ bs "Content-Length: 0" ++ [13; 10; 13; 10] | _ => False end.
Proof. vm_compute. reflexivity. Qed.

(* C65  keep-alives: only over UDP, only between Ready and Done, at least two seconds after the previous one *)
Theorem C65_policy : forall (proto : Z) (w : world) (es : list event) (w' : world) (l' : life) (l1 l2 : list effect) (t1 t2 : Z),
  opened w proto -> run (w, Live) es = (w', l') -> w_log w' = l1 ++ Alive t1 t2 :: l2 ->
  proto <> ProtoTCP /\ proto <> ProtoHTTP /\ 1 <= last_stage l1 <= 3 /\
  (forall a t1' t2' b, l1 = a ++ Alive t1' t2' :: b -> (forall x y, ~ In (Alive x y) b) -> t1 - t2' >= 2000000000).
Proof.
  intros proto w es w' l' l1 l2 t1 t2 O E L. destruct (run_all_legal _ _ _ _ _ O E _ _ _ L) as [(_ & _ & _ & _ & A) P]. destruct (P _ _ eq_refl) as [P1 P2].
  cbn [alive_legal] in A. destruct A as [A1 A2]. rewrite observe_stage in A1. splits; try assumption; try apply A1.
  intros a t1' t2' b -> N. apply A2. apply observe_last. exists a, t1', b. split; [reflexivity|exact N].
Qed.
Print Assumptions C65_policy.

(* and what KeepAlive does, exactly: when one is due, an OPTIONS request with the session identifier; otherwise nothing *)
Theorem C65_due : forall (w : world) (t1 t2 : Z), s_conn (w_s w) = true -> s_proto (w_s w) <> ProtoHTTP ->
  s_proto (w_s w) <> ProtoTCP -> 1 <= s_stage (w_s w) <= 3 -> (forall l, s_last (w_s w) = Some l -> 2000000000 <= t1 - l) ->
  exists rq w' o, keepalive w t1 t2 = (w', o) /\ w_log w' = w_log w ++ [Alive t1 t2; Sent false rq] /\ q_verb rq = bs "OPTIONS" /\ q_uri rq = s_uri (w_s w) /\
    header_get (q_header rq) (bs "Session") = s_session (w_s w) /\ s_last (w_s w') = Some t2.
Proof.
  intros w t1 t2 C P T S L. rewrite (keepalive_exact w t1 t2 C P).
  replace (negb (s_proto (w_s w) =? ProtoTCP) && (1 <=? s_stage (w_s w)) && (s_stage (w_s w) <=? 3) && match s_last (w_s w) with None => true | Some l => 2000000000 <=? t1 - l end) with true.
  - set (w0 := note (upd_s w (fun s => set_last s (Some t2))) (Alive t1 t2)).
    destruct (command_exact w0 (bs "OPTIONS") (s_uri (w_s w)) [(bs "Session", s_session (w_s w))] C P) as (rq & w' & o & E & LG & V & U & H & R). exists rq, w', o.
    split; [exact E|]. split; [rewrite LG; unfold w0; cbn [note w_log upd_s]; rewrite <- app_assoc; reflexivity|]. split; [exact V|]. split; [exact U|]. split; [rewrite H; cbn [fold_left fst snd]; reflexivity|].
    destruct R as (_ & _ & _ & _ & _ & _ & _ & _ & _ & _ & _ & _ & _ & _ & _ & _ & R). rewrite R. reflexivity.
  - symmetry. destruct (s_proto (w_s w) =? ProtoTCP) eqn:E1; [lia|]. destruct (1 <=? s_stage (w_s w)) eqn:E2; [|lia]. destruct (s_stage (w_s w) <=? 3) eqn:E3; [|lia]. cbn [negb andb].
    destruct (s_last (w_s w)) as [l|]; [|reflexivity]. specialize (L l eq_refl). lia.
Qed.
Print Assumptions C65_due.

Theorem C65_not_due : forall (w : world) (t1 t2 : Z), s_conn (w_s w) = true -> s_proto (w_s w) <> ProtoHTTP ->
  (s_proto (w_s w) = ProtoTCP \/ s_stage (w_s w) < 1 \/ 3 < s_stage (w_s w) \/ exists l, s_last (w_s w) = Some l /\ t1 - l < 2000000000) ->
  keepalive w t1 t2 = (w, Ok tt).
Proof.
  intros w t1 t2 C P H. rewrite (keepalive_exact w t1 t2 C P).
  destruct (negb (s_proto (w_s w) =? ProtoTCP) && (1 <=? s_stage (w_s w)) && (s_stage (w_s w) <=? 3) && match s_last (w_s w) with None => true | Some l => 2000000000 <=? t1 - l end) eqn:E; [|reflexivity].
  exfalso. destruct H as [H|[H|[H|(l & H & X)]]]; try lia. rewrite H in E. lia.
Qed.
Print Assumptions C65_not_due.

(* so they are regular: a turn of the loop that begins at t1, over UDP and between Ready and Done, leaves less than two seconds between
   the last one and t1 (one is at most two seconds and a turn after the one before it) *)
Theorem C65_regular : forall (proto : Z) (w : world) (es : list event) (w1 : world) (t1 t2 : Z) (w2 : world) (l2 : life),
  opened w proto -> proto <> ProtoTCP -> proto <> ProtoHTTP -> run (w, Live) es = (w1, Live) -> 1 <= last_stage (w_log w1) <= 3 -> t1 <= t2 ->
  run (w1, Live) [Turn t1 t2] = (w2, l2) ->
  exists (a : list effect) (x y : Z) (b : list effect), w_log w2 = a ++ Alive x y :: b /\ t1 - y < 2000000000.
Proof.
  intros proto w es w1 t1 t2 w2 l2 O T H E S L R.
  destruct (run_legal proto w es w1 Live H O E) as (c & (_ & _ & A3 & _ & A5 & _) & _). cbn [fst snd] in A3, A5. rewrite observe_stage in A3.
  destruct (run_prims es w Live w1 Live None) as (c' & PS); [destruct O as (? & ? & -> & _); exact H|exact E|].
  apply prims_proto in PS. destruct PS as [Q1 Q2]. cbn [fst] in Q1, Q2. destruct O as (user & uri & Es & _). rewrite Es in Q1, Q2. cbn in Q1, Q2.
  assert (K : exists w' o, keepalive w1 t1 t2 = (w', o) /\ exists a x y b, w_log w' = a ++ Alive x y :: b /\ t1 - y < 2000000000).
  { destruct (s_last (w_s w1)) as [l|] eqn:EL; [destruct (Z_lt_ge_dec (t1 - l) 2000000000) as [N|N]|].
    - exists w1, (Ok tt). split; [apply C65_not_due; [exact Q2|rewrite Q1; exact H|do 3 right; exists l; split; [exact EL|exact N]]|].
      apply observe_last in A5. destruct A5 as (a & x & b & A5 & _). exists a, x, l, b. split; assumption.
    - destruct (C65_due w1 t1 t2 Q2) as (rq & w' & o & K & LG & _); [rewrite Q1; exact H|rewrite Q1; exact T|rewrite <- A3; exact S|intros l' X; rewrite EL in X; injection X as <-; lia|].
      exists w', o. split; [exact K|]. exists (w_log w1), t1, t2, [Sent false rq]. split; [exact LG|lia].
    - destruct (C65_due w1 t1 t2 Q2) as (rq & w' & o & K & LG & _); [rewrite Q1; exact H|rewrite Q1; exact T|rewrite <- A3; exact S|intros l' X; rewrite EL in X; discriminate X|].
      exists w', o. split; [exact K|]. exists (w_log w1), t1, t2, [Sent false rq]. split; [exact LG|lia]. }
  destruct K as (w' & o & K & a & x & y & b & LG & N).
  assert (G : exists more, w_log w2 = w_log w' ++ more).
  { cbn [run fold_left step] in R. unfold turn in R. rewrite K in R.
    assert (F : forall w2' o2, receive w' = (w2', o2) -> exists more, w_log w2' = w_log w' ++ more).
    { intros w2' o2 X. apply L_main.receive_grows in X. destruct X as (more & X & _). exists more. exact X. }
    destruct (receive w') as [w3 o3] eqn:ER. specialize (F w3 o3 eq_refl).
    destruct o as [u|e| |]; [destruct o3 as [u3|e3| |]; [|destruct (is_timeout e3)|..]|destruct (s_stage (w_s w') =? StageDone); [|destruct o3 as [u3|e3| |]; [|destruct (is_timeout e3)|..]]|..];
      inversion R; subst; try exact F; exists []; rewrite app_nil_r; reflexivity. }
  destruct G as (more & G). exists a, x, y, (b ++ more). rewrite G, LG, <- app_assoc. split; [reflexivity|exact N].
Qed.
Print Assumptions C65_regular.

Example C65_example :
  let s := set_session (set_stage (dialled ProtoUnicast None (bs "rtsp://h/s")) StagePlay) (bs "1F") in
  let w := mkW s [] [] [] [] [] in
  let times t := Turn t t in
  filter (fun e => match e with Alive _ _ => true | _ => false end)
    (w_log (fst (run (mkW s [None; None; None; None; None] [] [] [] [], Live) (map times [5; 1000000000; 2000000004; 2000000005; 4000000004])))) = [Alive 5 5; Alive 2000000005 2000000005].
Proof. vm_compute. reflexivity. Qed.

(* C67  whatever ports were offered, a server answering a unicast SETUP as RFC 2326 has it (client_port, server_port, no port)
   makes the session listen on port 0, that is on a random port, twice *)
Theorem C67_unicast_refuted : forall (w : world) (r : response) (req : request) (pre post : list feed) (f : feed) (t : transport) (i : Z) (sets : store),
  s_feeds (w_s w) = pre ++ f :: post -> fd_cseq f = p_cseq r -> Forall (fun g => fd_cseq g <> p_cseq r) (pre ++ post) ->
  fd_transp f = new_transport ProtoUnicast i ->
  qget (s_queue (w_s w)) (p_cseq r) = Some req -> q_verb req = bs "SETUP" -> p_code r = 200 ->
  header_get (p_header r) (bs "Transport") = transport_string t -> transport_ok t -> t_tcp t = false -> p_one (t_port t) = 0 ->
  parse_sprops (fd_sets f) (m_sprops (fd_media f)) = (sets, Ok tt) -> w_listens w = [] ->
  exists w' c1 c2, handle_response w r = (w', Ok tt) /\ listenings (w_log w') = listenings (w_log w) ++ [(c1, 0); (c2, 0)].
Proof.
  intros w r req pre post f t i sets F C FA FT Q V K H TO TC TP SP WL.
  destruct (listen_one w r req pre f post (received (fd_transp f) t) sets F C FA Q V K) as (w' & E & L & _); [rewrite H; apply parse_transport_string; exact TO| |exact SP|exact WL|].
  - rewrite FT. unfold received. cbn [t_tcp]. rewrite TC. reflexivity.
  - cbv zeta in L. rewrite FT in L. unfold received, or_pair in L. cbn [t_port] in L. rewrite TP in L. change (0 >? 0) with false in L. do 3 eexists. split; [exact E|]. rewrite L. reflexivity.
Qed.
Print Assumptions C67_unicast_refuted.

(* multicast is right: the port the server names, or else the one offered *)
Theorem C67_multicast_partial : forall (w : world) (r : response) (req : request) (pre post : list feed) (f : feed) (t : transport) (i : Z) (sets : store),
  s_feeds (w_s w) = pre ++ f :: post -> fd_cseq f = p_cseq r -> Forall (fun g => fd_cseq g <> p_cseq r) (pre ++ post) ->
  fd_transp f = new_transport ProtoMulticast i ->
  qget (s_queue (w_s w)) (p_cseq r) = Some req -> q_verb req = bs "SETUP" -> p_code r = 200 ->
  header_get (p_header r) (bs "Transport") = transport_string t -> transport_ok t -> t_tcp t = false ->
  parse_sprops (fd_sets f) (m_sprops (fd_media f)) = (sets, Ok tt) -> w_listens w = [] ->
  exists w' c1 c2, handle_response w r = (w', Ok tt) /\
    let p := if p_one (t_port t) >? 0 then t_port t else offered (fd_transp f) in
    listenings (w_log w') = listenings (w_log w) ++ [(c1, p_one p); (c2, p_two p)].
Proof.
  intros w r req pre post f t i sets F C FA FT Q V K H TO TC SP WL.
  destruct (listen_one w r req pre f post (received (fd_transp f) t) sets F C FA Q V K) as (w' & E & L & _); [rewrite H; apply parse_transport_string; exact TO| |exact SP|exact WL|].
  - rewrite FT. unfold received. cbn [t_tcp]. rewrite TC. reflexivity.
  - cbv zeta in L. do 3 eexists. split; [exact E|]. cbv zeta. rewrite L. rewrite FT. unfold received, or_pair. cbn [t_port]. reflexivity.
Qed.
Print Assumptions C67_multicast_partial.

Example C67_example :
  let w := mkW (dialled ProtoUnicast None (bs "rtsp://h/s"))
    (text_of (bs "RTSP/1.0 200 OK|CSeq: 1") [] ++ text_of (bs "RTSP/1.0 200 OK|CSeq: 2|Content-Length: 120") sdp2 ++
     text_of (bs "RTSP/1.0 200 OK|CSeq: 3|Transport: RTP/AVP;unicast;client_port=50000-50001;server_port=6000-6001") []) [] [] [] [] in
  let '(w', l) := run (w, Live) [App COptions; Turn 0 0; Turn 0 0; Turn 0 0] in
  match nth_error (w_log w') 4 with Some (Sent _ rq) => q_header rq = [(bs "Transport", bs "RTP/AVP;unicast;client_port=50000-50001")] | _ => False end /\
  listenings (w_log w') = [(2, 0); (3, 0)].
Proof. vm_compute. repeat split. Qed.

(* C69  RTSP over HTTP: every command crashes, and nothing is sent in any history *)
Theorem C69_command_refuted : forall (w : world) (c : cmd), s_conn (w_s w) = true -> s_proto (w_s w) = ProtoHTTP ->
  In c [COptions; CDescribe; CPlay; CPause; CTeardown] ->
  exists w', do_cmd w c = (w', Panic) /\ w_log w' = w_log w.
Proof.
  intros w c C P I. repeat (destruct I as [<-|I]); [..|destruct I]; cbn [do_cmd]; unfold options, describe, play, pause, teardown, with_conn; rewrite C; apply command_http; assumption.
Qed.
Print Assumptions C69_command_refuted.

Theorem C69_history_refuted : forall (w : world) (es : list event) (w' : world) (l' : life) (again : bool) (rq : request),
  opened w ProtoHTTP -> run (w, Live) es = (w', l') -> ~ In (Sent again rq) (w_log w').
Proof.
  intros w es w' l' again rq (user & uri & Es & El) E I.
  assert (A : arrived (w_log w')).
  { apply (run_http es w Live w' l'); [|rewrite El; constructor|exact E]. intros _. unfold http_idle. rewrite Es, El. splits; try reflexivity. constructor. }
  exact (proj1 (Forall_forall _ _) A _ I).
Qed.
Print Assumptions C69_history_refuted.

Example C69_example : snd (run (mkW (dialled ProtoHTTP None (bs "rtsp://h/s")) [] [] [] [] [], Live) [App COptions]) = Dead.
Proof. vm_compute. reflexivity. Qed.

(* C72  commands on a session that is not open: a crash instead of an error *)
Theorem C72_before_open_refuted : forall (w : world) (c : cmd), w_s w = new_session -> c <> CSetup ->
  do_cmd w c = (w, Panic).
Proof.
  intros w c S I. destruct c; try contradiction; cbn [do_cmd]; unfold options, describe, play, pause, teardown, keepalive, with_conn; rewrite S; reflexivity.
Qed.
Print Assumptions C72_before_open_refuted.

(* Setup alone returns, doing nothing *)
Theorem C72_setup : forall (w : world), w_s w = new_session -> do_cmd w CSetup = (w, Ok tt).
Proof. intros w S. cbn [do_cmd]. unfold setup. rewrite S. reflexivity. Qed.
Print Assumptions C72_setup.

Example C72_example : do_cmd (mkW new_session [] [] [] [] []) CPlay = (mkW new_session [] [] [] [] [], Panic).
Proof. reflexivity. Qed.

(* C73  a server that never accepts the credentials is asked again without end: n refusals, n retransmissions *)
Theorem C73_refused_refuted : forall (n : nat) (w : world) (r : response) (req : request) (up : bytes * bytes) (d : digest),
  qget (s_queue (w_s w)) (p_cseq r) = Some req -> p_cseq r = s_cseq (w_s w) -> p_code r = 401 -> s_proto (w_s w) <> ProtoHTTP ->
  s_user (w_s w) = Some up -> new_digest (s_uri (w_s w)) (header_get (p_header r) (bs "WWW-Authenticate")) = Ok d -> w_writes w = [] ->
  exists w' new, handled w (repeat r n) w' /\ retransmissions (w_log w') = retransmissions (w_log w) ++ new /\ length new = n /\
    Forall (fun rq => q_verb rq = q_verb req /\ q_cseq rq = p_cseq r /\ q_auth rq <> []) new.
Proof. exact endless. Qed.
Print Assumptions C73_refused_refuted.

(* without credentials, or with an unusable challenge, the error is reported *)
Theorem C73_no_credentials_partial : forall (w : world) (r : response) (req : request),
  qget (s_queue (w_s w)) (p_cseq r) = Some req -> p_code r = 401 ->
  match new_digest (s_uri (w_s w)) (header_get (p_header r) (bs "WWW-Authenticate")) with
  | Ok d => s_user (w_s w) = None -> exists w', handle_response w r = (w', Err ErrNoCredentials) /\ w_log w' = w_log w ++ [Got r]
  | Err e => exists w', handle_response w r = (w', Err e) /\ w_log w' = w_log w ++ [Got r]
  | _ => True
  end.
Proof.
  intros w r req Q C. destruct (new_digest _ _) as [d|e| |] eqn:D; try exact I; try intros U; unfold handle_response; cbv zeta; cbn [note w_s]; rewrite Q, C; change (401 =? 401) with true; cbv iota;
    unfold retry, authorize; cbn [upd_s note w_s set_queue s_uri s_user]; rewrite D, ?U; eexists; split; reflexivity.
Qed.
Print Assumptions C73_no_credentials_partial.

Example C73_example :
  let w := mkW (dialled ProtoTCP (Some (bs "u", bs "p")) (bs "rtsp://h/s"))
    (flat_map (fun _ => text_of (bs "RTSP/1.0 401 Unauthorized|CSeq: 1|WWW-Authenticate: Basic realm=x") []) (repeat tt 5)) [] [] [] [] in
  let '(w', l) := run (w, Live) (App COptions :: repeat (Turn 0 0) 5) in
  l = Live /\ length (retransmissions (w_log w')) = 5%nat.
Proof. vm_compute. split; reflexivity. Qed.

(* C74  the channel numbers of UDP listeners: 2n and 2n+1 for the n-th SETUP answered, counted from one, whichever feed it is *)
Theorem C74_channels_partial : forall (w : world) (r : response) (req : request) (pre post : list feed) (f : feed) (t : transport) (sets : store),
  s_feeds (w_s w) = pre ++ f :: post -> fd_cseq f = p_cseq r -> Forall (fun g => fd_cseq g <> p_cseq r) (pre ++ post) ->
  t_tcp (fd_transp f) = false ->
  qget (s_queue (w_s w)) (p_cseq r) = Some req -> q_verb req = bs "SETUP" -> p_code r = 200 ->
  header_get (p_header r) (bs "Transport") = transport_string t -> transport_ok t -> t_tcp t = false ->
  parse_sprops (fd_sets f) (m_sprops (fd_media f)) = (sets, Ok tt) -> w_listens w = [] -> 0 <= s_feedidx (w_s w) < 127 ->
  exists w' p1 p2, handle_response w r = (w', Ok tt) /\ s_feedidx (w_s w') = s_feedidx (w_s w) + 1 /\
    listenings (w_log w') = listenings (w_log w) ++ [(2 * (s_feedidx (w_s w) + 1), p1); (2 * (s_feedidx (w_s w) + 1) + 1, p2)].
Proof.
  intros w r req pre post f t sets F C FA FT Q V K H TO TC SP WL B.
  destruct (listen_one w r req pre f post (received (fd_transp f) t) sets F C FA Q V K) as (w' & E & L & I); [rewrite H; apply parse_transport_string; exact TO| |exact SP|exact WL|].
  - unfold received. cbn [t_tcp]. rewrite TC, FT. reflexivity.
  - cbv zeta in L. rewrite i64_small in L, I by lia. do 3 eexists. split; [exact E|]. split; [exact I|]. rewrite L. f_equal. unfold u8. rewrite !Z.mod_small by (Z.div_mod_to_equations; lia). f_equal; [f_equal; lia|f_equal; f_equal; lia].
Qed.
Print Assumptions C74_channels_partial.

(* C75  a DESCRIBE answered without a description, whatever the status: nothing is sent, announced or reported *)
Theorem C75_no_description_refuted : forall (w : world) (r : response) (req : request),
  qget (s_queue (w_s w)) (p_cseq r) = Some req -> q_verb req = bs "DESCRIBE" -> p_code r <> 401 -> p_body r = None ->
  exists w', handle_response w r = (w', Ok tt) /\ w_log w' = w_log w ++ [Got r] /\ s_stage (w_s w') = s_stage (w_s w) /\ s_feeds (w_s w') = s_feeds (w_s w).
Proof.
  intros w r req Q V C B. unfold handle_response. cbv zeta. cbn [note w_s]. rewrite Q. destruct (p_code r =? 401) eqn:E; [lia|]. unfold react. rewrite V, B.
  change (beq (bs "DESCRIBE") (bs "OPTIONS")) with false. change (beq (bs "DESCRIBE") (bs "DESCRIBE")) with true. cbv iota.
  eexists. split; [reflexivity|]. cbn [note upd_s w_log w_s]. unfold learn_session. destruct (beq _ _); repeat split.
Qed.
Print Assumptions C75_no_description_refuted.

Example C75_example :
  let w := mkW (dialled ProtoTCP None (bs "rtsp://h/s")) (text_of (bs "RTSP/1.0 200 OK|CSeq: 1") [] ++ text_of (bs "RTSP/1.0 404 Not Found|CSeq: 2") []) [] [] [] [] in
  let '(w', l) := run (w, Live) [App COptions; Turn 0 0; Turn 0 0] in
  l = Live /\ length (w_log w') = 4%nat /\ last_stage (w_log w') = 0.
Proof. vm_compute. repeat split. Qed.

(* C76  the uri in the Authorization value of a request sent again is that of the session, whatever the request's own *)
Theorem C76_uri_partial : forall (w : world) (r : response) (req : request) (user pass : bytes) (d : digest),
  qget (s_queue (w_s w)) (p_cseq r) = Some req -> p_code r = 401 -> s_proto (w_s w) <> ProtoHTTP ->
  s_user (w_s w) = Some (user, pass) -> new_digest (s_uri (w_s w)) (header_get (p_header r) (bs "WWW-Authenticate")) = Ok d -> d_basic d = false ->
  exists rq w' o a b, handle_response w r = (w', o) /\ w_log w' = w_log w ++ [Got r; Sent true rq] /\ q_uri rq = q_uri req /\
    q_auth rq = a ++ bs "uri=""" ++ s_uri (w_s w) ++ bs """" ++ b.
Proof. exact retry_uri. Qed.
Print Assumptions C76_uri_partial.

Theorem C76_setup_refuted : exists (input : stream) (es : list event) (w : world) (l : life) (rq : request),
  run (mkW (dialled ProtoTCP (Some (bs "u", bs "p")) (bs "rtsp://h/s")) input [] [] [] [], Live) es = (w, l) /\
  retransmissions (w_log w) = [rq] /\ q_verb rq = bs "SETUP" /\ q_uri rq = bs "rtsp://h/s/one" /\
  q_auth rq = bs "Digest username=""u"", realm=""x"", nonce=""y"", uri=""rtsp://h/s"", algorithm=""md5"", response=""f6c9fb6dd4c736bebbb947435a153b29""".
Proof.
  exists (text_of (bs "RTSP/1.0 200 OK|CSeq: 1") [] ++ text_of (bs "RTSP/1.0 200 OK|CSeq: 2|Content-Length: 120") sdp2 ++
     text_of (bs "RTSP/1.0 401 Unauthorized|CSeq: 3|WWW-Authenticate: Digest realm=""x"", nonce=""y""") []), [App COptions; Turn 0 0; Turn 0 0; Turn 0 0].
  do 3 eexists. vm_compute. repeat split.
Qed.
Print Assumptions C76_setup_refuted.
