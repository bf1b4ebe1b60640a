(* Requests on the wire (property C147). *)
From Coq Require Import String ZifyBool ZifyNat Permutation.
From Verif Require Import Base GoStrings M_conn M_message M_transport M_sdp M_digest M_session M_url M_dial M_wire S_lines S_wire L_base L_wire.

(* Full statement: the server receives a sequence of whole requests, the last perhaps cut short.  It does, in every history, as long as
   no write but the last fails: it receives exactly the requests that were sent, line by line. *)
Theorem C147_partial : forall url proto reach guid werr s effects input ses writes listens rand es w' l' texts outs k,
  bytes_ok url -> dial url proto reach guid werr s = (effects, input, Some ses) ->
  match s_user ses with Some (user, _) => one_line user | None => True end -> Forall bytes_ok rand ->
  M_session.run (mkW ses input writes listens rand [], Live) es = (w', l') ->
  Forall2 text_for (requests (w_log w')) texts ->
  (Forall (fun o => o = None) outs -> received (wire texts outs []) = (map lines_of texts, [])) /\
  (forall ts t e, texts = ts ++ [t] -> outs = repeat None (length ts) ++ [Some e] -> (k < length t)%nat ->
     received (wire texts outs (repeat O (length ts) ++ [k])) = (map lines_of ts, firstn k t)).
Proof. exact whole_requests. Qed.
Print Assumptions C147_partial.

(* But a command whose write fails leaves the connection open, and the next one is written behind what there is of the first ... *)
Theorem C147_open_refuted : forall w c1 c2 e more, s_conn (w_s w) = true -> s_proto (w_s w) <> ProtoHTTP -> w_writes w = Some e :: None :: more ->
  In c1 [COptions; CDescribe; CPlay; CPause; CTeardown] -> In c2 [COptions; CDescribe; CPlay; CPause; CTeardown] ->
  exists w1 w2 r1 r2, do_cmd w c1 = (w1, Err e) /\ do_cmd w1 c2 = (w2, Ok tt) /\ w_log w2 = w_log w ++ [Sent false r1; Sent false r2].
Proof. exact written_on. Qed.
Print Assumptions C147_open_refuted.

(* ... so that, wherever the first was cut, the server reads the two as one message, which is not the second: some lines of the first
   and the rest of another stand before its first line.  For any two requests of any history. *)
Theorem C147_refuted : forall url proto reach guid werr s effects input ses writes listens rand es w' l' r1 r2 t1 t2 e k rest,
  bytes_ok url -> dial url proto reach guid werr s = (effects, input, Some ses) ->
  match s_user ses with Some (user, _) => one_line user | None => True end -> Forall bytes_ok rand ->
  M_session.run (mkW ses input writes listens rand [], Live) es = (w', l') ->
  In r1 (requests (w_log w')) -> In r2 (requests (w_log w')) -> text_for r1 t1 -> text_for r2 t2 -> (0 < k < length t1)%nat ->
  exists some part first others, lines_of t2 = first :: others /\ (exists left, lines_of t1 = some ++ left) /\ (some <> [] \/ part <> []) /\
    message_lines (S (length (wire [t1; t2] [Some e; None] [k]))) (wire [t1; t2] [Some e; None] [k] ++ rest) = Some (some ++ (part ++ first) :: others, rest) /\
    received (wire [t1; t2] [Some e; None] [k]) = ([some ++ (part ++ first) :: others], []) /\ some ++ (part ++ first) :: others <> lines_of t2.
Proof. exact cut_request. Qed.
Print Assumptions C147_refuted.

(* a PAUSE cut in its second line, and the TEARDOWN behind it: a server sees one PAUSE, with a bad field *)
Example C147_case :
  let w := mkW (dialled ProtoTCP None (bs "rtsp://h/s")) [] [None; Some ErrTimeout; None] [] [] [] in
  let '(w', l') := M_session.run (w, Live) [App CPlay; App CPause; App CTeardown] in
  let texts := map (fun rq => pack_request rq (q_header rq)) (requests (w_log w')) in
  map (fun m => map (firstn 38) (firstn 3 m)) (fst (received (wire texts [None; Some ErrTimeout; None] [0; 32; 0]%nat))) =
    [[bs "PLAY rtsp://h/s RTSP/1.0" ++ [13]; bs "CSeq: 1" ++ [13]; bs "User-Agent: Ouro/1.0" ++ [13]];
     [bs "PAUSE rtsp://h/s RTSP/1.0" ++ [13]; bs "CSeq:TEARDOWN rtsp://h/s RTSP/1.0" ++ [13]; bs "CSeq: 3" ++ [13]]] /\
  map (fun m => hd [] m) (fst (received (wire texts [None; None; None] []))) =
    [bs "PLAY rtsp://h/s RTSP/1.0" ++ [13]; bs "PAUSE rtsp://h/s RTSP/1.0" ++ [13]; bs "TEARDOWN rtsp://h/s RTSP/1.0" ++ [13]].
Proof. vm_compute. split; reflexivity. Qed.
