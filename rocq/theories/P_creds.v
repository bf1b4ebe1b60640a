(* Property C148: the credentials on the requests of every history; and C76 again. *)
From Coq Require Import String.
From Verif Require Import Base GoStrings M_conn M_message M_transport M_digest M_session S_digest S_session S_handshake S_authfield S_creds L_base L_creds L_credread P_session.

(* Whatever the server sends and the application asks for, at every moment: no request has carried credentials if none has been repeated; and
   from the latest repetition on, which was that of a request answered 401, the requests carry one after the other what the challenge of that
   answer gives for the user, the password and their methods. *)
Theorem C148_history : forall (proto : Z) (user : option (bytes * bytes)) (uri : bytes) (w : world) (es : list event) (w' : world) (l' : life) (log rest : list effect),
  w_s w = dialled proto user uri -> w_log w = [] -> Forall bytes_ok (w_rand w) -> proto <> ProtoHTTP ->
  M_session.run (w, Live) es = (w', l') -> w_log w' = log ++ rest -> rightly uri user log.
Proof. exact creds_history. Qed.
Print Assumptions C148_history.

(* So the server reads its own challenge and the user's name from every request that carries credentials: for digests without quotes and
   backslashes in the challenge, the name and the address. *)
Theorem C148_read : forall (proto : Z) (user : option (bytes * bytes)) (uri : bytes) (w : world) (es : list event) (w' : world) (l' : life) (l1 l2 : list effect) (again : bool) (q : request),
  w_s w = dialled proto user uri -> w_log w = [] -> Forall bytes_ok (w_rand w) -> proto <> ProtoHTTP ->
  M_session.run (w, Live) es = (w', l') -> w_log w' = l1 ++ Sent again q :: l2 -> q_auth q <> [] ->
  exists r d name pass, In (Got r) l1 /\ p_code r = 401 /\ user = Some (name, pass) /\ new_digest uri (header_get (p_header r) (bs "WWW-Authenticate")) = Ok d /\
    (d_basic d = true -> bytes_ok name -> bytes_ok pass -> (basic_read (q_auth q) = Some (name, pass) <-> ~ In 58 name)) /\
    (d_basic d = false -> unescaped uri -> unescaped name -> unescaped (d_realm d) -> unescaped (d_nonce d) -> unescaped (d_opaque d) -> unescaped (d_algorithm d) -> unescaped (d_qop d) ->
     exists l, auth_read (q_auth q) = Some l /\ says (mkChal (d_realm d) (d_nonce d) (d_opaque d) (d_algorithm d) (d_qop d)) uri name l).
Proof. exact creds_read. Qed.
Print Assumptions C148_read.

(* C76: so the uri in the Authorization value of any request of any history is that of the session; it is the request's own exactly when the
   request goes there. *)
Theorem C76_exact : forall (proto : Z) (user : option (bytes * bytes)) (uri : bytes) (w : world) (es : list event) (w' : world) (l' : life) (l1 l2 : list effect) (again : bool) (q : request),
  w_s w = dialled proto user uri -> w_log w = [] -> Forall bytes_ok (w_rand w) -> proto <> ProtoHTTP ->
  M_session.run (w, Live) es = (w', l') -> w_log w' = l1 ++ Sent again q :: l2 -> q_auth q <> [] ->
  exists r d name pass, In (Got r) l1 /\ user = Some (name, pass) /\ new_digest uri (header_get (p_header r) (bs "WWW-Authenticate")) = Ok d /\
    (d_basic d = false -> unescaped uri -> unescaped name -> unescaped (d_realm d) -> unescaped (d_nonce d) -> unescaped (d_opaque d) -> unescaped (d_algorithm d) -> unescaped (d_qop d) ->
     exists l, auth_read (q_auth q) = Some l /\ (auth_value (bs "uri") l = Some (q_uri q) <-> q_uri q = uri)).
Proof.
  intros proto user uri w es w' l' l1 l2 again q S L R P E X A. destruct (creds_read _ _ _ _ _ _ _ _ _ _ _ S L R P E X A) as (r & d & n & p & I1 & _ & U & D & _ & K).
  exists r, d, n, p. splits; try assumption. intros B u1 u2 u3 u4 u5 u6 u7. destruct (K B u1 u2 u3 u4 u5 u6 u7) as (l & G & Y). exists l. split; [exact G|].
  destruct Y as (_ & _ & _ & -> & _). split; [intros Z0; injection Z0; congruence|congruence].
Qed.
Print Assumptions C76_exact.

(* OPTIONS refused with a digest challenge, DESCRIBE with another, and two streams *)
Example C148_case :
  let head n := text_of (bs "RTSP/1.0 200 OK|CSeq: " ++ bs n) [] in
  let w := mkW (dialled ProtoTCP (Some (bs "u", bs "p")) (bs "rtsp://h/s"))
    (text_of (bs "RTSP/1.0 401 Unauthorized|CSeq: 1|WWW-Authenticate: Digest realm=""x"", nonce=""y""") [] ++ head "1"%string ++
     text_of (bs "RTSP/1.0 401 Unauthorized|CSeq: 2|WWW-Authenticate: Digest realm=""x"", nonce=""z""") [] ++
     text_of (bs "RTSP/1.0 200 OK|CSeq: 2|Content-Length: 120") sdp2) [] [] [] [] in
  let '(w', l) := M_session.run (w, Live) [App COptions; Turn 0 0; Turn 0 0; Turn 0 0; Turn 0 0] in
  l = Live /\
  map (fun q => (q_verb q, q_uri q, match auth_read (q_auth q) with Some l => (auth_value (bs "nonce") l, auth_value (bs "uri") l) | None => (None, None) end)) (sent_requests (w_log w')) =
   [(bs "OPTIONS", bs "rtsp://h/s", (None, None));
    (bs "OPTIONS", bs "rtsp://h/s", (Some (bs "y"), Some (bs "rtsp://h/s")));
    (bs "DESCRIBE", bs "rtsp://h/s", (Some (bs "y"), Some (bs "rtsp://h/s")));
    (bs "DESCRIBE", bs "rtsp://h/s", (Some (bs "z"), Some (bs "rtsp://h/s")));
    (bs "SETUP", bs "rtsp://h/s/one", (Some (bs "z"), Some (bs "rtsp://h/s")));
    (bs "SETUP", bs "rtsp://h/s/two", (Some (bs "z"), Some (bs "rtsp://h/s")))].
Proof. vm_compute. split; reflexivity. Qed.

(* the same session, after the challenges: the name in the credentials is that of the request for DESCRIBE only *)
Example C76_case :
  let w := mkW (dialled ProtoTCP (Some (bs "u", bs "p")) (bs "rtsp://h/s"))
    (text_of (bs "RTSP/1.0 401 Unauthorized|CSeq: 1|WWW-Authenticate: Digest realm=""x"", nonce=""y""") [] ++ text_of (bs "RTSP/1.0 200 OK|CSeq: 1") [] ++
     text_of (bs "RTSP/1.0 200 OK|CSeq: 2|Content-Length: 120") sdp2) [] [] [] [] in
  let '(w', l) := M_session.run (w, Live) [App COptions; Turn 0 0; Turn 0 0; Turn 0 0] in
  map (fun q => (q_verb q, match auth_read (q_auth q) with Some l => option_map (beq (q_uri q)) (auth_value (bs "uri") l) | None => None end)) (sent_requests (w_log w')) =
   [(bs "OPTIONS", None); (bs "OPTIONS", Some true); (bs "DESCRIBE", Some true); (bs "SETUP", Some false); (bs "SETUP", Some false)].
Proof. vm_compute. reflexivity. Qed.
