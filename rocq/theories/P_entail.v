(* Property C169: the client asks for nothing its application has not asked for. *)
From Coq Require Import String.
From Verif Require Import Base GoStrings M_conn M_message M_transport M_session S_session S_tally S_entail L_base L_session L_tally L_entail.
From Coq Require Import ZifyBool.

(* PLAY, PAUSE and TEARDOWN are sent when the application says so and at no other time, whatever the server sends. *)
Theorem C169_own : forall (proto : Z) (w : world) (es : list event) (w' : world) (l' : life) (c : cmd) (verb : bytes),
  proto <> ProtoHTTP -> opened w proto -> (c, verb) = (CPlay, bs "PLAY") \/ (c, verb) = (CPause, bs "PAUSE") \/ (c, verb) = (CTeardown, bs "TEARDOWN") ->
  M_session.run (w, Live) es = (w', l') ->
  times_asked verb (w_log w') <= times_called c es /\ (l' <> Dead -> times_asked verb (w_log w') = times_called c es).
Proof.
  intros proto w es w' l' c verb P O V E. assert (H : c = COptions \/ c = CPlay \/ c = CPause \/ c = CTeardown) by (destruct V as [V|[V|V]]; injection V as -> _; auto).
  assert (B : verb = call_of c /\ beq (bs "OPTIONS") (call_of c) = false) by (destruct V as [V|[V|V]]; injection V as -> ->; split; reflexivity). destruct B as [-> B].
  pose proof (own_calls c _ _ _ _ _ P O H E) as X. cbv zeta in X. rewrite B in X. cbn [one_if] in X. split; [lia|]. intros D. destruct X as [_ X]. specialize (X D). lia.
Qed.
Print Assumptions C169_own.

(* OPTIONS is sent when the application says so and when the session is to be kept alive. *)
Theorem C169_options : forall (proto : Z) (w : world) (es : list event) (w' : world) (l' : life),
  proto <> ProtoHTTP -> opened w proto -> M_session.run (w, Live) es = (w', l') ->
  times_asked (bs "OPTIONS") (w_log w') <= times_called COptions es + times_kept_alive (w_log w') /\
  (l' <> Dead -> times_asked (bs "OPTIONS") (w_log w') = times_called COptions es + times_kept_alive (w_log w')).
Proof.
  intros proto w es w' l' P O E. pose proof (own_calls COptions _ _ _ _ _ P O (or_introl eq_refl) E) as X. cbv zeta in X. cbn [call_of] in X. change (beq (bs "OPTIONS") (bs "OPTIONS")) with true in X. cbn [one_if] in X.
  split; [lia|]. intros D. destruct X as [_ X]. specialize (X D). lia.
Qed.
Print Assumptions C169_options.

(* The description is asked for when the application says so, and once at most for every OPTIONS. *)
Theorem C169_describe : forall (proto : Z) (w : world) (es : list event) (w' : world) (l' : life),
  proto <> ProtoHTTP -> opened w proto -> M_session.run (w, Live) es = (w', l') ->
  times_asked (bs "DESCRIBE") (w_log w') <= times_asked (bs "OPTIONS") (w_log w') + times_called CDescribe es.
Proof. exact describe_calls. Qed.
Print Assumptions C169_describe.

(* When the application leaves SETUP to the session, it is sent once at most for every video stream the server has described. *)
Theorem C169_setup : forall (proto : Z) (w : world) (es : list event) (w' : world) (l' : life),
  proto <> ProtoHTTP -> opened w proto -> times_called CSetup es = 0 -> M_session.run (w, Live) es = (w', l') ->
  times_asked (bs "SETUP") (w_log w') <= streams_described (w_log w').
Proof. exact setup_calls. Qed.
Print Assumptions C169_setup.

(* A request is sent again only when credentials have been asked for, and once each time. *)
Theorem C169_repeated : forall (proto : Z) (w : world) (es : list event) (w' : world) (l' : life),
  proto <> ProtoHTTP -> opened w proto -> M_session.run (w, Live) es = (w', l') ->
  times_repeated (w_log w') <= times_answered 401 (w_log w').
Proof. exact repeat_calls. Qed.
Print Assumptions C169_repeated.

(* a session as far as its streams: two streams are described, one of them twice in the same text; the server then repeats its description, which is an answer to nothing and ends the loop *)
Example C169_case :
  let answer l b := map Some (flat_map (fun c => if c =? 124 then [13; 10] else [c]) l ++ [13; 10; 13; 10] ++ b) in
  let body := bs "m=video 0 RTP/AVP 96" ++ [13; 10] ++ bs "s=about m=video" ++ [13; 10] ++ bs "m=audio 0 RTP/AVP 0" ++ [13; 10] ++ bs "m=video 0 RTP/AVP 97" in
  let w := mkW (dialled ProtoTCP (Some (bs "u", bs "p")) (bs "rtsp://h/s"))
    (answer (bs "RTSP/1.0 401 No|CSeq: 1|WWW-Authenticate: Basic realm=""r""") [] ++ answer (bs "RTSP/1.0 200 OK|CSeq: 1") [] ++
     answer (bs "RTSP/1.0 200 OK|CSeq: 2|Content-Length: 80") body ++ answer (bs "RTSP/1.0 200 OK|CSeq: 2|Content-Length: 80") body) [] [] [] [] in
  let st := M_session.run (w, Live) [App COptions; Turn 0 0; Turn 0 0; Turn 0 0; Turn 0 0; App CPlay] in
  let log := w_log (fst st) in
  opened w ProtoTCP /\ snd st = NoLoop /\ zlen body = 80 /\ times_asked (bs "PLAY") log = 1 /\ times_asked (bs "TEARDOWN") log = 0 /\ times_asked (bs "OPTIONS") log = 1 /\
  times_asked (bs "DESCRIBE") log = 1 /\ times_asked (bs "SETUP") log = 2 /\ streams_described log = 6 /\ times_repeated log = 1 /\ times_answered 401 log = 1.
Proof.
  intros answer body w st log. split; [exists (Some (bs "u", bs "p")), (bs "rtsp://h/s"); split; reflexivity|].
  vm_compute. repeat split; reflexivity.
Qed.
