(* C120: requests about the whole presentation. *)
From Coq Require Import String.
From Verif Require Import Base GoStrings M_conn M_message M_transport M_session S_session S_message S_handshake S_refuse S_aggregate L_base L_strings L_home.
From Verif Require Import M_dial.

(* Full statement: every request but SETUP that is sent after a description has come goes to the URI the description gives for the whole
   presentation. *)

(* All the requests a session ever sends, whatever the server says and the application asks: five kinds. *)
Theorem C120_kinds : forall proto user uri input writes listens rand es w' l' again rq,
  run (mkW (dialled proto user uri) input writes listens rand [], Live) es = (w', l') -> In (Sent again rq) (w_log w') -> shape uri rq.
Proof.
  intros proto user uri input writes listens rand es w' l' again rq R H.
  assert (T : home uri (mkW (dialled proto user uri) input writes listens rand [])) by (split; [split; [reflexivity|constructor]|constructor]).
  pose proof (run_home uri es _ _ _ _ T R) as [_ L]. rewrite Forall_forall in L. exact (L _ H).
Qed.
Print Assumptions C120_kinds.

(* Right when the description has no base of its own and no control attribute of the session level, or an asterisk there. *)
Theorem C120_whole_partial : forall proto user uri input writes listens rand es w' l' again rq rsp body,
  run (mkW (dialled proto user uri) input writes listens rand [], Live) es = (w', l') ->
  In (Got rsp) (w_log w') -> p_body rsp = Some body -> header_get (p_header rsp) (bs "Content-Base") = [] -> header_get (p_header rsp) (bs "Content-Location") = [] ->
  session_control (lines_of body) = None \/ session_control (lines_of body) = Some (bs "*") ->
  In (Sent again rq) (w_log w') -> q_verb rq <> bs "SETUP" ->
  q_uri rq = aggregate (base_given uri (header_get (p_header rsp) (bs "Content-Base")) (header_get (p_header rsp) (bs "Content-Location"))) body.
Proof.
  intros proto user uri input writes listens rand es w' l' again rq rsp body R _ _ B1 B2 C H V.
  pose proof (C120_kinds proto user uri input writes listens rand es w' l' again rq R H) as K. rewrite B1, B2. cbn [base_given]. unfold aggregate.
  assert (U : q_uri rq = uri) by (destruct K; cbn [q_uri q_verb] in *; try reflexivity; contradiction V; reflexivity).
  destruct C as [-> | ->]; exact U.
Qed.
Print Assumptions C120_whole_partial.

(* In general it is right exactly when what the description gives is the URI that was opened. *)
Theorem C120_exact : forall proto user uri input writes listens rand es w' l' again rq base body,
  run (mkW (dialled proto user uri) input writes listens rand [], Live) es = (w', l') -> In (Sent again rq) (w_log w') -> q_verb rq <> bs "SETUP" ->
  (q_uri rq = aggregate base body <-> aggregate base body = uri).
Proof.
  intros proto user uri input writes listens rand es w' l' again rq base body R H V.
  pose proof (C120_kinds proto user uri input writes listens rand es w' l' again rq R H) as K.
  assert (U : q_uri rq = uri) by (destruct K; cbn [q_uri q_verb] in *; try reflexivity; contradiction V; reflexivity).
  rewrite U. split; intros E; symmetry; exact E.
Qed.
Print Assumptions C120_exact.

Definition nl : bytes := [13; 10].
Definition described (level : bytes) : bytes :=
  bs "v=0" ++ nl ++ level ++ bs "m=video 0 RTP/AVP 96" ++ nl ++ bs "a=rtpmap:96 H264/90000" ++ nl ++ bs "a=control:track1" ++ nl.
Definition ok (n : string) (fs : list sfield) (body : bytes) : item := Resp 200 (bs "OK") (mkField (bs "CSeq") (bs " ") (bs n) :: fs) body.
Definition len (b : bytes) : sfield := mkField (bs "Content-Length") (bs " ") (itoa (zlen b)).
Definition asked (fs : list sfield) (body : bytes) : list (bytes * bytes) :=
  map (fun r => (q_verb r, q_uri r)) (sent_requests (w_log (fst (M_session.run
    (mkW (dialled ProtoTCP None (bs "rtsp://h/s")) (flat_map item_stream [ok "1" [] []; ok "2" (len body :: fs) body; ok "3" [mkField (bs "Transport") (bs " ") (bs "RTP/AVP/TCP;unicast;interleaved=0-1")] []]) [] [] [] [], Live)
    [App COptions; Turn 0 0; Turn 0 0; Turn 0 0; App CPlay])))).

(* The server says in Content-Base where the presentation is, with a slash at the end as most do, or elsewhere: PLAY does not go there. *)
Theorem C120_base_refuted :
  let base b := [mkField (bs "Content-Base") (bs " ") b] in
  nth_error (asked (base (bs "rtsp://h/s/")) (described [])) 3 = Some (bs "PLAY", bs "rtsp://h/s") /\
  aggregate (base_given (bs "rtsp://h/s") (bs "rtsp://h/s/") []) (described []) = bs "rtsp://h/s/" /\
  nth_error (asked (base (bs "rtsp://h/live/7/")) (described [])) 3 = Some (bs "PLAY", bs "rtsp://h/s") /\
  aggregate (base_given (bs "rtsp://h/s") (bs "rtsp://h/live/7/") []) (described []) = bs "rtsp://h/live/7/".
Proof. cbv zeta. splits; vm_compute; reflexivity. Qed.
Print Assumptions C120_base_refuted.

(* The description itself names it: PLAY does not go there. *)
Theorem C120_control_refuted :
  let body := described (bs "a=control:rtsp://h/all" ++ nl) in
  nth_error (asked [] body) 3 = Some (bs "PLAY", bs "rtsp://h/s") /\ aggregate (base_given (bs "rtsp://h/s") [] []) body = bs "rtsp://h/all".
Proof. cbv zeta. splits; vm_compute; reflexivity. Qed.
Print Assumptions C120_control_refuted.

Example C120_case :
  let body := described (bs "a=control:*" ++ nl) in
  asked [] body = [(bs "OPTIONS", bs "rtsp://h/s"); (bs "DESCRIBE", bs "rtsp://h/s"); (bs "SETUP", bs "rtsp://h/s/track1"); (bs "PLAY", bs "rtsp://h/s")] /\
  session_control (lines_of body) = Some (bs "*") /\ aggregate (bs "rtsp://h/s") body = bs "rtsp://h/s".
Proof. cbv zeta. splits; vm_compute; reflexivity. Qed.
