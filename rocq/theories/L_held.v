(* Lemmas: a session keeps all the listeners it ever opened. *)
From Coq Require Import String.
From Verif Require Import Base GoStrings M_conn M_message M_transport M_sdp M_digest M_sps M_session S_session S_handshake L_base L_strings.
From Coq Require Import ZifyBool.

Definition held (w : world) : Prop := s_sinks (w_s w) = listenings (w_log w).
Lemma listenings_snoc l e : listenings (l ++ [e]) = listenings l ++ listenings [e].
Proof. unfold listenings. rewrite ?flat_map_app, ?map_app, ?filter_app. reflexivity. Qed.

Lemma held_note w e : held w -> listenings [e] = [] -> held (note w e).
Proof. unfold held. intros S E. cbn [note w_log w_s]. rewrite listenings_snoc, E, app_nil_r. exact S. Qed.
Lemma held_upd w f : held w -> s_sinks (f (w_s w)) = s_sinks (w_s w) -> held (upd_s w f).
Proof. unfold held. intros S F. cbn [upd_s w_s w_log]. congruence. Qed.
Lemma held_in w x : held w -> held (upd_in w x).
Proof. intros S. exact S. Qed.
Lemma write_held w a r w' o : held w -> write w a r = (w', o) -> held w'.
Proof.
  intros T. unfold write. destruct (s_proto (w_s w) =? ProtoHTTP); [intros E; injection E as <- _; exact T|]. cbv zeta.
  assert (G : held (mkW (w_s w) (w_in w) (tl (w_writes w)) (w_listens w) (w_rand w) (w_log w ++ [Sent a r]))) by (apply (held_note w (Sent a r) T); reflexivity).
  destruct (w_writes w) as [|[e|] ?]; intros E; injection E as <- _; exact G.
Qed.
Lemma call_held s verb s' out : call_auth s verb = (s', out) -> s_sinks s' = s_sinks s.
Proof.
  unfold call_auth. destruct (s_auth s) as [[text d]|]; [|intros E; injection E as <- _; reflexivity].
  destruct (auth_call text d verb []) as [d' x]. intros E. injection E as <- _. reflexivity.
Qed.
Lemma command_held w verb uri hs w' o : held w -> command w verb uri hs = (w', o) -> held w'.
Proof.
  intros T. unfold command. destruct (s_conn (w_s w)); cbn [negb]; [|intros E; injection E as <- _; exact T]. cbv zeta.
  destruct (call_auth (w_s w) verb) as [s1 auth] eqn:C. apply call_held in C. unfold enqueue. cbv zeta. cbn [q_verb q_uri q_auth q_header set_cseq s_cseq s_session s_queue].
  apply write_held. apply held_upd; [exact T|exact C].
Qed.
Lemma with_conn_held w k w' o : held w -> (s_conn (w_s w) = true -> forall w' o, k (w_s w) = (w', o) -> held w') -> with_conn w k = (w', o) -> held w'.
Proof. intros T K. unfold with_conn. destruct (s_conn (w_s w)); [apply K; reflexivity|]. intros E. injection E as <- _. exact T. Qed.
Lemma setup_from_held todo : forall w i w' o, held w -> setup_from w i todo = (w', o) -> held w'.
Proof.
  induction todo as [|f todo IH]; intros w i w' o T E; cbn [setup_from] in E; [injection E as <- _; exact T|].
  destruct (setup_uri (w_s w) (m_control (fd_media f))) as [uri|e| |] eqn:U; try (injection E as <- _; exact T).
  destruct (command w (bs "SETUP") uri [(bs "Transport", transport_string (fd_transp f))]) as [w1 r1] eqn:K.
  apply command_held in K; [|exact T].
  destruct r1 as [x|e| |]; try (injection E as <- _; exact K).
  apply IH in E; [exact E|]. apply held_upd; [exact K|]. unfold mark_feed. destruct (nth_error (s_feeds (w_s w1)) i); reflexivity.
Qed.
Lemma setup_held w w' o : held w -> setup w = (w', o) -> held w'.
Proof. intros T. apply setup_from_held; exact T. Qed.
Lemma keepalive_held w t1 t2 w' o : held w -> keepalive w t1 t2 = (w', o) -> held w'.
Proof.
  intros T. apply with_conn_held; [exact T|]. intros _ w2 o2. destruct (_ && _); [|intros E; injection E as <- _; exact T].
  destruct (match s_last (w_s w) with None => true | Some l => t1 - l >=? keepAliveTimeout end); [|intros E; injection E as <- _; exact T].
  apply command_held. apply held_note; [|reflexivity]. apply held_upd; [exact T|reflexivity].
Qed.
Lemma describe_held w w' o : held w -> describe w = (w', o) -> held w'.
Proof.
  intros T. apply with_conn_held; [exact T|]. intros _ w2 o2. apply command_held; exact T.
Qed.
Lemma do_cmd_held w c w' o : held w -> do_cmd w c = (w', o) -> held w'.
Proof.
  intros T. destruct c; cbn [do_cmd]; try (apply describe_held, T); try (apply setup_held, T); try (apply keepalive_held, T);
    (apply with_conn_held; [exact T|]; intros _ w2 o2; apply command_held; exact T).
Qed.
Lemma add_sink_held w ch port w' o : held w -> add_sink w ch port = (w', o) -> held w'.
Proof.
  unfold held. intros T. unfold add_sink. destruct (w_listens w) as [|[e|] l]; intros E; injection E as <- _; cbn [note w_s w_log]; [|exact T|];
    cbn [set_sinks s_sinks]; rewrite listenings_snoc, T; reflexivity.
Qed.
Lemma setup_feeds_held todo : forall w cseq v i w' o, held w -> setup_feeds w cseq v i todo = (w', o) -> held w'.
Proof.
  induction todo as [|f todo IH]; intros w cseq v i w' o T E; cbn [setup_feeds] in E; [injection E as <- _; exact T|].
  destruct (fd_cseq f =? cseq); [|eapply IH; eauto]. cbv zeta in E. destruct (transport_setup f v) as [f' o1] eqn:TS.
  assert (T1 : held (upd_s (upd_s w (fun s => set_feedidx s (i64 (s_feedidx s + 1)))) (put_feed i f'))) by exact T.
  destruct o1 as [x|e| |]; try (injection E as <- _; exact T1). destruct (t_tcp (fd_transp f')); [eapply IH; eauto|].
  match type of E with context [add_sink ?a ?b ?p] => destruct (add_sink a b p) as [w1 r1] eqn:E1; apply add_sink_held in E1; [|exact T1] end. destruct r1 as [u1|e1| |]; try (injection E as <- _; exact E1).
  match type of E with context [add_sink ?a ?b ?p] => destruct (add_sink a b p) as [w2 r2] eqn:E2; apply add_sink_held in E2; [|exact E1] end. destruct r2 as [u2|e2| |]; try (injection E as <- _; exact E2).
  exact (IH _ _ _ _ _ _ E2 E).
Qed.
Lemma notify_held w st : held w -> held (notify w st).
Proof. intros T. apply held_note; [|reflexivity]. apply held_upd; [exact T|reflexivity]. Qed.
Lemma handle_setup_held w r w' o : held w -> handle_setup w r = (w', o) -> held w'.
Proof.
  intros T. unfold handle_setup.
  assert (F : forall w w' o, held w -> (if s_feedidx (w_s w) >=? zlen (s_feeds (w_s w)) then (note (notify w StageReady) Started, @Ok unit tt) else (w, Ok tt)) = (w', o) -> held w').
  { clear. intros w w' o T E. destruct (s_feedidx (w_s w) >=? zlen (s_feeds (w_s w))); injection E as <- _; [|exact T]. apply held_note; [apply notify_held, T|reflexivity]. }
  destruct (p_code r =? 200).
  - destruct (setup_feeds w (p_cseq r) (header_get (p_header r) (bs "Transport")) 0 (s_feeds (w_s w))) as [w1 r1] eqn:E.
    apply setup_feeds_held in E; [|exact T]. destruct r1 as [x|e| |]; intros X; try (injection X as <- _; exact E). apply F in X; assumption.
  - destruct (p_code r =? 401); cbn [negb]; intros X; apply F in X; auto.
Qed.
Lemma react_held w req r w' o : held w -> react w req r = (w', o) -> held w'.
Proof.
  intros T. unfold react. destruct (beq (q_verb req) (bs "OPTIONS")).
  { destruct (s_stage (w_s w) =? StageInit); [|intros E; injection E as <- _; exact T]. apply describe_held. exact T. }
  destruct (beq (q_verb req) (bs "DESCRIBE")).
  { destruct (p_body r) as [body|]; [|intros E; injection E as <- _; exact T]. destruct (parse_feeds (s_proto (w_s w)) body) as [fs| | |] eqn:P; intros E; try (injection E as <- _; exact T).
    apply setup_held in E; [exact E|]. exact T. }
  assert (K : forall st w' o, (if p_code r =? 200 then notify w st else w, @Ok unit tt) = (w', o) -> held w').
  { intros st w2 o2 E. destruct (p_code r =? 200); injection E as <- _; [apply notify_held, T|exact T]. }
  destruct (beq (q_verb req) (bs "PAUSE")); [apply K|]. destruct (beq (q_verb req) (bs "PLAY")); [apply K|].
  destruct (beq (q_verb req) (bs "TEARDOWN")); [apply K|]. destruct (beq (q_verb req) (bs "SETUP")); [apply handle_setup_held; assumption|].
  intros E; injection E as <- _; exact T.
Qed.
Lemma retry_held w req r w' o : held w -> retry w req r = (w', o) -> held w'.
Proof.
  intros T. unfold retry, authorize.
  destruct (new_digest (s_uri (w_s w)) (header_get (p_header r) (bs "WWW-Authenticate"))) as [d| | |]; try (intros E; injection E as <- _; exact T).
  destruct (s_user (w_s w)) as [[user pass]|]; [|intros E; injection E as <- _; exact T].
  destruct (authenticate d user pass (hd [] (w_rand w))) as [d' text]. cbn [w_s].
  destruct (call_auth (set_auth (w_s w) (Some (text, d'))) (q_verb req)) as [s2 out2] eqn:CA. apply call_held in CA. cbn [set_auth s_sinks] in *.
  unfold enqueue. cbv zeta. apply write_held. unfold held in *. cbn [upd_s w_s w_log set_queue s_sinks]. congruence.
Qed.
Lemma handle_response_held w r w' o : held w -> handle_response w r = (w', o) -> held w'.
Proof.
  intros T. unfold handle_response. cbv zeta. assert (T1 : held (note w (Got r))) by (apply held_note; [exact T|reflexivity]). cbn [note w_s]. destruct (qget (s_queue (w_s w)) (p_cseq r)) as [req|] eqn:Q; [|intros E; injection E as <- _; exact T1].
  assert (T2 : held (upd_s (note w (Got r)) (fun s => set_queue s (qdel (s_queue s) (p_cseq r))))) by (apply held_upd; [exact T1|reflexivity]).
  destruct (p_code r =? 401); [apply retry_held; assumption|]. apply react_held. apply held_upd; [exact T2|]. unfold learn_session.
  destruct (beq (header_get (p_header r) (bs "Session")) []); reflexivity.
Qed.
Lemma receive_held w w' o : held w -> receive w = (w', o) -> held w'.
Proof.
  intros T. unfold receive.
  assert (A : forall s0 w' o, match unpack_response s0 with (s1, Ok r) => handle_response (upd_in w s1) r | (s1, Err e) => (upd_in w s1, Err e) | (s1, Panic) => (upd_in w s1, Panic) | (s1, Fuel) => (upd_in w s1, Fuel) end = (w', o) -> held w').
  { intros s0 w2 o2. destruct (unpack_response s0) as [s1 [r|e| |]] eqn:U; try (intros E; injection E as <- _; apply held_in, T). apply handle_response_held. apply held_in, T. }
  destruct (peek 1 (w_in w)) as [s0 [b|e| |]]; try (intros E; injection E as <- _; apply held_in, T).
  destruct b as [|b0 bt]; [apply A|]. destruct (Z.eq_dec b0 36) as [->|N].
  - destruct bt; [|apply A]. destruct (read_byte (discard 1 s0)) as [s1 [ch|e| |]]; try (intros E; injection E as <- _; apply held_in, T). destruct (read_uint16 s1) as [s2 [len|e| |]]; try (intros E; injection E as <- _; apply held_in, T).
    destruct (read_bytes len s2) as [s3 [p|e| |]]; intros E; injection E as <- _; try apply held_in, T. apply held_note; [apply held_in, T|reflexivity].
  - destruct b0 as [|q|q]; try apply A. repeat (destruct q as [q|q|]; try apply A). contradiction N. reflexivity.
Qed.
Lemma turn_held w t1 t2 w' x : held w -> turn w t1 t2 = (w', x) -> held w'.
Proof.
  intros T. unfold turn. destruct (keepalive w t1 t2) as [w1 k] eqn:K. apply keepalive_held in K; [|exact T].
  assert (R : forall w' x, match receive w1 with (w, Ok _) => (w, Again) | (w, Err e) => (w, if is_timeout e then Again else Stop) | (w, Panic) | (w, Fuel) => (w, Crash) end = (w', x) -> held w').
  { intros w2 y. destruct (receive w1) as [w3 o] eqn:E. apply receive_held in E; [|exact K]. destruct o; intros X; injection X as <- _; exact E. }
  destruct k as [y|e| |]; try (intros X; injection X as <- _; exact K); [apply R|]. destruct (s_stage (w_s w1) =? StageDone); [intros X; injection X as <- _; exact K|apply R].
Qed.
Lemma run_held es : forall w l w' l', held w -> run (w, l) es = (w', l') -> held w'.
Proof.
  induction es as [|e es IH]; intros w l w' l' T R; cbn [run fold_left] in R; [injection R as <- _; exact T|]. fold (run (step (w, l) e) es) in R. destruct (step (w, l) e) as [w1 l1] eqn:S. apply IH in R; [exact R|]. clear R. unfold step in S.
  destruct l, e as [c|t1 t2]; try (injection S as <- _; exact T).
  1,3: destruct (do_cmd w c) as [w2 o] eqn:D; apply do_cmd_held in D; [|exact T]; destruct o; injection S as <- _; exact D.
  destruct (turn w t1 t2) as [w2 x] eqn:D. apply turn_held in D; [|exact T]. destruct x; injection S as <- _; exact D.
Qed.
