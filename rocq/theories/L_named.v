(* Lemmas: the sessions that requests name are those the server has named. *)
From Coq Require Import String.
From Verif Require Import Base GoStrings M_conn M_message M_transport M_sdp M_digest M_sps M_session S_session S_named L_base L_strings.
From Coq Require Import ZifyBool.

Definition mine (log : list effect) (id : bytes) : Prop := id = [] \/ given_in log id.
Definition req_ok (log : list effect) (rq : request) : Prop := mine log (q_session rq) /\ forall v, In (bs "Session", v) (q_header rq) -> mine log v.
Definition log_ok (log : list effect) : Prop := forall l1 a rq l2, log = l1 ++ Sent a rq :: l2 -> req_ok l1 rq.
Definition named (w : world) : Prop :=
  mine (w_log w) (s_session (w_s w)) /\ Forall (fun e => req_ok (w_log w) (snd e)) (s_queue (w_s w)) /\ log_ok (w_log w).

Lemma mine_more log more id : mine log id -> mine (log ++ more) id.
Proof. intros [H|(r & J & H)]; [left; exact H|right]. exists r. split; [apply in_or_app; left; exact J|exact H]. Qed.
Lemma req_more log more rq : req_ok log rq -> req_ok (log ++ more) rq.
Proof. intros [A B]. split; [apply mine_more, A|]. intros v J. apply mine_more, B, J. Qed.
Lemma log_snoc log e : log_ok log -> (forall a rq, e = Sent a rq -> req_ok log rq) -> log_ok (log ++ [e]).
Proof.
  intros L N l1 a rq l2 E. destruct l2 as [|x l2] using rev_ind.
  - apply app_inj_tail in E. destruct E as [<- E]. eapply N; exact E.
  - rewrite app_comm_cons, app_assoc in E. apply app_inj_tail in E. destruct E as [E _]. eapply L; exact E.
Qed.
Lemma named_note w e : named w -> (forall a rq, e <> Sent a rq) -> named (note w e).
Proof.
  intros (A & B & C) N. unfold named. cbn [note w_s w_log]. split; [apply mine_more, A|]. split.
  - eapply Forall_impl; [|exact B]. intros x. apply req_more.
  - apply log_snoc; [exact C|]. intros a rq E. contradiction (N a rq E).
Qed.
Lemma named_upd w f : named w -> s_session (f (w_s w)) = s_session (w_s w) -> s_queue (f (w_s w)) = s_queue (w_s w) -> named (upd_s w f).
Proof. unfold named. intros S F G. cbn [upd_s w_s w_log]. rewrite F, G. exact S. Qed.
Lemma named_in w x : named w -> named (upd_in w x).
Proof. intros S. exact S. Qed.
Lemma write_named w a r w' o : named w -> req_ok (w_log w) r -> write w a r = (w', o) -> named w'.
Proof.
  intros T R. unfold write. destruct (s_proto (w_s w) =? ProtoHTTP); [intros E; injection E as <- _; exact T|]. cbv zeta.
  assert (G : named (mkW (w_s w) (w_in w) (tl (w_writes w)) (w_listens w) (w_rand w) (w_log w ++ [Sent a r]))).
  { destruct T as (A & B & C). unfold named. cbn [w_s w_log]. split; [apply mine_more, A|]. split; [eapply Forall_impl; [|exact B]; intros x; apply req_more|].
    apply log_snoc; [exact C|]. intros a' rq E. injection E as _ <-. exact R. }
  destruct (w_writes w) as [|[e|] ?]; intros E; injection E as <- _; exact G.
Qed.
Lemma call_named s verb s' out : call_auth s verb = (s', out) -> s_session s' = s_session s /\ s_queue s' = s_queue s.
Proof.
  unfold call_auth. destruct (s_auth s) as [[text d]|]; [|intros E; injection E as <- _; split; reflexivity].
  destruct (auth_call text d verb []) as [d' x]. intros E. injection E as <- _. split; reflexivity.
Qed.
Definition heads_ok (log : list effect) (hs : header) : Prop := forall v, In (bs "Session", v) (fold_left (fun h e => header_set h (fst e) (snd e)) hs []) -> mine log v.
Lemma heads_none log : heads_ok log [].
Proof. intros v []. Qed.
Lemma heads_accept log v : heads_ok log [(bs "Accept", v)].
Proof. intros x [E|[]]. discriminate E. Qed.
Lemma heads_transport log v : heads_ok log [(bs "Transport", v)].
Proof. intros x [E|[]]. discriminate E. Qed.
Lemma heads_session log v : mine log v -> heads_ok log [(bs "Session", v)].
Proof. intros M x [E|[]]. injection E as <-. exact M. Qed.
Lemma queue_named log q k rq : Forall (fun e : Z * request => req_ok log (snd e)) q -> req_ok log rq -> Forall (fun e => req_ok log (snd e)) (qset q k rq).
Proof.
  intros F R. unfold qset. constructor; [exact R|]. unfold qdel. apply Forall_forall. intros x J. apply filter_In in J. rewrite Forall_forall in F. apply F, J.
Qed.
Lemma command_named w verb uri hs w' o : named w -> heads_ok (w_log w) hs -> command w verb uri hs = (w', o) -> named w'.
Proof.
  intros T H. unfold command. destruct (s_conn (w_s w)); cbn [negb]; [|intros E; injection E as <- _; exact T]. cbv zeta.
  destruct (call_auth (w_s w) verb) as [s1 auth] eqn:C. apply call_named in C. destruct C as [C1 C2]. unfold enqueue. cbv zeta. cbn [q_verb q_uri q_auth q_header set_cseq s_cseq s_session s_queue].
  destruct T as (A & B & L). assert (R : forall n, req_ok (w_log w) (mkReq verb n uri auth (s_session s1) (fold_left (fun h e => header_set h (fst e) (snd e)) hs []))).
  { intros n. split; cbn [q_session q_header]; [rewrite C1; exact A|exact H]. }
  apply write_named; [|apply R]. unfold named. cbn [upd_s w_s w_log set_queue set_cseq s_session s_queue]. split; [rewrite C1; exact A|]. split; [|exact L].
  rewrite C2. apply queue_named; [exact B|apply R].
Qed.
Lemma with_conn_named w k w' o : named w -> (s_conn (w_s w) = true -> forall w' o, k (w_s w) = (w', o) -> named w') -> with_conn w k = (w', o) -> named w'.
Proof. intros T K. unfold with_conn. destruct (s_conn (w_s w)); [apply K; reflexivity|]. intros E. injection E as <- _. exact T. Qed.
Lemma setup_from_named todo : forall w i w' o, named w -> setup_from w i todo = (w', o) -> named w'.
Proof.
  induction todo as [|f todo IH]; intros w i w' o T E; cbn [setup_from] in E; [injection E as <- _; exact T|].
  destruct (setup_uri (w_s w) (m_control (fd_media f))) as [uri|e| |] eqn:U; try (injection E as <- _; exact T).
  destruct (command w (bs "SETUP") uri [(bs "Transport", transport_string (fd_transp f))]) as [w1 r1] eqn:K.
  apply command_named in K; [|exact T|apply heads_transport].
  destruct r1 as [x|e| |]; try (injection E as <- _; exact K).
  apply IH in E; [exact E|]. apply named_upd; [exact K| |]; unfold mark_feed; destruct (nth_error (s_feeds (w_s w1)) i); reflexivity.
Qed.
Lemma setup_named w w' o : named w -> setup w = (w', o) -> named w'.
Proof. intros T. apply setup_from_named; exact T. Qed.
Lemma keepalive_named w t1 t2 w' o : named w -> keepalive w t1 t2 = (w', o) -> named w'.
Proof.
  intros T. apply with_conn_named; [exact T|]. intros _ w2 o2. destruct (_ && _); [|intros E; injection E as <- _; exact T].
  destruct (match s_last (w_s w) with None => true | Some l => t1 - l >=? keepAliveTimeout end); [|intros E; injection E as <- _; exact T].
  apply command_named; [apply named_note; [|discriminate]; apply named_upd; [exact T|reflexivity|reflexivity]|].
  apply heads_session. destruct T as [A _]. cbn [note upd_s w_log]. apply mine_more, A.
Qed.
Lemma describe_named w w' o : named w -> describe w = (w', o) -> named w'.
Proof.
  intros T. apply with_conn_named; [exact T|]. intros _ w2 o2. apply command_named; [exact T|apply heads_accept].
Qed.
Lemma do_cmd_named w c w' o : named w -> do_cmd w c = (w', o) -> named w'.
Proof.
  intros T. destruct c; cbn [do_cmd]; try (apply describe_named, T); try (apply setup_named, T); try (apply keepalive_named, T);
    (apply with_conn_named; [exact T|]; intros _ w2 o2; apply command_named; [exact T|apply heads_none]).
Qed.
Lemma add_sink_named w ch port w' o : named w -> add_sink w ch port = (w', o) -> named w'.
Proof.
  intros T. unfold add_sink. destruct (w_listens w) as [|[e|] l]; intros E; injection E as <- _; try exact T;
    (apply (named_note (mkW (set_sinks (w_s w) (s_sinks (w_s w) ++ [(ch, port)])) (w_in w) (w_writes w) _ (w_rand w) (w_log w))); [exact T|discriminate]).
Qed.
Lemma setup_feeds_named todo : forall w cseq v i w' o, named w -> setup_feeds w cseq v i todo = (w', o) -> named w'.
Proof.
  induction todo as [|f todo IH]; intros w cseq v i w' o T E; cbn [setup_feeds] in E; [injection E as <- _; exact T|].
  destruct (fd_cseq f =? cseq); [|eapply IH; eauto]. cbv zeta in E. destruct (transport_setup f v) as [f' o1] eqn:TS.
  assert (T1 : named (upd_s (upd_s w (fun s => set_feedidx s (i64 (s_feedidx s + 1)))) (put_feed i f'))) by exact T.
  destruct o1 as [x|e| |]; try (injection E as <- _; exact T1). destruct (t_tcp (fd_transp f')); [eapply IH; eauto|].
  match type of E with context [add_sink ?a ?b ?p] => destruct (add_sink a b p) as [w1 r1] eqn:E1; apply add_sink_named in E1; [|exact T1] end. destruct r1 as [u1|e1| |]; try (injection E as <- _; exact E1).
  match type of E with context [add_sink ?a ?b ?p] => destruct (add_sink a b p) as [w2 r2] eqn:E2; apply add_sink_named in E2; [|exact E1] end. destruct r2 as [u2|e2| |]; try (injection E as <- _; exact E2).
  exact (IH _ _ _ _ _ _ E2 E).
Qed.
Lemma notify_named w st : named w -> named (notify w st).
Proof. intros T. apply named_note; [|discriminate]. apply named_upd; [exact T|reflexivity|reflexivity]. Qed.
Lemma handle_setup_named w r w' o : named w -> handle_setup w r = (w', o) -> named w'.
Proof.
  intros T. unfold handle_setup.
  assert (F : forall w w' o, named w -> (if s_feedidx (w_s w) >=? zlen (s_feeds (w_s w)) then (note (notify w StageReady) Started, @Ok unit tt) else (w, Ok tt)) = (w', o) -> named w').
  { clear. intros w w' o T E. destruct (s_feedidx (w_s w) >=? zlen (s_feeds (w_s w))); injection E as <- _; [|exact T]. apply named_note; [apply notify_named, T|discriminate]. }
  destruct (p_code r =? 200).
  - destruct (setup_feeds w (p_cseq r) (header_get (p_header r) (bs "Transport")) 0 (s_feeds (w_s w))) as [w1 r1] eqn:E.
    apply setup_feeds_named in E; [|exact T]. destruct r1 as [x|e| |]; intros X; try (injection X as <- _; exact E). apply F in X; assumption.
  - destruct (p_code r =? 401); cbn [negb]; intros X; apply F in X; auto.
Qed.
Lemma react_named w req r w' o : named w -> react w req r = (w', o) -> named w'.
Proof.
  intros T. unfold react. destruct (beq (q_verb req) (bs "OPTIONS")).
  { destruct (s_stage (w_s w) =? StageInit); [|intros E; injection E as <- _; exact T]. apply describe_named. exact T. }
  destruct (beq (q_verb req) (bs "DESCRIBE")).
  { destruct (p_body r) as [body|]; [|intros E; injection E as <- _; exact T]. destruct (parse_feeds (s_proto (w_s w)) body) as [fs| | |] eqn:P; intros E; try (injection E as <- _; exact T).
    apply setup_named in E; [exact E|]. exact T. }
  assert (K : forall st w' o, (if p_code r =? 200 then notify w st else w, @Ok unit tt) = (w', o) -> named w').
  { intros st w2 o2 E. destruct (p_code r =? 200); injection E as <- _; [apply notify_named, T|exact T]. }
  destruct (beq (q_verb req) (bs "PAUSE")); [apply K|]. destruct (beq (q_verb req) (bs "PLAY")); [apply K|].
  destruct (beq (q_verb req) (bs "TEARDOWN")); [apply K|]. destruct (beq (q_verb req) (bs "SETUP")); [apply handle_setup_named; assumption|].
  intros E; injection E as <- _; exact T.
Qed.
Lemma retry_named w req r w' o : named w -> req_ok (w_log w) req -> retry w req r = (w', o) -> named w'.
Proof.
  intros T Q. unfold retry, authorize.
  destruct (new_digest (s_uri (w_s w)) (header_get (p_header r) (bs "WWW-Authenticate"))) as [d| | |]; try (intros E; injection E as <- _; exact T).
  destruct (s_user (w_s w)) as [[user pass]|]; [|intros E; injection E as <- _; exact T].
  destruct (authenticate d user pass (hd [] (w_rand w))) as [d' text]. cbn [w_s].
  destruct (call_auth (set_auth (w_s w) (Some (text, d'))) (q_verb req)) as [s2 out2] eqn:CA. apply call_named in CA. destruct CA as [C1 C2]. cbn [set_auth s_session s_queue] in *.
  unfold enqueue. cbv zeta. cbn [q_verb q_uri q_auth q_header]. destruct T as (A & B & L).
  assert (R : req_ok (w_log w) (mkReq (q_verb req) (s_cseq s2) (q_uri req) out2 (s_session s2) (q_header req))) by (split; cbn [q_session q_header]; [rewrite C1; exact A|apply Q]).
  apply write_named; [|exact R]. unfold named. cbn [upd_s w_s w_log set_queue s_session s_queue]. split; [rewrite C1; exact A|]. split; [|exact L]. rewrite C2. apply queue_named; [exact B|exact R].
Qed.
Lemma qget_named log q k rq : Forall (fun e : Z * request => req_ok log (snd e)) q -> qget q k = Some rq -> req_ok log rq.
Proof.
  induction q as [|[k' r'] q IH]; cbn [qget]; [discriminate|]. intros F. inversion F as [|x y F1 F2]; subst. destruct (k' =? k); [intros E; injection E as <-; exact F1|apply IH; exact F2].
Qed.
Lemma split_given v : v <> [] -> exists params, v = hd [] (split_on 59 v) ++ params /\ ~ In 59 (hd [] (split_on 59 v)) /\ (params = [] \/ exists p, params = 59 :: p).
Proof.
  intros _. induction v as [|c v IH]; [exists []; cbn; repeat split; auto|]. destruct (Z.eq_dec c 59) as [->|N].
  - exists (59 :: v). cbn [split_on]. change (59 =? 59) with true. cbn. repeat split; [auto|right; eexists; reflexivity].
  - destruct IH as (params & E & J & P). exists params. cbn [split_on]. replace (c =? 59) with false by lia.
    destruct (split_on 59 v) as [|w ws] eqn:S; cbn [hd] in *.
    + exfalso. destruct (split_on_nonempty 59 v) as (p & ps & X). congruence.
    + split; [cbn; rewrite <- E; reflexivity|]. split; [|exact P]. intros [X|X]; [congruence|exact (J X)].
Qed.
Lemma handle_response_named w r w' o : named w -> handle_response w r = (w', o) -> named w'.
Proof.
  intros T. unfold handle_response. cbv zeta. assert (T1 : named (note w (Got r))) by (apply named_note; [exact T|discriminate]). cbn [note w_s]. destruct (qget (s_queue (w_s w)) (p_cseq r)) as [req|] eqn:Q; [|intros E; injection E as <- _; exact T1].
  assert (T2 : named (upd_s (note w (Got r)) (fun s => set_queue s (qdel (s_queue s) (p_cseq r))))).
  { destruct T1 as (A & B & C). split; [exact A|]. split; [|exact C]. cbn [upd_s w_s w_log set_queue s_queue]. unfold qdel. apply Forall_forall. intros x J. apply filter_In in J. rewrite Forall_forall in B. apply B, J. }
  assert (RQ : req_ok (w_log (note w (Got r))) req) by (destruct T1 as (_ & B & _); exact (qget_named _ _ _ _ B Q)).
  destruct (p_code r =? 401); [apply retry_named; assumption|]. apply react_named. destruct T2 as (A & B & C). unfold learn_session.
  destruct (beq (header_get (p_header r) (bs "Session")) []) eqn:V; [split; [exact A|split; [exact B|exact C]]|]. split; [|split; [exact B|exact C]]. cbn [upd_s note w_s w_log set_session s_session].
  right. exists r. split; [apply in_or_app; right; left; reflexivity|]. apply split_given. intros X. rewrite X in V. discriminate V.
Qed.
Lemma receive_named w w' o : named w -> receive w = (w', o) -> named w'.
Proof.
  intros T. unfold receive.
  assert (A : forall s0 w' o, match unpack_response s0 with (s1, Ok r) => handle_response (upd_in w s1) r | (s1, Err e) => (upd_in w s1, Err e) | (s1, Panic) => (upd_in w s1, Panic) | (s1, Fuel) => (upd_in w s1, Fuel) end = (w', o) -> named w').
  { intros s0 w2 o2. destruct (unpack_response s0) as [s1 [r|e| |]] eqn:U; try (intros E; injection E as <- _; apply named_in, T). apply handle_response_named. apply named_in, T. }
  destruct (peek 1 (w_in w)) as [s0 [b|e| |]]; try (intros E; injection E as <- _; apply named_in, T).
  destruct b as [|b0 bt]; [apply A|]. destruct (Z.eq_dec b0 36) as [->|N].
  - destruct bt; [|apply A]. destruct (read_byte (discard 1 s0)) as [s1 [ch|e| |]]; try (intros E; injection E as <- _; apply named_in, T). destruct (read_uint16 s1) as [s2 [len|e| |]]; try (intros E; injection E as <- _; apply named_in, T).
    destruct (read_bytes len s2) as [s3 [p|e| |]]; intros E; injection E as <- _; try apply named_in, T. apply named_note; [apply named_in, T|discriminate].
  - destruct b0 as [|q|q]; try apply A. repeat (destruct q as [q|q|]; try apply A). contradiction N. reflexivity.
Qed.
Lemma turn_named w t1 t2 w' x : named w -> turn w t1 t2 = (w', x) -> named w'.
Proof.
  intros T. unfold turn. destruct (keepalive w t1 t2) as [w1 k] eqn:K. apply keepalive_named in K; [|exact T].
  assert (R : forall w' x, match receive w1 with (w, Ok _) => (w, Again) | (w, Err e) => (w, if is_timeout e then Again else Stop) | (w, Panic) | (w, Fuel) => (w, Crash) end = (w', x) -> named w').
  { intros w2 y. destruct (receive w1) as [w3 o] eqn:E. apply receive_named in E; [|exact K]. destruct o; intros X; injection X as <- _; exact E. }
  destruct k as [y|e| |]; try (intros X; injection X as <- _; exact K); [apply R|]. destruct (s_stage (w_s w1) =? StageDone); [intros X; injection X as <- _; exact K|apply R].
Qed.
Lemma run_named es : forall w l w' l', named w -> run (w, l) es = (w', l') -> named w'.
Proof.
  induction es as [|e es IH]; intros w l w' l' T R; cbn [run fold_left] in R; [injection R as <- _; exact T|]. fold (run (step (w, l) e) es) in R. destruct (step (w, l) e) as [w1 l1] eqn:S. apply IH in R; [exact R|]. clear R. unfold step in S.
  destruct l, e as [c|t1 t2]; try (injection S as <- _; exact T).
  1,3: destruct (do_cmd w c) as [w2 o] eqn:D; apply do_cmd_named in D; [|exact T]; destruct o; injection S as <- _; exact D.
  destruct (turn w t1 t2) as [w2 x] eqn:D. apply turn_named in D; [|exact T]. destruct x; injection S as <- _; exact D.
Qed.
