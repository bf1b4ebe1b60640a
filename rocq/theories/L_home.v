(* Lemmas: the requests of a session are of five kinds, and all but SETUP go to the URI that was opened. *)
From Coq Require Import String.
From Verif Require Import Base GoStrings M_conn M_message M_transport M_sdp M_digest M_sps M_session S_refuse S_aggregate L_base L_strings.
From Verif Require L_handshake.
From Coq Require Import ZifyBool.

Definition eff_home (u : bytes) (e : effect) : Prop := match e with Sent _ r => shape u r | _ => True end.
Definition ses_home (u : bytes) (s : session) : Prop := s_uri s = u /\ Forall (fun e : Z * request => shape u (snd e)) (s_queue s).
Definition home (u : bytes) (w : world) : Prop := ses_home u (w_s w) /\ Forall (eff_home u) (w_log w).

Lemma shape_again u r n a i : shape u r -> shape u (mkReq (q_verb r) n (q_uri r) a i (q_header r)).
Proof. intros H. destruct H; cbn [q_verb q_uri q_header]; constructor; assumption. Qed.

Lemma home_note u w e : home u w -> eff_home u e -> home u (note w e).
Proof. intros [S L] E. split; [exact S|]. cbn [note w_log]. apply Forall_app. split; [exact L|]. constructor; [exact E|constructor]. Qed.
Lemma home_upd u w f : home u w -> ses_home u (f (w_s w)) -> home u (upd_s w f).
Proof. intros [S L] F. split; [exact F|exact L]. Qed.
Lemma home_in u w x : home u w -> home u (upd_in w x).
Proof. intros [S L]. split; assumption. Qed.
Lemma qset_home u q k r : Forall (fun e : Z * request => shape u (snd e)) q -> shape u r -> Forall (fun e : Z * request => shape u (snd e)) (qset q k r).
Proof. intros Q R. constructor; [exact R|]. unfold qdel. rewrite Forall_forall in *. intros e I. apply filter_In in I. apply Q. tauto. Qed.
Lemma write_home u w a r w' o : home u w -> shape u r -> write w a r = (w', o) -> home u w'.
Proof.
  intros T R. unfold write. destruct (s_proto (w_s w) =? ProtoHTTP); [intros E; injection E as <- _; exact T|]. cbv zeta.
  assert (G : home u (mkW (w_s w) (w_in w) (tl (w_writes w)) (w_listens w) (w_rand w) (w_log w ++ [Sent a r]))).
  { destruct T as (S & L). split; [exact S|]. cbn [w_log]. apply Forall_app. split; [exact L|]. constructor; [exact R|constructor]. }
  destruct (w_writes w) as [|[e|] ?]; intros E; injection E as <- _; exact G.
Qed.
Lemma call_home s verb s' out : call_auth s verb = (s', out) -> s_uri s' = s_uri s /\ s_queue s' = s_queue s.
Proof.
  unfold call_auth. destruct (s_auth s) as [[text d]|]; [|intros E; injection E as <- _; split; reflexivity].
  destruct (auth_call text d verb []) as [d' x]. intros E. injection E as <- _. split; reflexivity.
Qed.
Lemma command_home u w verb uri hs w' o : home u w ->
  (forall n a i, shape u (mkReq verb n uri a i (fold_left (fun h e => header_set h (fst e) (snd e)) hs []))) -> command w verb uri hs = (w', o) -> home u w'.
Proof.
  intros T K. unfold command. destruct (s_conn (w_s w)); cbn [negb]; [|intros E; injection E as <- _; exact T]. cbv zeta. destruct T as ((SU & SQ) & L).
  destruct (call_auth (w_s w) verb) as [s1 auth] eqn:C. apply call_home in C. destruct C as (EU & EQ). unfold enqueue. cbv zeta. cbn [q_verb q_uri q_auth q_header set_cseq s_cseq s_session s_queue].
  apply write_home; [|apply K]. split; [|exact L]. cbn [upd_s w_s]. split; cbn [set_queue set_cseq s_uri s_queue]; [congruence|]. apply qset_home; [rewrite EQ; exact SQ|apply K].
Qed.
Lemma with_conn_home u w k w' o : home u w -> (s_conn (w_s w) = true -> forall w' o, k (w_s w) = (w', o) -> home u w') -> with_conn w k = (w', o) -> home u w'.
Proof. intros T K. unfold with_conn. destruct (s_conn (w_s w)); [apply K; reflexivity|]. intros E. injection E as <- _. exact T. Qed.
Lemma home_uri u w : home u w -> s_uri (w_s w) = u.
Proof. intros ((U & _) & _). exact U. Qed.
Lemma setup_from_home u todo : forall w i w' o, home u w -> setup_from w i todo = (w', o) -> home u w'.
Proof.
  induction todo as [|f todo IH]; intros w i w' o T E; cbn [setup_from] in E; [injection E as <- _; exact T|].
  destruct (setup_uri (w_s w) (m_control (fd_media f))) as [uri|e| |] eqn:U; try (injection E as <- _; exact T).
  assert (FU : uri = if beq (firstn 7 (m_control (fd_media f))) (bs "rtsp://") then m_control (fd_media f) else u ++ bs "/" ++ m_control (fd_media f)).
  { unfold setup_uri in U. rewrite L_handshake.prefix_first in U. change (length (bs "rtsp://")) with 7%nat in U. rewrite <- (home_uri _ _ T).
    destruct (beq (firstn 7 (m_control (fd_media f))) (bs "rtsp://")); [injection U as <-; reflexivity|].
    destruct (s_conn (w_s w)); [|discriminate]. injection U as <-. reflexivity. }
  destruct (command w (bs "SETUP") uri [(bs "Transport", transport_string (fd_transp f))]) as [w1 r1] eqn:K.
  apply (command_home u) in K; [|exact T|intros n a i0; subst uri; apply (sh_setup u n a i0 (m_control (fd_media f)))].
  destruct r1 as [x|e| |]; try (injection E as <- _; exact K).
  apply IH in E; [exact E|]. destruct K as ((SU & SQ) & L). split; [|exact L]. cbn [upd_s w_s]. unfold mark_feed. destruct (nth_error (s_feeds (w_s w1)) i); split; assumption.
Qed.
Lemma setup_home u w w' o : home u w -> setup w = (w', o) -> home u w'.
Proof. intros T. apply setup_from_home; exact T. Qed.
Lemma keepalive_home u w t1 t2 w' o : home u w -> keepalive w t1 t2 = (w', o) -> home u w'.
Proof.
  intros T. apply with_conn_home; [exact T|]. intros _ w2 o2. destruct (_ && _); [|intros E; injection E as <- _; exact T].
  destruct (match s_last (w_s w) with None => true | Some l => t1 - l >=? keepAliveTimeout end); [|intros E; injection E as <- _; exact T].
  apply command_home.
  - apply home_note; [|exact I]. apply home_upd; [exact T|]. exact (proj1 T).
  - intros n a i. rewrite (home_uri _ _ T). apply sh_alive.
Qed.
Lemma describe_home u w w' o : home u w -> describe w = (w', o) -> home u w'.
Proof.
  intros T. apply with_conn_home; [exact T|]. intros _ w2 o2. apply command_home; [exact T|]. intros n a i. rewrite (home_uri _ _ T). apply sh_describe.
Qed.
Lemma do_cmd_home u w c w' o : home u w -> do_cmd w c = (w', o) -> home u w'.
Proof.
  intros T. destruct c; cbn [do_cmd]; try (apply describe_home, T); try (apply setup_home, T); try (apply keepalive_home, T);
    (apply with_conn_home; [exact T|]; intros _ w2 o2; apply command_home; [exact T|]; intros n a i; rewrite (home_uri _ _ T)).
  - apply sh_options.
  - apply sh_order; auto.
  - apply sh_order; auto.
  - apply sh_order; auto.
Qed.
Lemma add_sink_home u w ch port w' o : home u w -> add_sink w ch port = (w', o) -> home u w'.
Proof.
  intros T. unfold add_sink. destruct (w_listens w) as [|[e|] l]; intros E; injection E as <- _.
  2: destruct T as (S & L); split; [exact S|exact L].
  all: apply home_note; [|exact I]; destruct T as (S & L); split; [exact S|exact L].
Qed.
Lemma setup_feeds_home u todo : forall w cseq v i w' o, home u w -> setup_feeds w cseq v i todo = (w', o) -> home u w'.
Proof.
  induction todo as [|f todo IH]; intros w cseq v i w' o T E; cbn [setup_feeds] in E; [injection E as <- _; exact T|].
  destruct (fd_cseq f =? cseq); [|eapply IH; eauto]. cbv zeta in E. destruct (transport_setup f v) as [f' o1] eqn:TS.
  assert (T1 : home u (upd_s (upd_s w (fun s => set_feedidx s (i64 (s_feedidx s + 1)))) (put_feed i f'))) by exact T.
  destruct o1 as [x|e| |]; try (injection E as <- _; exact T1). destruct (t_tcp (fd_transp f')); [eapply IH; eauto|].
  match type of E with context [add_sink ?a ?b ?p] => destruct (add_sink a b p) as [w1 r1] eqn:E1; apply (add_sink_home u) in E1; [|exact T1] end. destruct r1 as [u1|e1| |]; try (injection E as <- _; exact E1).
  match type of E with context [add_sink ?a ?b ?p] => destruct (add_sink a b p) as [w2 r2] eqn:E2; apply (add_sink_home u) in E2; [|exact E1] end. destruct r2 as [u2|e2| |]; try (injection E as <- _; exact E2).
  exact (IH _ _ _ _ _ _ E2 E).
Qed.
Lemma notify_home u w st : home u w -> home u (notify w st).
Proof. intros T. apply home_note; [|exact I]. apply home_upd; [exact T|]. exact (proj1 T). Qed.
Lemma handle_setup_home u w r w' o : home u w -> handle_setup w r = (w', o) -> home u w'.
Proof.
  intros T. unfold handle_setup.
  assert (F : forall w w' o, home u w -> (if s_feedidx (w_s w) >=? zlen (s_feeds (w_s w)) then (note (notify w StageReady) Started, @Ok unit tt) else (w, Ok tt)) = (w', o) -> home u w').
  { clear. intros w w' o T E. destruct (s_feedidx (w_s w) >=? zlen (s_feeds (w_s w))); injection E as <- _; [|exact T]. apply home_note; [apply notify_home, T|exact I]. }
  destruct (p_code r =? 200).
  - destruct (setup_feeds w (p_cseq r) (header_get (p_header r) (bs "Transport")) 0 (s_feeds (w_s w))) as [w1 r1] eqn:E.
    apply (setup_feeds_home u) in E; [|exact T]. destruct r1 as [x|e| |]; intros X; try (injection X as <- _; exact E). apply F in X; assumption.
  - destruct (p_code r =? 401); cbn [negb]; intros X; apply F in X; auto.
Qed.
Lemma react_home u w req r w' o : home u w -> react w req r = (w', o) -> home u w'.
Proof.
  intros T. unfold react. destruct (beq (q_verb req) (bs "OPTIONS")).
  { destruct (s_stage (w_s w) =? StageInit); [|intros E; injection E as <- _; exact T]. apply describe_home. exact T. }
  destruct (beq (q_verb req) (bs "DESCRIBE")).
  { destruct (p_body r) as [body|]; [|intros E; injection E as <- _; exact T]. destruct (parse_feeds (s_proto (w_s w)) body) as [fs| | |] eqn:P; intros E; try (injection E as <- _; exact T).
    apply (setup_home u) in E; [exact E|]. exact T. }
  assert (K : forall st w' o, (if p_code r =? 200 then notify w st else w, @Ok unit tt) = (w', o) -> home u w').
  { intros st w2 o2 E. destruct (p_code r =? 200); injection E as <- _; [apply notify_home, T|exact T]. }
  destruct (beq (q_verb req) (bs "PAUSE")); [apply K|]. destruct (beq (q_verb req) (bs "PLAY")); [apply K|].
  destruct (beq (q_verb req) (bs "TEARDOWN")); [apply K|]. destruct (beq (q_verb req) (bs "SETUP")); [apply handle_setup_home; assumption|].
  intros E; injection E as <- _; exact T.
Qed.
Lemma retry_home u w req r w' o : shape u req -> home u w -> retry w req r = (w', o) -> home u w'.
Proof.
  intros RQ T. unfold retry, authorize.
  destruct (new_digest (s_uri (w_s w)) (header_get (p_header r) (bs "WWW-Authenticate"))) as [d| | |]; try (intros E; injection E as <- _; exact T).
  destruct (s_user (w_s w)) as [[user pass]|]; [|intros E; injection E as <- _; exact T].
  destruct (authenticate d user pass (hd [] (w_rand w))) as [d' text]. cbn [w_s]. destruct T as ((SU & SQ) & L).
  destruct (call_auth (set_auth (w_s w) (Some (text, d'))) (q_verb req)) as [s2 out2] eqn:CA. apply call_home in CA. destruct CA as (EU & EQ). cbn [set_auth s_uri s_queue] in *.
  unfold enqueue. cbv zeta. cbn [q_verb q_uri q_auth q_header].
  apply write_home; [|apply shape_again; exact RQ]. split; [|exact L]. cbn [upd_s w_s]. split; cbn [set_queue s_uri s_queue]; [congruence|]. apply qset_home; [rewrite EQ; exact SQ|apply shape_again; exact RQ].
Qed.
Lemma handle_response_home u w r w' o : home u w -> handle_response w r = (w', o) -> home u w'.
Proof.
  intros T. unfold handle_response. cbv zeta. assert (T1 : home u (note w (Got r))) by (apply home_note; [exact T|exact I]). cbn [note w_s]. destruct (qget (s_queue (w_s w)) (p_cseq r)) as [req|] eqn:Q; [|intros E; injection E as <- _; exact T1].
  pose proof T as ((SU & SQ) & _).
  assert (T2 : home u (upd_s (note w (Got r)) (fun s => set_queue s (qdel (s_queue s) (p_cseq r))))).
  { apply home_upd; [exact T1|]. split; [exact SU|]. cbn [note w_s set_queue s_queue]. unfold qdel. rewrite Forall_forall in *. intros e I. apply filter_In in I. apply SQ. tauto. }
  assert (RQ : shape u req).
  { clear - Q SQ. induction SQ as [|[k x] q X SQ IH]; cbn [qget] in Q; [discriminate|]. destruct (k =? p_cseq r); [injection Q as <-; exact X|auto]. }
  destruct (p_code r =? 401); [apply retry_home; assumption|]. apply react_home. apply home_upd; [exact T2|]. destruct T2 as ((A1 & A2) & _). unfold learn_session.
  destruct (beq (header_get (p_header r) (bs "Session")) []); split; assumption.
Qed.
Lemma receive_home u w w' o : home u w -> receive w = (w', o) -> home u w'.
Proof.
  intros T. unfold receive.
  assert (A : forall s0 w' o, match unpack_response s0 with (s1, Ok r) => handle_response (upd_in w s1) r | (s1, Err e) => (upd_in w s1, Err e) | (s1, Panic) => (upd_in w s1, Panic) | (s1, Fuel) => (upd_in w s1, Fuel) end = (w', o) -> home u w').
  { intros s0 w2 o2. destruct (unpack_response s0) as [s1 [r|e| |]] eqn:U; try (intros E; injection E as <- _; apply home_in, T). apply handle_response_home. apply home_in, T. }
  destruct (peek 1 (w_in w)) as [s0 [b|e| |]]; try (intros E; injection E as <- _; apply home_in, T).
  destruct b as [|b0 bt]; [apply A|]. destruct (Z.eq_dec b0 36) as [->|N].
  - destruct bt; [|apply A]. destruct (read_byte (discard 1 s0)) as [s1 [ch|e| |]]; try (intros E; injection E as <- _; apply home_in, T). destruct (read_uint16 s1) as [s2 [len|e| |]]; try (intros E; injection E as <- _; apply home_in, T).
    destruct (read_bytes len s2) as [s3 [p|e| |]]; intros E; injection E as <- _; try apply home_in, T. apply home_note; [apply home_in, T|exact I].
  - destruct b0 as [|q|q]; try apply A. repeat (destruct q as [q|q|]; try apply A). contradiction N. reflexivity.
Qed.
Lemma turn_home u w t1 t2 w' x : home u w -> turn w t1 t2 = (w', x) -> home u w'.
Proof.
  intros T. unfold turn. destruct (keepalive w t1 t2) as [w1 k] eqn:K. apply (keepalive_home u) in K; [|exact T].
  assert (R : forall w' x, match receive w1 with (w, Ok _) => (w, Again) | (w, Err e) => (w, if is_timeout e then Again else Stop) | (w, Panic) | (w, Fuel) => (w, Crash) end = (w', x) -> home u w').
  { intros w2 y. destruct (receive w1) as [w3 o] eqn:E. apply (receive_home u) in E; [|exact K]. destruct o; intros X; injection X as <- _; exact E. }
  destruct k as [y|e| |]; try (intros X; injection X as <- _; exact K); [apply R|]. destruct (s_stage (w_s w1) =? StageDone); [intros X; injection X as <- _; exact K|apply R].
Qed.
Lemma run_home u es : forall w l w' l', home u w -> run (w, l) es = (w', l') -> home u w'.
Proof.
  induction es as [|e es IH]; intros w l w' l' T R; cbn [run fold_left] in R; [injection R as <- _; exact T|]. fold (run (step (w, l) e) es) in R. destruct (step (w, l) e) as [w1 l1] eqn:S. apply IH in R; [exact R|]. clear R. unfold step in S.
  destruct l, e as [c|t1 t2]; try (injection S as <- _; exact T).
  1,3: destruct (do_cmd w c) as [w2 o] eqn:D; apply (do_cmd_home u) in D; [|exact T]; destruct o; injection S as <- _; exact D.
  destruct (turn w t1 t2) as [w2 x] eqn:D. apply (turn_home u) in D; [|exact T]. destruct x; injection S as <- _; exact D.
Qed.
