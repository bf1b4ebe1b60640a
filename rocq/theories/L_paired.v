(* Lemmas: every keep-alive that was due was also sent. *)
From Coq Require Import String.
From Verif Require Import Base GoStrings M_conn M_message M_transport M_sdp M_digest M_sps M_session S_session S_handshake L_base L_strings L_session.
From Coq Require Import ZifyBool.

Definition alive_request (r : request) : Prop := q_verb r = bs "OPTIONS" /\ exists id, q_header r = [(bs "Session", id)].
Definition paired_log (log : list effect) : Prop := forall a x y b, log = a ++ Alive x y :: b -> exists r b', b = Sent false r :: b' /\ alive_request r.
Definition paired (w : world) : Prop := paired_log (w_log w).
Definition quiet (e : effect) : Prop := match e with Alive _ _ => False | _ => True end.

Lemma paired_snoc log e : paired_log log -> quiet e -> paired_log (log ++ [e]).
Proof.
  intros P Q a x y b E. destruct (list_last_dec b) as [->|(m & z & ->)].
  - apply app_inj_tail in E as [_ ->]. contradiction.
  - rewrite app_comm_cons, app_assoc in E. apply app_inj_tail in E as [-> ->]. destruct (P a x y m eq_refl) as (r & b' & -> & A). exists r, (b' ++ [z]). split; [reflexivity|exact A].
Qed.
Lemma paired_pair log x y r : paired_log log -> alive_request r -> paired_log (log ++ [Alive x y; Sent false r]).
Proof.
  intros P A a x' y' b E. destruct (list_last_dec b) as [->|(m & z & ->)].
  - change [Alive x y; Sent false r] with ([Alive x y] ++ [Sent false r]) in E. rewrite app_assoc in E. apply app_inj_tail in E as [_ ?]. discriminate.
  - change [Alive x y; Sent false r] with ([Alive x y] ++ [Sent false r]) in E. rewrite app_assoc, app_comm_cons, app_assoc in E. apply app_inj_tail in E as [E <-].
    destruct (list_last_dec m) as [->|(m' & z & ->)].
    + exists r, []. split; [reflexivity|exact A].
    + rewrite app_comm_cons, app_assoc in E. apply app_inj_tail in E as [E1 _]. destruct (P a x' y' m' E1) as (r' & b' & -> & A'). exists r', (b' ++ [z] ++ [Sent false r]).
      split; [cbn [app]; rewrite <- app_assoc; reflexivity|exact A'].
Qed.
Lemma paired_note w e : paired w -> quiet e -> paired (note w e).
Proof. intros S E. apply paired_snoc; assumption. Qed.
Lemma paired_upd w f : paired w -> paired (upd_s w f).
Proof. intros S. exact S. Qed.
Lemma paired_in w x : paired w -> paired (upd_in w x).
Proof. intros S. exact S. Qed.
Lemma write_paired w a r w' o : paired w -> write w a r = (w', o) -> paired w'.
Proof.
  intros T. unfold write. destruct (s_proto (w_s w) =? ProtoHTTP); [intros E; injection E as <- _; exact T|]. cbv zeta.
  assert (G : paired (mkW (w_s w) (w_in w) (tl (w_writes w)) (w_listens w) (w_rand w) (w_log w ++ [Sent a r]))) by (apply (paired_note w (Sent a r) T I)).
  destruct (w_writes w) as [|[e|] ?]; intros E; injection E as <- _; exact G.
Qed.
Lemma command_paired w verb uri hs w' o : paired w -> command w verb uri hs = (w', o) -> paired w'.
Proof.
  intros T. unfold command. destruct (s_conn (w_s w)); cbn [negb]; [|intros E; injection E as <- _; exact T]. cbv zeta.
  destruct (call_auth (w_s w) verb) as [s1 auth] eqn:C. unfold enqueue. cbv zeta. cbn [q_verb q_uri q_auth q_header set_cseq s_cseq s_session s_queue].
  apply write_paired. exact T.
Qed.
Lemma with_conn_paired w k w' o : paired w -> (s_conn (w_s w) = true -> forall w' o, k (w_s w) = (w', o) -> paired w') -> with_conn w k = (w', o) -> paired w'.
Proof. intros T K. unfold with_conn. destruct (s_conn (w_s w)); [apply K; reflexivity|]. intros E. injection E as <- _. exact T. Qed.
Lemma setup_from_paired todo : forall w i w' o, paired w -> setup_from w i todo = (w', o) -> paired w'.
Proof.
  induction todo as [|f todo IH]; intros w i w' o T E; cbn [setup_from] in E; [injection E as <- _; exact T|].
  destruct (setup_uri (w_s w) (m_control (fd_media f))) as [uri|e| |] eqn:U; try (injection E as <- _; exact T).
  destruct (command w (bs "SETUP") uri [(bs "Transport", transport_string (fd_transp f))]) as [w1 r1] eqn:K.
  apply command_paired in K; [|exact T].
  destruct r1 as [x|e| |]; try (injection E as <- _; exact K).
  apply IH in E; [exact E|]. exact K.
Qed.
Lemma setup_paired w w' o : paired w -> setup w = (w', o) -> paired w'.
Proof. intros T. apply setup_from_paired; exact T. Qed.
Lemma keepalive_paired w t1 t2 w' o : paired w -> keepalive w t1 t2 = (w', o) -> paired w'.
Proof.
  intros T. apply with_conn_paired; [exact T|]. intros C w2 o2. destruct (Z.eqb_spec (s_proto (w_s w)) ProtoHTTP) as [H|H]; cbn [negb andb]; [intros E; injection E as <- _; exact T|].
  destruct (_ && _); [|intros E; injection E as <- _; exact T].
  destruct (match s_last (w_s w) with None => true | Some l => t1 - l >=? keepAliveTimeout end); [|intros E; injection E as <- _; exact T].
  unfold command. cbn [note upd_s w_s set_last s_conn]. rewrite C. cbn [negb]. cbv zeta.
  destruct (call_auth (set_last (w_s w) (Some t2)) (bs "OPTIONS")) as [s1 auth] eqn:CA.
  assert (PR : s_proto s1 = s_proto (w_s w)).
  { unfold call_auth in CA. destruct (s_auth (set_last (w_s w) (Some t2))) as [[text d]|]; [|injection CA as <- _; reflexivity]. destruct (auth_call text d (bs "OPTIONS") []). injection CA as <- _. reflexivity. }
  unfold enqueue. cbv zeta. unfold write. cbn [upd_s note w_s set_queue set_cseq s_proto w_log]. rewrite PR. destruct (Z.eqb_spec (s_proto (w_s w)) ProtoHTTP); [contradiction|].
  match goal with |- context [Sent false ?r] => assert (A : alive_request r) by (split; [reflexivity|]; exists (s_session (w_s w)); reflexivity) end.
  destruct (w_writes _) as [|[e|] ?]; intros E; injection E as <- _; unfold paired; cbn [w_log]; rewrite <- app_assoc; apply paired_pair; assumption.
Qed.
Lemma describe_paired w w' o : paired w -> describe w = (w', o) -> paired w'.
Proof.
  intros T. apply with_conn_paired; [exact T|]. intros _ w2 o2. apply command_paired; exact T.
Qed.
Lemma do_cmd_paired w c w' o : paired w -> do_cmd w c = (w', o) -> paired w'.
Proof.
  intros T. destruct c; cbn [do_cmd]; try (apply describe_paired, T); try (apply setup_paired, T); try (apply keepalive_paired, T);
    (apply with_conn_paired; [exact T|]; intros _ w2 o2; apply command_paired; exact T).
Qed.
Lemma add_sink_paired w ch port w' o : paired w -> add_sink w ch port = (w', o) -> paired w'.
Proof.
  intros T. unfold add_sink. destruct (w_listens w) as [|[e|] l]; intros E; injection E as <- _; [|exact T|]; apply paired_note; try exact I; exact T.
Qed.
Lemma setup_feeds_paired todo : forall w cseq v i w' o, paired w -> setup_feeds w cseq v i todo = (w', o) -> paired w'.
Proof.
  induction todo as [|f todo IH]; intros w cseq v i w' o T E; cbn [setup_feeds] in E; [injection E as <- _; exact T|].
  destruct (fd_cseq f =? cseq); [|eapply IH; eauto]. cbv zeta in E. destruct (transport_setup f v) as [f' o1] eqn:TS.
  assert (T1 : paired (upd_s (upd_s w (fun s => set_feedidx s (i64 (s_feedidx s + 1)))) (put_feed i f'))) by exact T.
  destruct o1 as [x|e| |]; try (injection E as <- _; exact T1). destruct (t_tcp (fd_transp f')); [eapply IH; eauto|].
  match type of E with context [add_sink ?a ?b ?p] => destruct (add_sink a b p) as [w1 r1] eqn:E1; apply add_sink_paired in E1; [|exact T1] end. destruct r1 as [u1|e1| |]; try (injection E as <- _; exact E1).
  match type of E with context [add_sink ?a ?b ?p] => destruct (add_sink a b p) as [w2 r2] eqn:E2; apply add_sink_paired in E2; [|exact E1] end. destruct r2 as [u2|e2| |]; try (injection E as <- _; exact E2).
  exact (IH _ _ _ _ _ _ E2 E).
Qed.
Lemma notify_paired w st : paired w -> paired (notify w st).
Proof. intros T. apply paired_note; [|exact I]. exact T. Qed.
Lemma handle_setup_paired w r w' o : paired w -> handle_setup w r = (w', o) -> paired w'.
Proof.
  intros T. unfold handle_setup.
  assert (F : forall w w' o, paired w -> (if s_feedidx (w_s w) >=? zlen (s_feeds (w_s w)) then (note (notify w StageReady) Started, @Ok unit tt) else (w, Ok tt)) = (w', o) -> paired w').
  { clear. intros w w' o T E. destruct (s_feedidx (w_s w) >=? zlen (s_feeds (w_s w))); injection E as <- _; [|exact T]. apply paired_note; [apply notify_paired, T|exact I]. }
  destruct (p_code r =? 200).
  - destruct (setup_feeds w (p_cseq r) (header_get (p_header r) (bs "Transport")) 0 (s_feeds (w_s w))) as [w1 r1] eqn:E.
    apply setup_feeds_paired in E; [|exact T]. destruct r1 as [x|e| |]; intros X; try (injection X as <- _; exact E). apply F in X; assumption.
  - destruct (p_code r =? 401); cbn [negb]; intros X; apply F in X; auto.
Qed.
Lemma react_paired w req r w' o : paired w -> react w req r = (w', o) -> paired w'.
Proof.
  intros T. unfold react. destruct (beq (q_verb req) (bs "OPTIONS")).
  { destruct (s_stage (w_s w) =? StageInit); [|intros E; injection E as <- _; exact T]. apply describe_paired. exact T. }
  destruct (beq (q_verb req) (bs "DESCRIBE")).
  { destruct (p_body r) as [body|]; [|intros E; injection E as <- _; exact T]. destruct (parse_feeds (s_proto (w_s w)) body) as [fs| | |] eqn:P; intros E; try (injection E as <- _; exact T).
    apply setup_paired in E; [exact E|]. exact T. }
  assert (K : forall st w' o, (if p_code r =? 200 then notify w st else w, @Ok unit tt) = (w', o) -> paired w').
  { intros st w2 o2 E. destruct (p_code r =? 200); injection E as <- _; [apply notify_paired, T|exact T]. }
  destruct (beq (q_verb req) (bs "PAUSE")); [apply K|]. destruct (beq (q_verb req) (bs "PLAY")); [apply K|].
  destruct (beq (q_verb req) (bs "TEARDOWN")); [apply K|]. destruct (beq (q_verb req) (bs "SETUP")); [apply handle_setup_paired; assumption|].
  intros E; injection E as <- _; exact T.
Qed.
Lemma retry_paired w req r w' o : paired w -> retry w req r = (w', o) -> paired w'.
Proof.
  intros T. unfold retry, authorize.
  destruct (new_digest (s_uri (w_s w)) (header_get (p_header r) (bs "WWW-Authenticate"))) as [d| | |]; try (intros E; injection E as <- _; exact T).
  destruct (s_user (w_s w)) as [[user pass]|]; [|intros E; injection E as <- _; exact T].
  destruct (authenticate d user pass (hd [] (w_rand w))) as [d' text]. cbn [w_s].
  destruct (call_auth (set_auth (w_s w) (Some (text, d'))) (q_verb req)) as [s2 out2] eqn:CA.
  unfold enqueue. cbv zeta. apply write_paired. exact T.
Qed.
Lemma handle_response_paired w r w' o : paired w -> handle_response w r = (w', o) -> paired w'.
Proof.
  intros T. unfold handle_response. cbv zeta. assert (T1 : paired (note w (Got r))) by (apply paired_note; [exact T|exact I]). cbn [note w_s]. destruct (qget (s_queue (w_s w)) (p_cseq r)) as [req|] eqn:Q; [|intros E; injection E as <- _; exact T1].
  assert (T2 : paired (upd_s (note w (Got r)) (fun s => set_queue s (qdel (s_queue s) (p_cseq r))))) by exact T1.
  destruct (p_code r =? 401); [apply retry_paired; assumption|]. apply react_paired. exact T2.
Qed.
Lemma receive_paired w w' o : paired w -> receive w = (w', o) -> paired w'.
Proof.
  intros T. unfold receive.
  assert (A : forall s0 w' o, match unpack_response s0 with (s1, Ok r) => handle_response (upd_in w s1) r | (s1, Err e) => (upd_in w s1, Err e) | (s1, Panic) => (upd_in w s1, Panic) | (s1, Fuel) => (upd_in w s1, Fuel) end = (w', o) -> paired w').
  { intros s0 w2 o2. destruct (unpack_response s0) as [s1 [r|e| |]] eqn:U; try (intros E; injection E as <- _; apply paired_in, T). apply handle_response_paired. apply paired_in, T. }
  destruct (peek 1 (w_in w)) as [s0 [b|e| |]]; try (intros E; injection E as <- _; apply paired_in, T).
  destruct b as [|b0 bt]; [apply A|]. destruct (Z.eq_dec b0 36) as [->|N].
  - destruct bt; [|apply A]. destruct (read_byte (discard 1 s0)) as [s1 [ch|e| |]]; try (intros E; injection E as <- _; apply paired_in, T). destruct (read_uint16 s1) as [s2 [len|e| |]]; try (intros E; injection E as <- _; apply paired_in, T).
    destruct (read_bytes len s2) as [s3 [p|e| |]]; intros E; injection E as <- _; try apply paired_in, T. apply paired_note; [apply paired_in, T|exact I].
  - destruct b0 as [|q|q]; try apply A. repeat (destruct q as [q|q|]; try apply A). contradiction N. reflexivity.
Qed.
Lemma turn_paired w t1 t2 w' x : paired w -> turn w t1 t2 = (w', x) -> paired w'.
Proof.
  intros T. unfold turn. destruct (keepalive w t1 t2) as [w1 k] eqn:K. apply keepalive_paired in K; [|exact T].
  assert (R : forall w' x, match receive w1 with (w, Ok _) => (w, Again) | (w, Err e) => (w, if is_timeout e then Again else Stop) | (w, Panic) | (w, Fuel) => (w, Crash) end = (w', x) -> paired w').
  { intros w2 y. destruct (receive w1) as [w3 o] eqn:E. apply receive_paired in E; [|exact K]. destruct o; intros X; injection X as <- _; exact E. }
  destruct k as [y|e| |]; try (intros X; injection X as <- _; exact K); [apply R|]. destruct (s_stage (w_s w1) =? StageDone); [intros X; injection X as <- _; exact K|apply R].
Qed.
Lemma run_paired es : forall w l w' l', paired w -> run (w, l) es = (w', l') -> paired w'.
Proof.
  induction es as [|e es IH]; intros w l w' l' T R; cbn [run fold_left] in R; [injection R as <- _; exact T|]. fold (run (step (w, l) e) es) in R. destruct (step (w, l) e) as [w1 l1] eqn:S. apply IH in R; [exact R|]. clear R. unfold step in S.
  destruct l, e as [c|t1 t2]; try (injection S as <- _; exact T).
  1,3: destruct (do_cmd w c) as [w2 o] eqn:D; apply do_cmd_paired in D; [|exact T]; destruct o; injection S as <- _; exact D.
  destruct (turn w t1 t2) as [w2 x] eqn:D. apply turn_paired in D; [|exact T]. destruct x; injection S as <- _; exact D.
Qed.
