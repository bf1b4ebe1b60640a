(* Lemmas: the credentials on the requests of a history. *)
From Coq Require Import String.
From Verif Require Import Base GoStrings M_conn M_message M_transport M_sdp M_digest M_sps M_session S_digest S_session S_handshake S_creds L_base L_strings L_session L_flow.
From Coq Require Import ZifyBool.

Definition advance (text : bytes) (d : digest) (vs : list bytes) : digest := fold_left (fun d v => fst (auth_call text d v [])) vs d.
Definition holds (u : bytes) (up : option (bytes * bytes)) (a : option (bytes * digest)) (log : list effect) : Prop :=
  (a = None /\ retransmissions log = [] /\ Forall (fun q => q_auth q = []) (sent_requests log)) \/
  (exists before r q after d name pass rnd,
     log = before ++ Got r :: Sent true q :: after /\ retransmissions after = [] /\ p_code r = 401 /\ up = Some (name, pass) /\ bytes_ok rnd /\
     new_digest u (header_get (p_header r) (bs "WWW-Authenticate")) = Ok d /\
     let d0 := fst (authenticate d name pass rnd) in let text := snd (authenticate d name pass rnd) in
     let vs := map q_verb (q :: sent_requests after) in
     map q_auth (q :: sent_requests after) = calls text d0 (map (fun v => Call v []) vs) /\ a = Some (text, advance text d0 vs)).
Definition prefixes (u : bytes) (up : option (bytes * bytes)) (log : list effect) : Prop := forall l1 l2, log = l1 ++ l2 -> rightly u up l1.
Definition creds (u : bytes) (up : option (bytes * bytes)) (w : world) : Prop :=
  s_uri (w_s w) = u /\ s_user (w_s w) = up /\ s_proto (w_s w) <> ProtoHTTP /\ Forall bytes_ok (w_rand w) /\
  prefixes u up (w_log w) /\ holds u up (s_auth (w_s w)) (w_log w).
Definition quiet (e : effect) : Prop := match e with Sent _ _ => False | _ => True end.

Lemma calls_snoc text vs : forall d v, calls text d (map (fun v => Call v []) (vs ++ [v])) = calls text d (map (fun v => Call v []) vs) ++ [snd (auth_call text (advance text d vs) v [])].
Proof.
  induction vs as [|x vs IH]; intros d v; cbn [map app calls advance fold_left].
  - destruct (auth_call text d v []) as [d' out]. reflexivity.
  - destruct (auth_call text d x []) as [d' out] eqn:E. cbn [app]. rewrite IH. cbn [fst]. reflexivity.
Qed.
Lemma advance_snoc text d vs v : advance text d (vs ++ [v]) = fst (auth_call text (advance text d vs) v []).
Proof. unfold advance. rewrite fold_left_app. reflexivity. Qed.
Lemma sent_app a b : sent_requests (a ++ b) = sent_requests a ++ sent_requests b.
Proof. apply flat_map_app. Qed.
Lemma holds_rightly u up a log : holds u up a log -> rightly u up log.
Proof.
  intros [(_ & R & F)|(b & r & q & t & d & n & p & rnd & E & R & C & U & B & D & M & _)]; [left; split; assumption|].
  right. exists b, r, q, t, d, n, p, rnd. splits; try assumption. rewrite M. unfold session_calls. destruct (authenticate d n p rnd) as [d0 text]. cbn [fst snd]. rewrite map_map. reflexivity.
Qed.
Lemma prefixes_snoc u up log e : prefixes u up log -> rightly u up (log ++ [e]) -> prefixes u up (log ++ [e]).
Proof.
  intros P R l1 l2 E. destruct (list_last_dec l2) as [->|(m & z & ->)]; [rewrite app_nil_r in E; subst l1; exact R|].
  rewrite app_assoc in E. apply app_inj_tail in E as [E _]. exact (P _ _ E).
Qed.
Lemma holds_quiet u up a log e : quiet e -> holds u up a log -> holds u up a (log ++ [e]).
Proof.
  intros Q. assert (Z1 : retransmissions [e] = []) by (destruct e; [contradiction|..]; reflexivity). assert (Z2 : sent_requests [e] = []) by (destruct e; [contradiction|..]; reflexivity).
  intros [(A & R & F)|(b & r & q & t & d & n & p & rnd & E & R & C & U & B & D & M & A)].
  - left. rewrite retransmissions_app, sent_app, Z1, Z2, !app_nil_r. splits; assumption.
  - right. exists b, r, q, (t ++ [e]), d, n, p, rnd. rewrite retransmissions_app, sent_app, Z1, Z2, !app_nil_r. cbv zeta. splits; try assumption.
    subst log. rewrite <- app_assoc. reflexivity.
Qed.
(* a request with what the state gives for its method *)
Lemma holds_sent u up s s' log rq : holds u up (s_auth s) log -> call_auth s (q_verb rq) = (s', q_auth rq) -> holds u up (s_auth s') (log ++ [Sent false rq]).
Proof.
  unfold call_auth. intros [(A & R & F)|(b & r & q & t & d & n & p & rnd & E & R & C & U & B & D & M & A)]; rewrite A.
  - intros X. injection X as <- X. left. rewrite retransmissions_app, sent_app. cbn [retransmissions sent_requests flat_map app]. rewrite !app_nil_r. splits; try assumption.
    apply Forall_app. split; [exact F|]. constructor; [symmetry; exact X|constructor].
  - destruct (authenticate d n p rnd) as [d0 text] eqn:EA. cbn [fst snd] in *. destruct (auth_call text _ (q_verb rq) []) as [d' out] eqn:EC. intros X. injection X as <- X.
    right. exists b, r, q, (t ++ [Sent false rq]), d, n, p, rnd. rewrite retransmissions_app, sent_app. change (retransmissions [Sent false rq]) with (@nil request). change (sent_requests [Sent false rq]) with [rq].
    rewrite app_nil_r, EA. cbn [fst snd]. cbv zeta. change (q :: sent_requests t ++ [rq]) with ((q :: sent_requests t) ++ [rq]). rewrite (map_app q_verb), (map_app q_auth).
    change (map q_verb [rq]) with [q_verb rq]. change (map q_auth [rq]) with [q_auth rq]. rewrite calls_snoc, advance_snoc, EC. cbn [fst snd]. rewrite X, M.
    splits; try assumption; try reflexivity. subst log. rewrite <- app_assoc. reflexivity.
Qed.
(* and the one that is repeated *)
Lemma holds_again u up s s' log r rq d n p rnd : retransmissions log = retransmissions log -> p_code r = 401 -> up = Some (n, p) -> bytes_ok rnd ->
  new_digest u (header_get (p_header r) (bs "WWW-Authenticate")) = Ok d ->
  s_auth s = Some (snd (authenticate d n p rnd), fst (authenticate d n p rnd)) -> call_auth s (q_verb rq) = (s', q_auth rq) ->
  holds u up (s_auth s') (log ++ [Got r] ++ [Sent true rq]).
Proof.
  intros _ C U B D A. unfold call_auth. rewrite A. destruct (authenticate d n p rnd) as [d0 text] eqn:EA. cbn [fst snd]. destruct (auth_call text d0 (q_verb rq) []) as [d' out] eqn:EC.
  intros X. injection X as <- X. right. exists log, r, rq, [], d, n, p, rnd. rewrite EA. cbn [fst snd sent_requests flat_map map calls]. cbv zeta. rewrite EC. splits; try assumption; try reflexivity.
  - rewrite X. reflexivity.
  - cbn [set_auth s_auth]. unfold advance. cbn [fold_left]. rewrite EC. reflexivity.
Qed.

Lemma creds_note u up w e : creds u up w -> quiet e -> creds u up (note w e).
Proof.
  intros (A & B & C & D & P & H) Q. pose proof (holds_quiet _ _ _ _ _ Q H) as H'. unfold creds. cbn [note w_s w_rand w_log]. splits; try assumption. apply prefixes_snoc; [exact P|]. apply holds_rightly in H'. exact H'.
Qed.
Lemma creds_upd u up w f : creds u up w -> s_uri (f (w_s w)) = s_uri (w_s w) -> s_user (f (w_s w)) = s_user (w_s w) -> s_proto (f (w_s w)) = s_proto (w_s w) -> s_auth (f (w_s w)) = s_auth (w_s w) -> creds u up (upd_s w f).
Proof. intros (A & B & C & D & P & H) E1 E2 E3 E4. unfold creds. cbn [upd_s w_s w_rand w_log]. rewrite E1, E2, E3, E4. splits; assumption. Qed.
Lemma creds_in u up w x : creds u up w -> creds u up (upd_in w x).
Proof. intros H. exact H. Qed.
(* what is written *)
Lemma write_creds u up w s s1 a rq w' o : s_uri s = u -> s_user s = up -> s_proto s <> ProtoHTTP -> Forall bytes_ok (w_rand w) -> prefixes u up (w_log w) -> s_auth s = s_auth s1 ->
  holds u up (s_auth s1) (w_log w ++ [Sent a rq]) -> write (upd_s w (fun _ => s)) a rq = (w', o) -> creds u up w'.
Proof.
  intros A B C D P E H. unfold write. cbn [upd_s w_s w_in w_writes w_listens w_rand w_log]. destruct (Z.eqb_spec (s_proto s) ProtoHTTP); [contradiction|]. cbv zeta.
  assert (G : creds u up (mkW s (w_in w) (tl (w_writes w)) (w_listens w) (w_rand w) (w_log w ++ [Sent a rq]))).
  { unfold creds. cbn [w_s w_rand w_log]. splits; try assumption; [|rewrite E; exact H]. apply prefixes_snoc; [exact P|]. apply holds_rightly in H. exact H. }
  destruct (w_writes w) as [|[e|] ?]; intros X; injection X as <- _; exact G.
Qed.
Lemma call_frame s verb s' out : call_auth s verb = (s', out) -> s_uri s' = s_uri s /\ s_user s' = s_user s /\ s_proto s' = s_proto s /\ s_queue s' = s_queue s.
Proof.
  unfold call_auth. destruct (s_auth s) as [[text d]|]; [|intros E; injection E as <- _; splits; reflexivity].
  destruct (auth_call text d verb []) as [d' x]. intros E. injection E as <- _. splits; reflexivity.
Qed.
Lemma command_creds u up w verb uri hs w' o : creds u up w -> command w verb uri hs = (w', o) -> creds u up w'.
Proof.
  intros T. unfold command. destruct (s_conn (w_s w)); cbn [negb]; [|intros E; injection E as <- _; exact T]. cbv zeta. destruct T as (A & B & C & D & P & H).
  destruct (call_auth (w_s w) verb) as [s1 auth] eqn:CA. pose proof (call_frame _ _ _ _ CA) as (E1 & E2 & E3 & _). unfold enqueue. cbv zeta. cbn [q_verb q_uri q_auth q_header set_cseq s_cseq s_session s_queue].
  apply (write_creds u up w _ s1); cbn [set_queue set_cseq s_uri s_user s_proto s_auth]; try congruence; try assumption. eapply holds_sent; [exact H|]. cbn [q_verb q_auth]. exact CA.
Qed.
Lemma with_conn_creds u up w k w' o : creds u up w -> (s_conn (w_s w) = true -> forall w' o, k (w_s w) = (w', o) -> creds u up w') -> with_conn w k = (w', o) -> creds u up w'.
Proof. intros T K. unfold with_conn. destruct (s_conn (w_s w)); [apply K; reflexivity|]. intros E. injection E as <- _. exact T. Qed.
Lemma setup_from_creds u up todo : forall w i w' o, creds u up w -> setup_from w i todo = (w', o) -> creds u up w'.
Proof.
  induction todo as [|f todo IH]; intros w i w' o T E; cbn [setup_from] in E; [injection E as <- _; exact T|].
  destruct (setup_uri (w_s w) (m_control (fd_media f))) as [uri|e| |] eqn:U; try (injection E as <- _; exact T).
  destruct (command w (bs "SETUP") uri [(bs "Transport", transport_string (fd_transp f))]) as [w1 r1] eqn:K.
  apply (command_creds u up) in K; [|exact T].
  destruct r1 as [x|e| |]; try (injection E as <- _; exact K).
  apply IH in E; [exact E|]. apply creds_upd; [exact K|..]; unfold mark_feed; destruct (nth_error (s_feeds (w_s w1)) i); reflexivity.
Qed.
Lemma setup_creds u up w w' o : creds u up w -> setup w = (w', o) -> creds u up w'.
Proof. intros T. apply setup_from_creds; exact T. Qed.
Lemma keepalive_creds u up w t1 t2 w' o : creds u up w -> keepalive w t1 t2 = (w', o) -> creds u up w'.
Proof.
  intros T. apply with_conn_creds; [exact T|]. intros _ w2 o2. destruct (_ && _); [|intros E; injection E as <- _; exact T].
  destruct (match s_last (w_s w) with None => true | Some l => t1 - l >=? keepAliveTimeout end); [|intros E; injection E as <- _; exact T].
  apply command_creds. apply creds_note; [|exact I]. apply creds_upd; [exact T|reflexivity..].
Qed.
Lemma describe_creds u up w w' o : creds u up w -> describe w = (w', o) -> creds u up w'.
Proof.
  intros T. apply with_conn_creds; [exact T|]. intros _ w2 o2. apply command_creds; exact T.
Qed.
Lemma do_cmd_creds u up w c w' o : creds u up w -> do_cmd w c = (w', o) -> creds u up w'.
Proof.
  intros T. destruct c; cbn [do_cmd]; try (apply describe_creds, T); try (apply setup_creds, T); try (apply keepalive_creds, T);
    (apply with_conn_creds; [exact T|]; intros _ w2 o2; apply command_creds; exact T).
Qed.
Lemma add_sink_creds u up w ch port w' o : creds u up w -> add_sink w ch port = (w', o) -> creds u up w'.
Proof.
  intros T. unfold add_sink. destruct (w_listens w) as [|[e|] l]; intros E; injection E as <- _.
  2: exact T.
  all: apply creds_note; [|exact I]; exact T.
Qed.
Lemma setup_feeds_creds u up todo : forall w cseq v i w' o, creds u up w -> setup_feeds w cseq v i todo = (w', o) -> creds u up w'.
Proof.
  induction todo as [|f todo IH]; intros w cseq v i w' o T E; cbn [setup_feeds] in E; [injection E as <- _; exact T|].
  destruct (fd_cseq f =? cseq); [|eapply IH; eauto]. cbv zeta in E. destruct (transport_setup f v) as [f' o1] eqn:TS.
  assert (T1 : creds u up (upd_s (upd_s w (fun s => set_feedidx s (i64 (s_feedidx s + 1)))) (put_feed i f'))) by exact T.
  destruct o1 as [x|e| |]; try (injection E as <- _; exact T1). destruct (t_tcp (fd_transp f')); [eapply IH; eauto|].
  match type of E with context [add_sink ?a ?b ?p] => destruct (add_sink a b p) as [w1 r1] eqn:E1; apply (add_sink_creds u up) in E1; [|exact T1] end. destruct r1 as [u1|e1| |]; try (injection E as <- _; exact E1).
  match type of E with context [add_sink ?a ?b ?p] => destruct (add_sink a b p) as [w2 r2] eqn:E2; apply (add_sink_creds u up) in E2; [|exact E1] end. destruct r2 as [u2|e2| |]; try (injection E as <- _; exact E2).
  exact (IH _ _ _ _ _ _ E2 E).
Qed.
Lemma notify_creds u up w st : creds u up w -> creds u up (notify w st).
Proof. intros T. apply creds_note; [|exact I]. apply creds_upd; [exact T|reflexivity..]. Qed.
Lemma handle_setup_creds u up w r w' o : creds u up w -> handle_setup w r = (w', o) -> creds u up w'.
Proof.
  intros T. unfold handle_setup.
  assert (F : forall w w' o, creds u up w -> (if s_feedidx (w_s w) >=? zlen (s_feeds (w_s w)) then (note (notify w StageReady) Started, @Ok unit tt) else (w, Ok tt)) = (w', o) -> creds u up w').
  { clear. intros w w' o T E. destruct (s_feedidx (w_s w) >=? zlen (s_feeds (w_s w))); injection E as <- _; [|exact T]. apply creds_note; [apply notify_creds, T|exact I]. }
  destruct (p_code r =? 200).
  - destruct (setup_feeds w (p_cseq r) (header_get (p_header r) (bs "Transport")) 0 (s_feeds (w_s w))) as [w1 r1] eqn:E.
    apply (setup_feeds_creds u up) in E; [|exact T]. destruct r1 as [x|e| |]; intros X; try (injection X as <- _; exact E). apply F in X; assumption.
  - destruct (p_code r =? 401); cbn [negb]; intros X; apply F in X; auto.
Qed.
Lemma react_creds u up w req r w' o : creds u up w -> react w req r = (w', o) -> creds u up w'.
Proof.
  intros T. unfold react. destruct (beq (q_verb req) (bs "OPTIONS")).
  { destruct (s_stage (w_s w) =? StageInit); [|intros E; injection E as <- _; exact T]. apply describe_creds. exact T. }
  destruct (beq (q_verb req) (bs "DESCRIBE")).
  { destruct (p_body r) as [body|]; [|intros E; injection E as <- _; exact T]. destruct (parse_feeds (s_proto (w_s w)) body) as [fs| | |] eqn:P; intros E; try (injection E as <- _; exact T).
    apply (setup_creds u up) in E; [exact E|]. exact T. }
  assert (K : forall st w' o, (if p_code r =? 200 then notify w st else w, @Ok unit tt) = (w', o) -> creds u up w').
  { intros st w2 o2 E. destruct (p_code r =? 200); injection E as <- _; [apply notify_creds, T|exact T]. }
  destruct (beq (q_verb req) (bs "PAUSE")); [apply K|]. destruct (beq (q_verb req) (bs "PLAY")); [apply K|].
  destruct (beq (q_verb req) (bs "TEARDOWN")); [apply K|]. destruct (beq (q_verb req) (bs "SETUP")); [apply handle_setup_creds; assumption|].
  intros E; injection E as <- _; exact T.
Qed.
Lemma retry_creds u up w l r req w' o : creds u up w -> w_log w = l ++ [Got r] -> p_code r = 401 -> retry w req r = (w', o) -> creds u up w'.
Proof.
  intros T L C. unfold retry, authorize. pose proof T as (A & B & PR & D & P & H).
  destruct (new_digest (s_uri (w_s w)) (header_get (p_header r) (bs "WWW-Authenticate"))) as [d| | |] eqn:ND; try (intros E; injection E as <- _; exact T).
  destruct (s_user (w_s w)) as [[user pass]|] eqn:US; [|intros E; injection E as <- _; exact T].
  destruct (authenticate d user pass (hd [] (w_rand w))) as [d' text] eqn:EA. cbn [w_s].
  destruct (call_auth (set_auth (w_s w) (Some (text, d'))) (q_verb req)) as [s2 out2] eqn:CA. pose proof (call_frame _ _ _ _ CA) as (E1 & E2 & E3 & _). cbn [set_auth s_uri s_user s_proto] in E1, E2, E3.
  unfold enqueue. cbv zeta. cbn [q_verb q_uri q_auth q_header]. intros E.
  match type of E with write (upd_s (mkW ?a ?b ?c ?dd ?e ?f) ?g) ?h ?i = _ => apply (write_creds u up (mkW a b c dd e f) _ s2) in E end;
    cbn [set_queue s_uri s_user s_proto s_auth w_rand w_log]; try congruence; try assumption.
  - clear - D. destruct D; [constructor|assumption].
  - rewrite L, <- app_assoc. eapply (holds_again u up (set_auth (w_s w) (Some (text, d'))) s2 l r _ d user pass (hd [] (w_rand w))); try reflexivity; try assumption; try congruence.
    + clear - D. destruct D; [constructor|assumption].
    + rewrite EA. reflexivity.
Qed.
Lemma handle_response_creds u up w r w' o : creds u up w -> handle_response w r = (w', o) -> creds u up w'.
Proof.
  intros T. unfold handle_response. cbv zeta. assert (T1 : creds u up (note w (Got r))) by (apply creds_note; [exact T|exact I]). cbn [note w_s]. destruct (qget (s_queue (w_s w)) (p_cseq r)) as [req|] eqn:Q; [|intros E; injection E as <- _; exact T1].
  assert (T2 : creds u up (upd_s (note w (Got r)) (fun s => set_queue s (qdel (s_queue s) (p_cseq r))))) by (apply creds_upd; [exact T1|reflexivity..]).
  destruct (Z.eqb_spec (p_code r) 401) as [C|_]; [apply (retry_creds u up _ (w_log w)); [exact T2|reflexivity|exact C]|]. apply react_creds. apply creds_upd; [exact T2|..]; unfold learn_session; destruct (beq (header_get (p_header r) (bs "Session")) []); reflexivity.
Qed.
Lemma receive_creds u up w w' o : creds u up w -> receive w = (w', o) -> creds u up w'.
Proof.
  intros T. unfold receive.
  assert (A : forall s0 w' o, match unpack_response s0 with (s1, Ok r) => handle_response (upd_in w s1) r | (s1, Err e) => (upd_in w s1, Err e) | (s1, Panic) => (upd_in w s1, Panic) | (s1, Fuel) => (upd_in w s1, Fuel) end = (w', o) -> creds u up w').
  { intros s0 w2 o2. destruct (unpack_response s0) as [s1 [r|e| |]] eqn:U; try (intros E; injection E as <- _; apply creds_in, T). apply handle_response_creds. apply creds_in, T. }
  destruct (peek 1 (w_in w)) as [s0 [b|e| |]]; try (intros E; injection E as <- _; apply creds_in, T).
  destruct b as [|b0 bt]; [apply A|]. destruct (Z.eq_dec b0 36) as [->|N].
  - destruct bt; [|apply A]. destruct (read_byte (discard 1 s0)) as [s1 [ch|e| |]]; try (intros E; injection E as <- _; apply creds_in, T). destruct (read_uint16 s1) as [s2 [len|e| |]]; try (intros E; injection E as <- _; apply creds_in, T).
    destruct (read_bytes len s2) as [s3 [p|e| |]]; intros E; injection E as <- _; try apply creds_in, T. apply creds_note; [apply creds_in, T|exact I].
  - destruct b0 as [|q|q]; try apply A. repeat (destruct q as [q|q|]; try apply A). contradiction N. reflexivity.
Qed.
Lemma turn_creds u up w t1 t2 w' x : creds u up w -> turn w t1 t2 = (w', x) -> creds u up w'.
Proof.
  intros T. unfold turn. destruct (keepalive w t1 t2) as [w1 k] eqn:K. apply (keepalive_creds u up) in K; [|exact T].
  assert (R : forall w' x, match receive w1 with (w, Ok _) => (w, Again) | (w, Err e) => (w, if is_timeout e then Again else Stop) | (w, Panic) | (w, Fuel) => (w, Crash) end = (w', x) -> creds u up w').
  { intros w2 y. destruct (receive w1) as [w3 o] eqn:E. apply (receive_creds u up) in E; [|exact K]. destruct o; intros X; injection X as <- _; exact E. }
  destruct k as [y|e| |]; try (intros X; injection X as <- _; exact K); [apply R|]. destruct (s_stage (w_s w1) =? StageDone); [intros X; injection X as <- _; exact K|apply R].
Qed.
Lemma run_creds u up es : forall w l w' l', creds u up w -> run (w, l) es = (w', l') -> creds u up w'.
Proof.
  induction es as [|e es IH]; intros w l w' l' T R; cbn [run fold_left] in R; [injection R as <- _; exact T|]. fold (run (step (w, l) e) es) in R. destruct (step (w, l) e) as [w1 l1] eqn:S. apply IH in R; [exact R|]. clear R. unfold step in S.
  destruct l, e as [c|t1 t2]; try (injection S as <- _; exact T).
  1,3: destruct (do_cmd w c) as [w2 o] eqn:D; apply (do_cmd_creds u up) in D; [|exact T]; destruct o; injection S as <- _; exact D.
  destruct (turn w t1 t2) as [w2 x] eqn:D. apply (turn_creds u up) in D; [|exact T]. destruct x; injection S as <- _; exact D.
Qed.
