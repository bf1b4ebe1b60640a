(* Lemmas: a session whose stage is not the first asks for no description of its own accord. *)
From Coq Require Import String.
From Verif Require Import Base GoStrings M_conn M_message M_transport M_sdp M_digest M_sps M_session L_base L_strings.
From Coq Require Import ZifyBool.

Definition later (r : request) : Prop := q_verb r <> bs "DESCRIBE" /\ q_verb r <> bs "SETUP".
Definition eff_idle (e : effect) : Prop := match e with Sent _ r => later r | Notified st => st <> StageReady | _ => True end.
Definition ses_idle (s : session) : Prop := s_stage s <> StageInit /\ Forall (fun e : Z * request => later (snd e)) (s_queue s).
Definition idle (old : list effect) (w : world) : Prop := ses_idle (w_s w) /\ exists more, w_log w = old ++ more /\ Forall eff_idle more.

Lemma idle_note old w e : idle old w -> eff_idle e -> idle old (note w e).
Proof. intros [S (m & L & F)] E. split; [exact S|]. exists (m ++ [e]). cbn [note w_log]. rewrite L, app_assoc. split; [reflexivity|]. apply Forall_app. split; [exact F|]. constructor; [exact E|constructor]. Qed.
Lemma idle_upd old w f : idle old w -> ses_idle (f (w_s w)) -> idle old (upd_s w f).
Proof. intros [S L] F. split; [exact F|exact L]. Qed.
Lemma idle_in old w x : idle old w -> idle old (upd_in w x).
Proof. intros [S L]. split; assumption. Qed.
Lemma qset_idle q k r : Forall (fun e : Z * request => later (snd e)) q -> later r -> Forall (fun e : Z * request => later (snd e)) (qset q k r).
Proof. intros Q R. constructor; [exact R|]. unfold qdel. rewrite Forall_forall in *. intros e I. apply filter_In in I. apply Q. tauto. Qed.
Lemma write_idle old w a r w' o : idle old w -> later r -> write w a r = (w', o) -> idle old w'.
Proof.
  intros T R. unfold write. destruct (s_proto (w_s w) =? ProtoHTTP); [intros E; injection E as <- _; exact T|]. cbv zeta.
  assert (G : idle old (mkW (w_s w) (w_in w) (tl (w_writes w)) (w_listens w) (w_rand w) (w_log w ++ [Sent a r]))).
  { destruct T as (S & m & L & F). split; [exact S|]. exists (m ++ [Sent a r]). cbn [w_log]. rewrite L, app_assoc. split; [reflexivity|]. apply Forall_app. split; [exact F|]. constructor; [exact R|constructor]. }
  destruct (w_writes w) as [|[e|] ?]; intros E; injection E as <- _; exact G.
Qed.
Lemma call_idle s verb s' out : call_auth s verb = (s', out) -> s_stage s' = s_stage s /\ s_queue s' = s_queue s.
Proof.
  unfold call_auth. destruct (s_auth s) as [[text d]|]; [|intros E; injection E as <- _; split; reflexivity].
  destruct (auth_call text d verb []) as [d' x]. intros E. injection E as <- _. split; reflexivity.
Qed.
Lemma command_idle old w verb uri hs w' o : idle old w ->
  (forall n a i, later (mkReq verb n uri a i (fold_left (fun h e => header_set h (fst e) (snd e)) hs []))) -> command w verb uri hs = (w', o) -> idle old w'.
Proof.
  intros T K. unfold command. destruct (s_conn (w_s w)); cbn [negb]; [|intros E; injection E as <- _; exact T]. cbv zeta. destruct T as ((SU & SQ) & L).
  destruct (call_auth (w_s w) verb) as [s1 auth] eqn:C. apply call_idle in C. destruct C as (EU & EQ). unfold enqueue. cbv zeta. cbn [q_verb q_uri q_auth q_header set_cseq s_cseq s_session s_queue].
  apply write_idle; [|apply K]. split; [|exact L]. cbn [upd_s w_s]. split; cbn [set_queue set_cseq s_stage s_queue]; [congruence|]. apply qset_idle; [rewrite EQ; exact SQ|apply K].
Qed.
Lemma with_conn_idle old w k w' o : idle old w -> (s_conn (w_s w) = true -> forall w' o, k (w_s w) = (w', o) -> idle old w') -> with_conn w k = (w', o) -> idle old w'.
Proof. intros T K. unfold with_conn. destruct (s_conn (w_s w)); [apply K; reflexivity|]. intros E. injection E as <- _. exact T. Qed.
Lemma keepalive_idle old w t1 t2 w' o : idle old w -> keepalive w t1 t2 = (w', o) -> idle old w'.
Proof.
  intros T. apply with_conn_idle; [exact T|]. intros _ w2 o2. destruct (_ && _); [|intros E; injection E as <- _; exact T].
  destruct (match s_last (w_s w) with None => true | Some l => t1 - l >=? keepAliveTimeout end); [|intros E; injection E as <- _; exact T].
  apply command_idle.
  - apply idle_note; [|exact I]. apply idle_upd; [exact T|]. exact (proj1 T).
  - intros n a i. split; discriminate.
Qed.
Lemma do_cmd_idle old w c w' o : c <> CDescribe -> c <> CSetup -> idle old w -> do_cmd w c = (w', o) -> idle old w'.
Proof.
  intros N1 N2 T. destruct c; cbn [do_cmd]; try congruence; try (apply keepalive_idle, T);
    (apply with_conn_idle; [exact T|]; intros _ w2 o2; apply command_idle; [exact T|]; intros n a i; split; discriminate).
Qed.
Lemma notify_idle old w st : st <> StageInit -> st <> StageReady -> idle old w -> idle old (notify w st).
Proof. intros N N1 T. apply idle_note; [|exact N1]. apply idle_upd; [exact T|]. split; [exact N|]. exact (proj2 (proj1 T)). Qed.
Lemma react_idle old w req r w' o : later req -> idle old w -> react w req r = (w', o) -> idle old w'.
Proof.
  intros [N1 N2] T. unfold react. destruct (beq (q_verb req) (bs "OPTIONS")).
  { destruct (Z.eqb_spec (s_stage (w_s w)) StageInit) as [E0|_]; [destruct T as ((S & _) & _); contradiction|intros E; injection E as <- _; exact T]. }
  destruct (beq (q_verb req) (bs "DESCRIBE")) eqn:B; [apply beq_eq in B; contradiction|].
  assert (K : forall st w' o, st <> StageInit -> st <> StageReady -> (if p_code r =? 200 then notify w st else w, @Ok unit tt) = (w', o) -> idle old w').
  { intros st w2 o2 NS NR E. destruct (p_code r =? 200); injection E as <- _; [apply notify_idle; assumption|exact T]. }
  destruct (beq (q_verb req) (bs "PAUSE")); [apply K; discriminate|]. destruct (beq (q_verb req) (bs "PLAY")); [apply K; discriminate|].
  destruct (beq (q_verb req) (bs "TEARDOWN")); [apply K; discriminate|]. destruct (beq (q_verb req) (bs "SETUP")) eqn:B2; [apply beq_eq in B2; contradiction|].
  intros E; injection E as <- _; exact T.
Qed.
Lemma retry_idle old w req r w' o : later req -> idle old w -> retry w req r = (w', o) -> idle old w'.
Proof.
  intros RQ T. unfold retry, authorize.
  destruct (new_digest (s_uri (w_s w)) (header_get (p_header r) (bs "WWW-Authenticate"))) as [d| | |]; try (intros E; injection E as <- _; exact T).
  destruct (s_user (w_s w)) as [[user pass]|]; [|intros E; injection E as <- _; exact T].
  destruct (authenticate d user pass (hd [] (w_rand w))) as [d' text]. cbn [w_s]. destruct T as ((SU & SQ) & L).
  destruct (call_auth (set_auth (w_s w) (Some (text, d'))) (q_verb req)) as [s2 out2] eqn:CA. apply call_idle in CA. destruct CA as (EU & EQ). cbn [set_auth s_stage s_queue] in *.
  unfold enqueue. cbv zeta. cbn [q_verb q_uri q_auth q_header].
  apply write_idle; [|exact RQ]. split; [|exact L]. cbn [upd_s w_s]. split; cbn [set_queue s_stage s_queue]; [congruence|]. apply qset_idle; [rewrite EQ; exact SQ|exact RQ].
Qed.
Lemma handle_response_idle old w r w' o : idle old w -> handle_response w r = (w', o) -> idle old w'.
Proof.
  intros T. unfold handle_response. cbv zeta. assert (T1 : idle old (note w (Got r))) by (apply idle_note; [exact T|exact I]). cbn [note w_s]. destruct (qget (s_queue (w_s w)) (p_cseq r)) as [req|] eqn:Q; [|intros E; injection E as <- _; exact T1].
  pose proof T as ((SU & SQ) & _).
  assert (T2 : idle old (upd_s (note w (Got r)) (fun s => set_queue s (qdel (s_queue s) (p_cseq r))))).
  { apply idle_upd; [exact T1|]. split; [exact SU|]. cbn [note w_s set_queue s_queue]. unfold qdel. rewrite Forall_forall in *. intros e I. apply filter_In in I. apply SQ. tauto. }
  assert (RQ : later req).
  { clear - Q SQ. induction SQ as [|[k x] q X SQ IH]; cbn [qget] in Q; [discriminate|]. destruct (k =? p_cseq r); [injection Q as <-; exact X|auto]. }
  destruct (p_code r =? 401); [apply retry_idle; assumption|]. apply react_idle; [exact RQ|]. apply idle_upd; [exact T2|]. destruct T2 as ((A1 & A2) & _). unfold learn_session.
  destruct (beq (header_get (p_header r) (bs "Session")) []); split; assumption.
Qed.
Lemma receive_idle old w w' o : idle old w -> receive w = (w', o) -> idle old w'.
Proof.
  intros T. unfold receive.
  assert (A : forall s0 w' o, match unpack_response s0 with (s1, Ok r) => handle_response (upd_in w s1) r | (s1, Err e) => (upd_in w s1, Err e) | (s1, Panic) => (upd_in w s1, Panic) | (s1, Fuel) => (upd_in w s1, Fuel) end = (w', o) -> idle old w').
  { intros s0 w2 o2. destruct (unpack_response s0) as [s1 [r|e| |]] eqn:U; try (intros E; injection E as <- _; apply idle_in, T). apply handle_response_idle. apply idle_in, T. }
  destruct (peek 1 (w_in w)) as [s0 [b|e| |]]; try (intros E; injection E as <- _; apply idle_in, T).
  destruct b as [|b0 bt]; [apply A|]. destruct (Z.eq_dec b0 36) as [->|N].
  - destruct bt; [|apply A]. destruct (read_byte (discard 1 s0)) as [s1 [ch|e| |]]; try (intros E; injection E as <- _; apply idle_in, T). destruct (read_uint16 s1) as [s2 [len|e| |]]; try (intros E; injection E as <- _; apply idle_in, T).
    destruct (read_bytes len s2) as [s3 [p|e| |]]; intros E; injection E as <- _; try apply idle_in, T. apply idle_note; [apply idle_in, T|exact I].
  - destruct b0 as [|q|q]; try apply A. repeat (destruct q as [q|q|]; try apply A). contradiction N. reflexivity.
Qed.
Lemma turn_idle old w t1 t2 w' x : idle old w -> turn w t1 t2 = (w', x) -> idle old w'.
Proof.
  intros T. unfold turn. destruct (keepalive w t1 t2) as [w1 k] eqn:K. apply (keepalive_idle old) in K; [|exact T].
  assert (R : forall w' x, match receive w1 with (w, Ok _) => (w, Again) | (w, Err e) => (w, if is_timeout e then Again else Stop) | (w, Panic) | (w, Fuel) => (w, Crash) end = (w', x) -> idle old w').
  { intros w2 y. destruct (receive w1) as [w3 o] eqn:E. apply (receive_idle old) in E; [|exact K]. destruct o; intros X; injection X as <- _; exact E. }
  destruct k as [y|e| |]; try (intros X; injection X as <- _; exact K); [apply R|]. destruct (s_stage (w_s w1) =? StageDone); [intros X; injection X as <- _; exact K|apply R].
Qed.
(* the application asks for nothing of the kind either *)
Definition lets_be (e : event) : Prop := match e with App CDescribe | App CSetup => False | _ => True end.
Lemma run_idle old es : Forall lets_be es -> forall w l w' l', idle old w -> run (w, l) es = (w', l') -> idle old w'.
Proof.
  induction 1 as [|e es B _ IH]; intros w l w' l' T R; cbn [run fold_left] in R; [injection R as <- _; exact T|]. fold (run (step (w, l) e) es) in R. destruct (step (w, l) e) as [w1 l1] eqn:S. apply IH in R; [exact R|]. clear R. unfold step in S.
  destruct l, e as [c|t1 t2]; try (injection S as <- _; exact T).
  1,3: destruct (do_cmd w c) as [w2 o] eqn:D; apply (do_cmd_idle old) in D; [|intros ->; exact B|intros ->; exact B|exact T]; destruct o; injection S as <- _; exact D.
  destruct (turn w t1 t2) as [w2 x] eqn:D. apply (turn_idle old) in D; [|exact T]. destruct x; injection S as <- _; exact D.
Qed.
