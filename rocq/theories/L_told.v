(* Lemmas: what a feed says of its stream is what a description said. *)
From Coq Require Import String.
From Verif Require Import Base GoStrings M_conn M_message M_transport M_sdp M_digest M_bits M_sps M_session S_message S_session S_sets L_base L_strings.
From Coq Require Import ZifyBool ZifyNat.

Lemma parse_sprop_from l st b st' o : read_from l st -> In b l -> parse_sprop st b = (st', o) -> read_from l st'.
Proof.
  intros [A B] J. unfold parse_sprop. destruct b as [|h b]; [intros E; injection E as <- _; split; assumption|]. cbv zeta.
  destruct (Z.land h 31 =? 7) eqn:T7; [|destruct (Z.land h 31 =? 8) eqn:T8; [|intros E; injection E as <- _; split; assumption]].
  - unfold parse_sps. destruct (parse_sps_body (new_reader b)) as [rd [x|e| |]] eqn:P; intros E; injection E as <- _; try (split; assumption).
    split; [|exact B]. intros id i. unfold get_sps. cbn [st_sps]. unfold map_set. destruct (id =? sps_id x) eqn:K; [|apply A].
    intros E. exists h, b. split; [exact J|]. split; [lia|]. unfold parse_sps, get_sps. rewrite P. cbn [fst st_sps]. unfold map_set. rewrite K. exact E.
  - unfold parse_pps. destruct (parse_pps_body (st_sps st) (new_reader b)) as [rd [x|e| |]] eqn:P; intros E; injection E as <- _; try (split; assumption).
    split; [exact A|]. intros id j. unfold get_pps. cbn [st_pps]. unfold map_set. destruct (id =? pps_id x) eqn:K; [|apply B].
    intros E. exists h, b, (mkStore (st_sps st) (fun _ => None)). split; [exact J|]. split; [lia|]. split; [reflexivity|]. split; [exact A|].
    unfold parse_pps, get_pps. cbn [st_sps]. rewrite P. cbn [fst st_pps]. unfold map_set. rewrite K. exact E.
Qed.
Lemma parse_sprops_from l bs : incl bs l -> forall st st' o, read_from l st -> parse_sprops st bs = (st', o) -> read_from l st'.
Proof.
  induction bs as [|b bs IH]; intros J st st' o R E; cbn [parse_sprops] in E; [injection E as <- _; exact R|].
  destruct (parse_sprop st b) as [s1 o1] eqn:P. apply (parse_sprop_from l) in P; [|exact R|apply J; left; reflexivity].
  destruct o1; try (injection E as <- _; exact P). eapply IH; [intros x X; apply J; right; exact X|exact P|exact E].
Qed.

Definition sourced (f : feed) : Prop := read_from (m_sprops (fd_media f)) (fd_sets f).
Definition key (f : feed) : media * store := (fd_media f, fd_sets f).
Definition told (w : world) : Prop :=
  (s_feeds (w_s w) = [] \/ sections_of (w_log w) (map fd_media (s_feeds (w_s w)))) /\ Forall sourced (s_feeds (w_s w)).

Lemma key_media fs gs : map key fs = map key gs -> map fd_media fs = map fd_media gs.
Proof. intros E. assert (H : forall l, map fd_media l = map fst (map key l)) by (intros l; rewrite map_map; reflexivity). rewrite !H, E. reflexivity. Qed.
Lemma key_sourced fs gs : map key fs = map key gs -> Forall sourced fs -> Forall sourced gs.
Proof.
  revert gs. induction fs as [|f fs IH]; intros [|g gs] E F; try discriminate; [constructor|]. cbn [map] in E. unfold key at 1 3 in E.
  assert (E1 : fd_media f = fd_media g /\ fd_sets f = fd_sets g /\ map key fs = map key gs) by (injection E; auto). destruct E1 as (E1 & E2 & E3).
  inversion F as [|x y F1 F2]; subst. constructor; [unfold sourced in *; rewrite <- E1, <- E2; exact F1|apply IH; assumption].
Qed.
Lemma key_nil fs gs : map key fs = map key gs -> fs = [] -> gs = [].
Proof. intros E ->. destruct gs; [reflexivity|discriminate]. Qed.
Lemma sections_more log e ms : sections_of log ms -> sections_of (log ++ [e]) ms.
Proof. intros (r & b & J & H). exists r, b. split; [apply in_or_app; left; exact J|exact H]. Qed.
Lemma told_keys w w' : told w -> map key (s_feeds (w_s w)) = map key (s_feeds (w_s w')) -> (w_log w' = w_log w \/ exists e, w_log w' = w_log w ++ [e]) -> told w'.
Proof.
  intros [A B] K L. split; [|exact (key_sourced _ _ K B)]. destruct A as [A|A]; [left; exact (key_nil _ _ K A)|right].
  rewrite <- (key_media _ _ K). destruct L as [->|(e & ->)]; [exact A|apply sections_more; exact A].
Qed.
Lemma told_note w e : told w -> True -> told (note w e).
Proof. intros T _. apply (told_keys w); [exact T|reflexivity|right; exists e; reflexivity]. Qed.
Lemma told_upd w f : told w -> s_feeds (f (w_s w)) = s_feeds (w_s w) -> told (upd_s w f).
Proof. intros T F. apply (told_keys w); [exact T|cbn [upd_s w_s]; rewrite F; reflexivity|left; reflexivity]. Qed.
Lemma told_in w x : told w -> told (upd_in w x).
Proof. intros S. exact S. Qed.
Lemma write_told w a r w' o : told w -> write w a r = (w', o) -> told w'.
Proof.
  intros T. unfold write. destruct (s_proto (w_s w) =? ProtoHTTP); [intros E; injection E as <- _; exact T|]. cbv zeta.
  assert (G : told (mkW (w_s w) (w_in w) (tl (w_writes w)) (w_listens w) (w_rand w) (w_log w ++ [Sent a r]))) by exact (told_note w (Sent a r) T Logic.I).
  destruct (w_writes w) as [|[e|] ?]; intros E; injection E as <- _; exact G.
Qed.
Lemma call_told s verb s' out : call_auth s verb = (s', out) -> s_feeds s' = s_feeds s.
Proof.
  unfold call_auth. destruct (s_auth s) as [[text d]|]; [|intros E; injection E as <- _; reflexivity].
  destruct (auth_call text d verb []) as [d' x]. intros E. injection E as <- _. reflexivity.
Qed.
Lemma command_told w verb uri hs w' o : told w -> command w verb uri hs = (w', o) -> told w'.
Proof.
  intros T. unfold command. destruct (s_conn (w_s w)); cbn [negb]; [|intros E; injection E as <- _; exact T]. cbv zeta.
  destruct (call_auth (w_s w) verb) as [s1 auth] eqn:C. apply call_told in C. unfold enqueue. cbv zeta. cbn [q_verb q_uri q_auth q_header set_cseq s_cseq s_session s_queue].
  apply write_told. apply told_upd; [exact T|exact C].
Qed.
Lemma with_conn_told w k w' o : told w -> (s_conn (w_s w) = true -> forall w' o, k (w_s w) = (w', o) -> told w') -> with_conn w k = (w', o) -> told w'.
Proof. intros T K. unfold with_conn. destruct (s_conn (w_s w)); [apply K; reflexivity|]. intros E. injection E as <- _. exact T. Qed.
Lemma upd_map_key i f g : forall fs, nth_error fs i = Some f -> key g = key f -> map key (upd fs i g) = map key fs.
Proof.
  induction i as [|i IH]; intros [|h fs] N K; try discriminate; cbn [upd map]; [cbn in N; congruence|]. cbn in N. rewrite (IH fs N K). reflexivity.
Qed.
Lemma mark_key w i : map key (s_feeds (w_s w)) = map key (s_feeds (w_s (upd_s w (mark_feed i)))).
Proof.
  unfold mark_feed. cbn [upd_s w_s]. destruct (nth_error (s_feeds (w_s w)) i) as [f|] eqn:N; [|reflexivity]. cbn [set_feeds s_feeds]. symmetry. eapply upd_map_key; [exact N|reflexivity].
Qed.
Lemma setup_from_told todo : forall w i w' o, told w -> setup_from w i todo = (w', o) -> told w'.
Proof.
  induction todo as [|f todo IH]; intros w i w' o T E; cbn [setup_from] in E; [injection E as <- _; exact T|].
  destruct (setup_uri (w_s w) (m_control (fd_media f))) as [uri|e| |] eqn:U; try (injection E as <- _; exact T).
  destruct (command w (bs "SETUP") uri [(bs "Transport", transport_string (fd_transp f))]) as [w1 r1] eqn:K.
  apply command_told in K; [|exact T].
  destruct r1 as [x|e| |]; try (injection E as <- _; exact K).
  apply IH in E; [exact E|]. apply (told_keys w1); [exact K|apply mark_key|left; reflexivity].
Qed.
Lemma setup_told w w' o : told w -> setup w = (w', o) -> told w'.
Proof. intros T. apply setup_from_told; exact T. Qed.
Lemma keepalive_told w t1 t2 w' o : told w -> keepalive w t1 t2 = (w', o) -> told w'.
Proof.
  intros T. apply with_conn_told; [exact T|]. intros _ w2 o2. destruct (_ && _); [|intros E; injection E as <- _; exact T].
  destruct (match s_last (w_s w) with None => true | Some l => t1 - l >=? keepAliveTimeout end); [|intros E; injection E as <- _; exact T].
  apply command_told. apply told_note; [|exact Logic.I]. apply told_upd; [exact T|reflexivity].
Qed.
Lemma describe_told w w' o : told w -> describe w = (w', o) -> told w'.
Proof.
  intros T. apply with_conn_told; [exact T|]. intros _ w2 o2. apply command_told; exact T.
Qed.
Lemma do_cmd_told w c w' o : told w -> do_cmd w c = (w', o) -> told w'.
Proof.
  intros T. destruct c; cbn [do_cmd]; try (apply describe_told, T); try (apply setup_told, T); try (apply keepalive_told, T);
    (apply with_conn_told; [exact T|]; intros _ w2 o2; apply command_told; exact T).
Qed.
Lemma add_sink_told w ch port w' o : told w -> add_sink w ch port = (w', o) -> told w' /\ s_feeds (w_s w') = s_feeds (w_s w).
Proof.
  intros T. unfold add_sink.
  destruct (w_listens w) as [|[e|] l]; intros E; injection E as <- _; (split; [|reflexivity]); (apply (told_keys w); [exact T|reflexivity|]); [right|left|right]; try reflexivity; eexists; reflexivity.
Qed.
Lemma transport_setup_told f v f' o : sourced f -> transport_setup f v = (f', o) -> fd_media f' = fd_media f /\ sourced f'.
Proof.
  intros S. unfold transport_setup. destruct (transport_parse (fd_transp f) v) as [t [e|]]; [intros E; injection E as <- _; split; [reflexivity|exact S]|].
  destruct (parse_sprops (fd_sets f) (m_sprops (fd_media f))) as [st o1] eqn:P. apply (parse_sprops_from (m_sprops (fd_media f))) in P; [|apply incl_refl|exact S].
  destruct o1; intros E; injection E as <- _; (split; [reflexivity|exact P]).
Qed.
Lemma upd_media i f g : forall fs, nth_error (map fd_media fs) i = Some (fd_media f) -> fd_media g = fd_media f -> map fd_media (upd fs i g) = map fd_media fs.
Proof.
  induction i as [|i IH]; intros [|h fs] N K; try discriminate; cbn [upd map]; [cbn in N; congruence|]. cbn in N. rewrite (IH fs N K). reflexivity.
Qed.
Lemma upd_sourced i g : sourced g -> forall fs, Forall sourced fs -> Forall sourced (upd fs i g).
Proof.
  intros S. induction i as [|i IH]; intros [|h fs] F; cbn [upd]; [constructor|inversion F; subst; constructor; assumption|constructor|]. inversion F; subst. constructor; [assumption|apply IH; assumption].
Qed.
Lemma skipn_upd {A} i (x : A) : forall l, skipn (S i) (upd l i x) = skipn (S i) l.
Proof. induction i as [|i IH]; intros [|y l]; try reflexivity. cbn [upd]. rewrite skipn_cons, IH. reflexivity. Qed.
Lemma skipn_step {A} i (l : list A) x r : skipn i l = x :: r -> skipn (S i) l = r /\ nth_error l i = Some x.
Proof. revert l. induction i as [|i IH]; intros [|y l] E; try discriminate; [injection E as -> ->; split; reflexivity|]. rewrite skipn_cons in E. rewrite skipn_cons. cbn [nth_error]. apply IH. exact E. Qed.
Lemma setup_feeds_told todo : forall w cseq v i w' o, told w -> skipn i (s_feeds (w_s w)) = todo -> setup_feeds w cseq v i todo = (w', o) -> told w'.
Proof.
  induction todo as [|f todo IH]; intros w cseq v i w' o T K E; cbn [setup_feeds] in E; [injection E as <- _; exact T|].
  destruct (skipn_step _ _ _ _ K) as [K1 N]. destruct (fd_cseq f =? cseq); [|eapply IH; eauto]. cbv zeta in E. destruct (transport_setup f v) as [f' o1] eqn:TS.
  assert (T1 : told (upd_s (upd_s w (fun s => set_feedidx s (i64 (s_feedidx s + 1)))) (put_feed i f')) /\ skipn (S i) (s_feeds (w_s (upd_s (upd_s w (fun s => set_feedidx s (i64 (s_feedidx s + 1)))) (put_feed i f')))) = todo).
  { destruct T as [A B]. apply transport_setup_told in TS; [|rewrite Forall_forall in B; apply B; eapply nth_error_In; exact N]. destruct TS as [M S].
    unfold put_feed. unfold told. cbn [upd_s w_s w_log set_feeds set_feedidx s_feeds]. split; [|rewrite skipn_upd; exact K1].
    split; [|apply upd_sourced; assumption]. right. destruct A as [A|A]; [rewrite A in N; destruct i; discriminate|].
    rewrite (upd_media i f f'); [exact A| |exact M]. rewrite nth_error_map, N. reflexivity. }
  destruct T1 as [T1 K2]. destruct o1 as [x|e| |]; try (injection E as <- _; exact T1). destruct (t_tcp (fd_transp f')); [eapply IH; eauto|].
  match type of E with context [add_sink ?a ?b ?p] => destruct (add_sink a b p) as [w1 r1] eqn:E1; apply add_sink_told in E1; [|exact T1]; destruct E1 as [E1 Q1] end. destruct r1 as [u1|e1| |]; try (injection E as <- _; exact E1).
  match type of E with context [add_sink ?a ?b ?p] => destruct (add_sink a b p) as [w2 r2] eqn:E2; apply add_sink_told in E2; [|exact E1]; destruct E2 as [E2 Q2] end. destruct r2 as [u2|e2| |]; try (injection E as <- _; exact E2).
  eapply (IH w2); [exact E2| |exact E]. rewrite Q2, Q1. exact K2.
Qed.
Lemma notify_told w st : told w -> told (notify w st).
Proof. intros T. apply told_note; [|exact Logic.I]. apply told_upd; [exact T|reflexivity]. Qed.
Lemma handle_setup_told w r w' o : told w -> handle_setup w r = (w', o) -> told w'.
Proof.
  intros T. unfold handle_setup.
  assert (F : forall w w' o, told w -> (if s_feedidx (w_s w) >=? zlen (s_feeds (w_s w)) then (note (notify w StageReady) Started, @Ok unit tt) else (w, Ok tt)) = (w', o) -> told w').
  { clear. intros w w' o T E. destruct (s_feedidx (w_s w) >=? zlen (s_feeds (w_s w))); injection E as <- _; [|exact T]. apply told_note; [apply notify_told, T|exact Logic.I]. }
  destruct (p_code r =? 200).
  - destruct (setup_feeds w (p_cseq r) (header_get (p_header r) (bs "Transport")) 0 (s_feeds (w_s w))) as [w1 r1] eqn:E.
    apply setup_feeds_told in E; [|exact T|reflexivity]. destruct r1 as [x|e| |]; intros X; try (injection X as <- _; exact E). apply F in X; assumption.
  - destruct (p_code r =? 401); cbn [negb]; intros X; apply F in X; auto.
Qed.
Lemma make_sourced proto l : forall i, Forall sourced (make_feeds proto i l).
Proof. induction l as [|m l IH]; intros i; [constructor|]. cbn [make_feeds]. constructor; [split; intros; discriminate|apply IH]. Qed.
Lemma make_media proto l : forall i, map fd_media (make_feeds proto i l) = l.
Proof. induction l as [|m l IH]; intros i; [reflexivity|]. cbn [make_feeds map fd_media]. rewrite IH. reflexivity. Qed.
Lemma react_told w req r w' o : told w -> In (Got r) (w_log w) -> react w req r = (w', o) -> told w'.
Proof.
  intros T G. unfold react. destruct (beq (q_verb req) (bs "OPTIONS")).
  { destruct (s_stage (w_s w) =? StageInit); [|intros E; injection E as <- _; exact T]. apply describe_told. exact T. }
  destruct (beq (q_verb req) (bs "DESCRIBE")).
  { destruct (p_body r) as [body|] eqn:PB; [|intros E; injection E as <- _; exact T]. destruct (parse_feeds (s_proto (w_s w)) body) as [fs| | |] eqn:P; intros E; try (injection E as <- _; exact T).
    apply setup_told in E; [exact E|]. unfold parse_feeds in P. destruct (sdp_parse body) as [ms| | |] eqn:D; cbn [bind] in P; try discriminate. injection P as <-.
    split; cbn [upd_s w_s w_log set_feeds s_feeds]; [|apply make_sourced]. right. exists r, body. rewrite make_media. auto. }
  assert (K : forall st w' o, (if p_code r =? 200 then notify w st else w, @Ok unit tt) = (w', o) -> told w').
  { intros st w2 o2 E. destruct (p_code r =? 200); injection E as <- _; [apply notify_told, T|exact T]. }
  destruct (beq (q_verb req) (bs "PAUSE")); [apply K|]. destruct (beq (q_verb req) (bs "PLAY")); [apply K|].
  destruct (beq (q_verb req) (bs "TEARDOWN")); [apply K|]. destruct (beq (q_verb req) (bs "SETUP")); [apply handle_setup_told; assumption|].
  intros E; injection E as <- _; exact T.
Qed.
Lemma retry_told w req r w' o : told w -> retry w req r = (w', o) -> told w'.
Proof.
  intros T. unfold retry, authorize.
  destruct (new_digest (s_uri (w_s w)) (header_get (p_header r) (bs "WWW-Authenticate"))) as [d| | |]; try (intros E; injection E as <- _; exact T).
  destruct (s_user (w_s w)) as [[user pass]|]; [|intros E; injection E as <- _; exact T].
  destruct (authenticate d user pass (hd [] (w_rand w))) as [d' text]. cbn [w_s].
  destruct (call_auth (set_auth (w_s w) (Some (text, d'))) (q_verb req)) as [s2 out2] eqn:CA. apply call_told in CA. cbn [set_auth s_feeds] in *.
  unfold enqueue. cbv zeta. apply write_told. apply (told_keys w); [exact T|cbn [upd_s w_s set_queue set_cseq s_feeds]; rewrite CA; reflexivity|left; reflexivity].
Qed.
Lemma handle_response_told w r w' o : told w -> handle_response w r = (w', o) -> told w'.
Proof.
  intros T. unfold handle_response. cbv zeta. assert (T1 : told (note w (Got r))) by (apply told_note; [exact T|exact Logic.I]). cbn [note w_s]. destruct (qget (s_queue (w_s w)) (p_cseq r)) as [req|] eqn:Q; [|intros E; injection E as <- _; exact T1].
  assert (T2 : told (upd_s (note w (Got r)) (fun s => set_queue s (qdel (s_queue s) (p_cseq r))))) by (apply told_upd; [exact T1|reflexivity]).
  destruct (p_code r =? 401); [apply retry_told; assumption|]. apply react_told; [|cbn [upd_s note w_log]; apply in_or_app; right; left; reflexivity]. apply told_upd; [exact T2|]. unfold learn_session.
  destruct (beq (header_get (p_header r) (bs "Session")) []); reflexivity.
Qed.
Lemma receive_told w w' o : told w -> receive w = (w', o) -> told w'.
Proof.
  intros T. unfold receive.
  assert (A : forall s0 w' o, match unpack_response s0 with (s1, Ok r) => handle_response (upd_in w s1) r | (s1, Err e) => (upd_in w s1, Err e) | (s1, Panic) => (upd_in w s1, Panic) | (s1, Fuel) => (upd_in w s1, Fuel) end = (w', o) -> told w').
  { intros s0 w2 o2. destruct (unpack_response s0) as [s1 [r|e| |]] eqn:U; try (intros E; injection E as <- _; apply told_in, T). apply handle_response_told. apply told_in, T. }
  destruct (peek 1 (w_in w)) as [s0 [b|e| |]]; try (intros E; injection E as <- _; apply told_in, T).
  destruct b as [|b0 bt]; [apply A|]. destruct (Z.eq_dec b0 36) as [->|N].
  - destruct bt; [|apply A]. destruct (read_byte (discard 1 s0)) as [s1 [ch|e| |]]; try (intros E; injection E as <- _; apply told_in, T). destruct (read_uint16 s1) as [s2 [len|e| |]]; try (intros E; injection E as <- _; apply told_in, T).
    destruct (read_bytes len s2) as [s3 [p|e| |]]; intros E; injection E as <- _; try apply told_in, T. apply told_note; [apply told_in, T|exact Logic.I].
  - destruct b0 as [|q|q]; try apply A. repeat (destruct q as [q|q|]; try apply A). contradiction N. reflexivity.
Qed.
Lemma turn_told w t1 t2 w' x : told w -> turn w t1 t2 = (w', x) -> told w'.
Proof.
  intros T. unfold turn. destruct (keepalive w t1 t2) as [w1 k] eqn:K. apply keepalive_told in K; [|exact T].
  assert (R : forall w' x, match receive w1 with (w, Ok _) => (w, Again) | (w, Err e) => (w, if is_timeout e then Again else Stop) | (w, Panic) | (w, Fuel) => (w, Crash) end = (w', x) -> told w').
  { intros w2 y. destruct (receive w1) as [w3 o] eqn:E. apply receive_told in E; [|exact K]. destruct o; intros X; injection X as <- _; exact E. }
  destruct k as [y|e| |]; try (intros X; injection X as <- _; exact K); [apply R|]. destruct (s_stage (w_s w1) =? StageDone); [intros X; injection X as <- _; exact K|apply R].
Qed.
Lemma run_told es : forall w l w' l', told w -> run (w, l) es = (w', l') -> told w'.
Proof.
  induction es as [|e es IH]; intros w l w' l' T R; cbn [run fold_left] in R; [injection R as <- _; exact T|]. fold (run (step (w, l) e) es) in R. destruct (step (w, l) e) as [w1 l1] eqn:S. apply IH in R; [exact R|]. clear R. unfold step in S.
  destruct l, e as [c|t1 t2]; try (injection S as <- _; exact T).
  1,3: destruct (do_cmd w c) as [w2 o] eqn:D; apply do_cmd_told in D; [|exact T]; destruct o; injection S as <- _; exact D.
  destruct (turn w t1 t2) as [w2 x] eqn:D. apply turn_told in D; [|exact T]. destruct x; injection S as <- _; exact D.
Qed.
Lemma told_start w : s_feeds (w_s w) = [] -> told w.
Proof. intros F. unfold told. rewrite F. split; [left; reflexivity|constructor]. Qed.
Lemma sets_none f id : m_sprops (fd_media f) = [] -> sourced f -> get_sps (fd_sets f) id = None /\ get_pps (fd_sets f) id = None.
Proof.
  unfold sourced. intros -> [A B]. split.
  - destruct (get_sps (fd_sets f) id) as [i|] eqn:E; [|reflexivity]. destruct (A id i E) as (h & b & J & _). destruct J.
  - destruct (get_pps (fd_sets f) id) as [i|] eqn:E; [|reflexivity]. destruct (B id i E) as (h & b & st & J & _). destruct J.
Qed.

(* a session for the examples *)
Definition told_sdp : bytes :=
  bs "m=video 0 RTP/AVP 96" ++ [10] ++ bs "a=control:t1" ++ [10] ++ bs "a=fmtp:96 packetization-mode=1;sprop-parameter-sets=Z2QAKKzZQHgCJ+VA" ++ [10] ++
  bs "m=video 0 RTP/AVP 97" ++ [10] ++ bs "a=control:t2" ++ [10].
Definition told_input : stream :=
  sent (response_text (bs "RTSP/1.0") 200 (bs "OK") [mkField (bs "CSeq") [32] (bs "1"); mkField (bs "Content-Length") [32] (itoa (zlen told_sdp))] told_sdp ++
        response_text (bs "RTSP/1.0") 200 (bs "OK") [mkField (bs "CSeq") [32] (bs "2"); mkField (bs "Transport") [32] (bs "RTP/AVP/TCP;interleaved=0-1")] [] ++
        response_text (bs "RTSP/1.0") 200 (bs "OK") [mkField (bs "CSeq") [32] (bs "3"); mkField (bs "Transport") [32] (bs "RTP/AVP/TCP;interleaved=2-3")] []).
Definition told_world (more : bytes) : world := mkW (dialled ProtoTCP None (bs "rtsp://h/s")) (told_input ++ sent more) [] [] [] [].
