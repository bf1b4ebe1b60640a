(* How often a stage is announced. *)
From Coq Require Import String.
From Verif Require Import Base GoStrings M_conn M_message M_transport M_sdp M_digest M_session S_session S_tally L_base L_session L_flow L_serve.
From Coq Require Import ZifyBool.
Local Opaque digest_response.

Definition one_if (b : bool) : Z := if b then 1 else 0.
Lemma count_app {A} (f : A -> bool) a b : zlen (filter f (a ++ b)) = zlen (filter f a) + zlen (filter f b).
Proof. rewrite filter_app. apply L_serve.zlen_app. Qed.
Lemma count_one {A} (f : A -> bool) x : zlen (filter f [x]) = one_if (f x).
Proof. cbn. destruct (f x); reflexivity. Qed.

(* the requests with this verb that wait for an answer *)
Definition qcount (v : bytes) (q : list (Z * request)) : Z := zlen (filter (fun e => beq (q_verb (snd e)) v) q).
Lemma qcount_cons v k r q : qcount v ((k, r) :: q) = one_if (beq (q_verb r) v) + qcount v q.
Proof. unfold qcount. cbn [filter snd]. unfold one_if. destruct (beq (q_verb r) v); rewrite ?zlen_cons; lia. Qed.
Lemma qcount_del v q k : qcount v (qdel q k) <= qcount v q.
Proof. induction q as [|[a r] q IH]; cbn [qdel filter]; [lia|]. unfold qdel in IH. unfold one_if in *. destruct (negb _); rewrite ?qcount_cons; unfold one_if; destruct (beq (q_verb r) v); lia. Qed.
Lemma qcount_got v q k r : qget q k = Some r -> qcount v (qdel q k) + one_if (beq (q_verb r) v) <= qcount v q.
Proof.
  induction q as [|[a x] q IH]; cbn [qget qdel filter fst]; [discriminate|]. destruct (a =? k) eqn:E; cbn [negb].
  - intros [= ->]. pose proof (qcount_del v q k) as Q. unfold qdel in Q. rewrite qcount_cons. lia.
  - intros G. specialize (IH G). unfold qdel in IH. rewrite !qcount_cons. lia.
Qed.
Lemma qcount_set v q k r : qcount v (qset q k r) <= qcount v q + one_if (beq (q_verb r) v).
Proof. unfold qset. rewrite qcount_cons. pose proof (qcount_del v q k). lia. Qed.

(* the waiting and the announced, less the asked *)
Definition tally (v : bytes) (n : Z) (w : world) : Z := qcount v (s_queue (w_s w)) + times_announced n (w_log w) - times_asked v (w_log w).
Lemma tally_same v n w w' : s_queue (w_s w') = s_queue (w_s w) -> w_log w' = w_log w -> tally v n w' = tally v n w.
Proof. intros Q L. unfold tally. rewrite Q, L. reflexivity. Qed.
Lemma tally_note v n w e : tally v n (note w e) = tally v n w + match e with Notified m => one_if (m =? n) | Sent false r => - one_if (beq (q_verb r) v) | _ => 0 end.
Proof.
  unfold tally, note, times_announced, times_asked. cbn [w_s w_log]. rewrite !count_app, !count_one. unfold one_if. destruct e as [[|] r| | | | | |]; try lia.
Qed.

Lemma command_tally v n w verb u hs w' o : s_proto (w_s w) <> ProtoHTTP -> command w verb u hs = (w', o) -> tally v n w' <= tally v n w.
Proof.
  intros P. unfold command. destruct (s_conn (w_s w)) eqn:C; cbn [negb]; [|intros E; inversion E; subst; lia].
  cbv zeta. destruct (call_auth (w_s w) verb) as [s1 auth] eqn:A. destruct (call_auth_frame _ _ _ _ A) as (a & -> & _).
  unfold enqueue. cbv zeta beta iota. set (r := mkReq _ _ _ _ _ _). unfold write, upd_s. cbn [w_s w_in w_writes w_listens w_rand w_log set_queue set_cseq set_auth s_proto].
  destruct (s_proto (w_s w) =? ProtoHTTP) eqn:EP; [lia|]. cbv zeta. intros E.
  assert (w_log w' = w_log w ++ [Sent false r] /\ exists k, s_queue (w_s w') = qset (s_queue (w_s w)) k r) as (L & k & Q) by (destruct (w_writes w) as [|[e|] ?]; inversion E; split; try reflexivity; eexists; reflexivity).
  unfold tally, times_announced, times_asked. rewrite L, Q, !count_app, !count_one. pose proof (qcount_set v (s_queue (w_s w)) k r). unfold one_if in *. cbn iota. lia.
Qed.
Lemma command_proto w verb u hs w' o : s_proto (w_s w) <> ProtoHTTP -> command w verb u hs = (w', o) -> s_proto (w_s w') = s_proto (w_s w).
Proof. intros P E. apply (command_prims _ _ _ _ _ _ None) in E; [|exact P]. apply prims_proto in E. apply E. Qed.
Lemma with_conn_tally v n w k w' o : (forall w' o, k (w_s w) = (w', o) -> tally v n w' <= tally v n w) -> with_conn w k = (w', o) -> tally v n w' <= tally v n w.
Proof. unfold with_conn. intros K. destruct (s_conn (w_s w)); [apply K|]. intros E. inversion E; subst. lia. Qed.
Lemma setup_from_tally v n todo : forall w i w' o, s_proto (w_s w) <> ProtoHTTP -> setup_from w i todo = (w', o) -> tally v n w' <= tally v n w.
Proof.
  induction todo as [|f todo IH]; intros w i w' o P E; cbn [setup_from] in E; [inversion E; subst; lia|].
  destruct (setup_uri (w_s w) (m_control (fd_media f))) as [uri|e| |]; try (inversion E; subst; lia).
  destruct (command w (bs "SETUP") uri _) as [w1 o1] eqn:EC. pose proof (command_proto _ _ _ _ _ _ P EC) as P1. apply (command_tally v n) in EC; [|exact P].
  destruct o1 as [x|e| |]; try (inversion E; subst; exact EC). apply IH in E.
  - rewrite (tally_same v n w1 (upd_s w1 (mark_feed i))) in E; [lia| |reflexivity]. unfold upd_s, mark_feed. cbn [w_s]. destruct (nth_error _ _); reflexivity.
  - unfold upd_s, mark_feed. cbn [w_s]. destruct (nth_error _ _); cbn [set_feeds s_proto]; congruence.
Qed.
Lemma keepalive_tally v n w t1 t2 w' o : s_proto (w_s w) <> ProtoHTTP -> keepalive w t1 t2 = (w', o) -> tally v n w' <= tally v n w.
Proof.
  intros P. unfold keepalive. apply with_conn_tally. intros w1 o1.
  destruct (_ && _ && _ && _); [|intros E; inversion E; subst; lia]. destruct (match s_last (w_s w) with None => true | Some l => t1 - l >=? keepAliveTimeout end); [|intros E; inversion E; subst; lia].
  intros E. apply (command_tally v n) in E; [|exact P]. rewrite tally_note in E. change (tally v n w1 <= tally v n w + 0) in E. lia.
Qed.
Lemma do_cmd_tally v n w c w' o : s_proto (w_s w) <> ProtoHTTP -> do_cmd w c = (w', o) -> tally v n w' <= tally v n w.
Proof.
  intros P. destruct c; cbn [do_cmd]; try (apply with_conn_tally; intros ? ?; apply command_tally; exact P); [apply setup_from_tally; exact P|apply keepalive_tally; exact P].
Qed.

Lemma add_sink_tally v n w ch port w' o : add_sink w ch port = (w', o) -> tally v n w' = tally v n w.
Proof.
  unfold add_sink. destruct (w_listens w) as [|[e|] l]; intros E; inversion E; subst; rewrite ?tally_note, ?Z.add_0_r; apply tally_same; reflexivity.
Qed.
Lemma setup_feeds_tally v n todo : forall w cseq x i w' o, setup_feeds w cseq x i todo = (w', o) -> tally v n w' = tally v n w.
Proof.
  induction todo as [|f todo IH]; intros w cseq x i w' o E; cbn [setup_feeds] in E; [inversion E; subst; reflexivity|].
  destruct (fd_cseq f =? cseq); [|eapply IH; exact E]. cbv zeta in E.
  assert (P1 : forall f', tally v n (upd_s (upd_s w (fun s => set_feedidx s (i64 (s_feedidx s + 1)))) (put_feed i f')) = tally v n w) by (intros; apply tally_same; reflexivity).
  destruct (transport_setup f x) as [f' [u|e| |]]; try (inversion E; subst; apply P1).
  destruct (t_tcp (fd_transp f')); [apply IH in E; rewrite E; apply P1|].
  match type of E with context [add_sink ?a ?b ?p] => destruct (add_sink a b p) as [w1 [u1|e1| |]] eqn:E1; apply (add_sink_tally v n) in E1 end; rewrite P1 in E1; try (inversion E; subst; exact E1).
  match type of E with context [add_sink ?a ?b ?p] => destruct (add_sink a b p) as [w2 [u2|e2| |]] eqn:E2; apply (add_sink_tally v n) in E2 end; try (inversion E; subst; congruence).
  apply IH in E. congruence.
Qed.

Lemma asks_verb v n : asks_for v n -> forall m, beq (verb_of m) v = true -> 1 <= m <= 4 -> m = n.
Proof. intros A m B M. assert (m = 1 \/ m = 2 \/ m = 3 \/ m = 4) as [-> | [-> | [-> | ->]]] by lia; destruct A as [A|[A|[A|A]]]; injection A as -> ->; try reflexivity; discriminate B. Qed.
Lemma asks_stage v n : asks_for v n -> v = verb_of n /\ 1 <= n <= 4.
Proof. intros [A|[A|[A|A]]]; injection A as -> ->; split; try reflexivity; lia. Qed.

Lemma notify_tally v n w st verb : asks_for v n -> verb = verb_of st -> tally v n (notify w st) <= tally v n w + one_if (beq verb v).
Proof.
  intros A ->. unfold notify. rewrite tally_note. change (tally v n (upd_s w (fun s => set_stage s st))) with (tally v n w). unfold one_if. destruct (st =? n) eqn:E; [|destruct (beq _ v); lia].
  destruct (asks_stage _ _ A) as [-> _]. replace st with n by lia. rewrite beq_refl. lia.
Qed.
Lemma handle_setup_tally v n w r w' o : asks_for v n -> handle_setup w r = (w', o) -> tally v n w' <= tally v n w + one_if (beq (bs "SETUP") v).
Proof.
  intros A. unfold handle_setup.
  assert (F : forall w1, tally v n w1 = tally v n w -> (if s_feedidx (w_s w1) >=? zlen (s_feeds (w_s w1)) then (note (notify w1 StageReady) Started, @Ok unit tt) else (w1, Ok tt)) = (w', o) -> tally v n w' <= tally v n w + one_if (beq (bs "SETUP") v)).
  { intros w1 T E. pose proof (notify_tally v n w1 StageReady (bs "SETUP") A eq_refl) as K. destruct (s_feedidx (w_s w1) >=? zlen (s_feeds (w_s w1))); inversion E; subst; rewrite ?tally_note; unfold one_if in *; destruct (beq (bs "SETUP") v); lia. }
  assert (G : tally v n w <= tally v n w + one_if (beq (bs "SETUP") v)) by (unfold one_if; destruct (beq _ v); lia).
  destruct (p_code r =? 200).
  - destruct (setup_feeds w (p_cseq r) _ 0 (s_feeds (w_s w))) as [w1 x] eqn:E. apply (setup_feeds_tally v n) in E. destruct x as [u|e| |]; [apply F; exact E|intros X; inversion X; subst; rewrite E; exact G..].
  - destruct (negb (p_code r =? 401)); apply F; [apply tally_same; reflexivity|reflexivity].
Qed.
Lemma react_tally v n w req r w' o : asks_for v n -> s_proto (w_s w) <> ProtoHTTP -> react w req r = (w', o) -> tally v n w' <= tally v n w + one_if (beq (q_verb req) v).
Proof.
  intros A P. assert (G : forall x, x <= tally v n w -> x <= tally v n w + one_if (beq (q_verb req) v)) by (intros; unfold one_if; destruct (beq _ v); lia).
  unfold react. destruct (beq (q_verb req) (bs "OPTIONS")).
  { destruct (s_stage (w_s w) =? StageInit); [|intros E; inversion E; subst; apply G; lia]. intros E. apply G. eapply with_conn_tally in E; [exact E|].
    intros w1 o1 E1. eapply command_tally; [|exact E1]. exact P. }
  destruct (beq (q_verb req) (bs "DESCRIBE")).
  { destruct (p_body r) as [body|]; [|intros E; inversion E; subst; apply G; lia].
    destruct (parse_feeds (s_proto (w_s w)) body) as [fs| | |]; intros E; try (inversion E; subst; apply G; lia).
    apply G. unfold setup in E. apply (setup_from_tally v n) in E; [|exact P]. exact E. }
  assert (K : forall st, beq (q_verb req) (verb_of st) = true -> forall w' o, (if p_code r =? 200 then notify w st else w, @Ok unit tt) = (w', o) -> tally v n w' <= tally v n w + one_if (beq (q_verb req) v)).
  { intros st B w2 o2 E. apply beq_eq in B. destruct (p_code r =? 200); inversion E; subst; [apply notify_tally; assumption|apply G; lia]. }
  destruct (beq (q_verb req) (bs "PAUSE")) eqn:B1; [apply (K 3); exact B1|].
  destruct (beq (q_verb req) (bs "PLAY")) eqn:B2; [apply (K 2); exact B2|].
  destruct (beq (q_verb req) (bs "TEARDOWN")) eqn:B3; [apply (K 4); exact B3|].
  destruct (beq (q_verb req) (bs "SETUP")) eqn:B4; [apply beq_eq in B4; rewrite B4; apply handle_setup_tally; exact A|].
  intros E; inversion E; subst; apply G; lia.
Qed.
Lemma retry_tally v n w req r w' o : s_proto (w_s w) <> ProtoHTTP -> retry w req r = (w', o) -> tally v n w' <= tally v n w + one_if (beq (q_verb req) v).
Proof.
  intros P. assert (G : tally v n w <= tally v n w + one_if (beq (q_verb req) v)) by (unfold one_if; destruct (beq _ v); lia).
  unfold retry, authorize. destruct (new_digest (s_uri (w_s w)) (header_get (p_header r) (bs "WWW-Authenticate"))) as [d| | |]; try (intros E; inversion E; subst; exact G).
  destruct (s_user (w_s w)) as [[user pass]|]; [|intros E; inversion E; subst; exact G].
  destruct (authenticate d user pass (hd [] (w_rand w))) as [d' text]. unfold call_auth. cbn [w_s set_auth s_auth]. destruct (auth_call text d' (q_verb req) []) as [d2 out2].
  unfold enqueue. cbv zeta. cbn [q_verb q_uri q_auth q_header set_auth s_cseq s_session s_queue]. set (rq := mkReq _ _ _ _ _ _).
  unfold write, upd_s. cbn [w_s w_in w_writes w_listens w_rand w_log set_queue set_auth s_proto]. destruct (s_proto (w_s w) =? ProtoHTTP) eqn:EP; [lia|]. cbv zeta. intros E.
  assert (w_log w' = w_log w ++ [Sent true rq] /\ exists k, s_queue (w_s w') = qset (s_queue (w_s w)) k rq) as (L & k & Q) by (destruct (w_writes w) as [|[e|] ?]; inversion E; split; try reflexivity; eexists; reflexivity).
  unfold tally, times_announced, times_asked. rewrite L, Q, !count_app, !count_one. pose proof (qcount_set v (s_queue (w_s w)) k rq) as QS. change (q_verb rq) with (q_verb req) in QS. unfold one_if in *. cbn iota. lia.
Qed.
Lemma handle_response_tally v n w r w' o : asks_for v n -> s_proto (w_s w) <> ProtoHTTP -> handle_response w r = (w', o) -> tally v n w' <= tally v n w.
Proof.
  intros A P. unfold handle_response. cbv zeta. cbn [note w_s].
  destruct (qget (s_queue (w_s w)) (p_cseq r)) as [req|] eqn:G; [|intros E; inversion E; subst; pose proof (tally_note v n w (Got r)); unfold note in *; cbn [w_s w_in w_writes w_listens w_rand w_log] in *; lia].
  set (w1 := upd_s _ _). assert (T : tally v n w1 + one_if (beq (q_verb req) v) <= tally v n w).
  { unfold w1, tally, times_announced, times_asked, upd_s, note. cbn [w_s w_log set_queue s_queue]. rewrite !count_app, !count_one. pose proof (qcount_got v _ _ _ G). unfold one_if in *. cbn iota. lia. }
  assert (P1 : s_proto (w_s w1) <> ProtoHTTP) by exact P. clearbody w1. destruct (p_code r =? 401); intros E.
  - apply (retry_tally v n) in E; [lia|exact P1].
  - assert (LS : forall s, s_queue (learn_session s r) = s_queue s /\ s_proto (learn_session s r) = s_proto s) by (intros s; unfold learn_session; cbv zeta; destruct (beq _ []); split; reflexivity).
    set (w2 := upd_s w1 (fun s => learn_session s r)) in E. assert (T2 : tally v n w2 = tally v n w1) by (apply tally_same; [apply LS|reflexivity]).
    apply (react_tally v n) in E; [lia|exact A|]. unfold w2, upd_s. cbn [w_s]. rewrite (proj2 (LS (w_s w1))). exact P1.
Qed.
Lemma receive_tally v n w w' o : asks_for v n -> s_proto (w_s w) <> ProtoHTTP -> receive w = (w', o) -> tally v n w' <= tally v n w.
Proof.
  intros A P. unfold receive.
  assert (D : forall s w' (o : res unit) x, (upd_in w s, x) = (w', o) -> tally v n w' <= tally v n w).
  { intros s w2 o2 x E. inversion E; subst. change (tally v n (upd_in w s)) with (tally v n w). lia. }
  assert (H : forall s w' o, match unpack_response s with
      | (s1, Ok r) => handle_response (upd_in w s1) r | (s1, Err e) => (upd_in w s1, Err e) | (s1, Panic) => (upd_in w s1, Panic) | (s1, Fuel) => (upd_in w s1, Fuel) end = (w', o) ->
      tally v n w' <= tally v n w).
  { intros s w2 o2. destruct (unpack_response s) as [s1 [r|e| |]]; try apply D. intros E. apply (handle_response_tally v n) in E; [|exact A|exact P]. exact E. }
  destruct (peek 1 (w_in w)) as [s0 [b|e| |]]; try apply D.
  destruct b as [|b0 bt]; [apply H|]. destruct (Z.eq_dec b0 36) as [->|N].
  - destruct bt; [|apply H]. destruct (read_byte (discard 1 s0)) as [s1 [ch|e| |]]; try apply D. destruct (read_uint16 s1) as [s2 [len|e| |]]; try apply D.
    destruct (read_bytes len s2) as [s3 [p|e| |]]; try apply D. intros E. inversion E; subst. rewrite tally_note. change (tally v n (upd_in w s3)) with (tally v n w). lia.
  - destruct b0 as [|q|q]; try apply H. repeat (destruct q as [q|q|]; try apply H). contradiction N. reflexivity.
Qed.
Lemma turn_tally v n w t1 t2 w' o : asks_for v n -> s_proto (w_s w) <> ProtoHTTP -> turn w t1 t2 = (w', o) -> tally v n w' <= tally v n w.
Proof.
  intros A P. unfold turn. destruct (keepalive w t1 t2) as [w1 k] eqn:K. pose proof (keepalive_prims _ _ _ _ _ None P K) as KP. destruct (prims_proto _ _ KP) as [Q _]. cbn [fst] in Q. apply (keepalive_tally v n) in K; [|exact P].
  assert (R : forall w' o, match receive w1 with (w, Ok _) => (w, Again) | (w, Err e) => (w, if is_timeout e then Again else Stop) | (w, Panic) | (w, Fuel) => (w, Crash) end = (w', o) -> tally v n w' <= tally v n w).
  { intros w2 o2 E. destruct (receive w1) as [w3 x] eqn:R. apply (receive_tally v n) in R; [|exact A|congruence]. assert (w2 = w3) by (destruct x; inversion E; reflexivity). subst. lia. }
  destruct k as [u|e| |]; [apply R| | |]; try (intros E; inversion E; subst; exact K).
  destruct (s_stage (w_s w1) =? StageDone); [|apply R]. intros E; inversion E; subst; exact K.
Qed.
Lemma step_tally v n w l e w' l' : asks_for v n -> s_proto (w_s w) <> ProtoHTTP -> step (w, l) e = (w', l') -> tally v n w' <= tally v n w.
Proof.
  intros A P. unfold step.
  assert (B : forall cm l w' l', match do_cmd w cm with (w', Ok _) | (w', Err _) => (w', l) | (w', Panic) | (w', Fuel) => (w', Dead) end = (w', l') -> tally v n w' <= tally v n w).
  { intros cm l0 w2 l2 E. destruct (do_cmd w cm) as [w3 x] eqn:D. apply (do_cmd_tally v n) in D; [|exact P]. assert (w2 = w3) by (destruct x; inversion E; reflexivity). subst. exact D. }
  destruct l, e; try apply B; try (intros E; inversion E; subst; lia).
  destruct (turn w t1 t2) as [w3 x] eqn:T. apply (turn_tally v n) in T; [|exact A|exact P]. intros E. assert (w' = w3) by (destruct x; inversion E; reflexivity). subst. exact T.
Qed.
Lemma run_tally v n es : forall w l w' l', asks_for v n -> s_proto (w_s w) <> ProtoHTTP -> M_session.run (w, l) es = (w', l') -> tally v n w' <= tally v n w.
Proof.
  induction es as [|e es IH]; intros w l w' l' A P E; cbn [M_session.run fold_left] in E; [inversion E; subst; lia|].
  destruct (step (w, l) e) as [w1 l1] eqn:S. destruct (step_prims _ _ _ _ _ None P S) as (c1 & P1). destruct (prims_proto _ _ P1) as [Q _]. cbn [fst] in Q.
  apply (step_tally v n) in S; [|exact A|exact P]. apply IH in E; [lia|exact A|congruence].
Qed.
Lemma opened_tally v n w proto : opened w proto -> tally v n w = 0.
Proof. intros (u & uri & S & L). unfold tally. rewrite S, L. reflexivity. Qed.
Lemma tally_announced v n w : times_announced n (w_log w) <= tally v n w + times_asked v (w_log w).
Proof. unfold tally, qcount. pose proof (zlen_nonneg (filter (fun e => beq (q_verb (snd e)) v) (s_queue (w_s w)))). lia. Qed.

(* ---- the answers ---- *)
Lemma prims_answers x y : prims x y ->
  (forall n, 2 <= n -> times_announced n (w_log (fst y)) + one_if (match snd y with Some (_, r) => p_code r =? 200 | None => false end) - times_answered 200 (w_log (fst y)) <=
                       times_announced n (w_log (fst x)) + one_if (match snd x with Some (_, r) => p_code r =? 200 | None => false end) - times_answered 200 (w_log (fst x))).
Proof.
  induction 1 as [x|x y z P PS IH]; intros n N; [lia|]. specialize (IH n N). eapply Z.le_trans; [exact IH|]. clear IH PS z. unfold times_announced, times_answered.
  destruct P as [w w' c S1 S2 S3 S4 S5 S6 S7 L|w e c E|w t1 t2 c|w r c|w r c|w r req rsp|w st req rsp B V C]; cbn [fst snd].
  - rewrite L. lia.
  - unfold note. cbn [w_log]. rewrite !count_app, !count_one. destruct e; try contradiction E; unfold one_if; lia.
  - unfold note, upd_s. cbn [w_log]. rewrite !count_app, !count_one. unfold one_if; lia.
  - unfold note, upd_s. cbn [w_log]. rewrite !count_app, !count_one. unfold one_if; lia.
  - destruct (qget (s_queue (w_s w)) (p_cseq r)) as [req|]; cbn [fst snd]; unfold note, upd_s; cbn [w_log]; rewrite !count_app, !count_one; unfold one_if; destruct (match c with Some (_, r0) => p_code r0 =? 200 | None => false end), (p_code r =? 200); lia.
  - unfold note, upd_s. cbn [w_log]. rewrite !count_app, !count_one. unfold one_if; lia.
  - unfold notify, note, upd_s. cbn [w_log]. rewrite !count_app, !count_one. unfold one_if. destruct (st =? n) eqn:En; [rewrite C by lia; cbn; lia|destruct (p_code rsp =? 200); lia].
Qed.
