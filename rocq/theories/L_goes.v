(* Lemmas for C161: a session whose server answers what it is asked goes on. *)
From Coq Require Import String.
From Verif Require Import Base GoStrings M_conn S_message M_message M_transport M_sdp M_digest M_sps M_session S_session S_handshake S_goes
  L_base L_strings L_message L_session L_frames L_flow L_queue L_lines L_handshake.
From Coq Require Import ZifyBool ZifyNat.
Local Opaque digest_response.

(* what does not change, and the feeds *)
Definition going_on (proto : Z) (user : option (bytes * bytes)) (uri : bytes) (w : world) : Prop :=
  s_conn (w_s w) = true /\ s_proto (w_s w) = proto /\ s_user (w_s w) = user /\ s_uri (w_s w) = uri /\ w_writes w = [] /\ w_listens w = [] /\
  Forall (fun f => readable (fd_media f)) (s_feeds (w_s w)).

Lemma command_goes proto user uri w verb u hs : proto <> ProtoHTTP -> going_on proto user uri w ->
  exists w', command w verb u hs = (w', Ok tt) /\ going_on proto user uri w' /\ w_in w' = w_in w /\
    (forall k, qget (s_queue (w_s w)) k <> None -> qget (s_queue (w_s w')) k <> None).
Proof.
  intros NP (C & P & U & R & W & L & F).
  assert (X : s_proto (w_s w) <> ProtoHTTP) by (rewrite P; exact NP).
  destruct (command_exact w verb u hs C X) as (rq & w' & o & E & Lg & _ & _ & _ & _ & _ & Q & _ & F' & _ & C' & P' & U' & _ & _ & O & W' & I' & _ & Us & _).
  rewrite W in O, W'. subst o. exists w'. split; [exact E|].
  assert (L' : w_listens w' = []).
  { revert E. unfold command. rewrite C. cbn [negb]. cbv zeta. destruct (call_auth (w_s w) verb) as [s1 auth]. unfold enqueue. cbv zeta beta iota. unfold write, upd_s. cbn [w_s w_in w_writes w_listens w_rand w_log].
    destruct (s_proto _ =? ProtoHTTP); [discriminate|]. rewrite W. cbn iota. intros E. inversion E. exact L. }
  splits; try assumption.
  - unfold going_on. rewrite C', P', Us, U', W', L', F'. splits; assumption || reflexivity.
  - intros k N. rewrite Q. destruct (k =? q_cseq rq); [discriminate|exact N].
Qed.

Lemma keepalive_goes proto user uri w t1 t2 : proto <> ProtoHTTP -> going_on proto user uri w ->
  exists w', keepalive w t1 t2 = (w', Ok tt) /\ going_on proto user uri w' /\ w_in w' = w_in w /\
    (forall k, qget (s_queue (w_s w)) k <> None -> qget (s_queue (w_s w')) k <> None).
Proof.
  intros NP K. pose proof K as (C & P & _). rewrite keepalive_exact by (try exact C; rewrite P; exact NP).
  match goal with |- context [if ?b then _ else _] => destruct b end.
  - apply (command_goes proto user uri (note (upd_s w (fun s => set_last s (Some t2))) (Alive t1 t2))); [exact NP|]. exact K.
  - exists w. splits; try assumption; try reflexivity. intros k N. exact N.
Qed.

Lemma mark_goes proto user uri i w : going_on proto user uri w -> going_on proto user uri (upd_s w (mark_feed i)).
Proof.
  intros (C & P & U & R & W & L & F). unfold going_on, upd_s, mark_feed. cbn [w_s w_writes w_listens].
  destruct (nth_error (s_feeds (w_s w)) i) as [f|] eqn:N; [|splits; assumption].
  cbn [set_feeds s_conn s_proto s_user s_uri s_feeds]. splits; try assumption. apply upd_Forall; [|exact F]. cbn [fd_media]. apply nth_error_In in N. rewrite Forall_forall in F. exact (F f N).
Qed.
Lemma setup_goes proto user uri : proto <> ProtoHTTP -> forall todo i w, going_on proto user uri w -> exists w', setup_from w i todo = (w', Ok tt) /\ going_on proto user uri w'.
Proof.
  intros NP. induction todo as [|f todo IH]; intros i w K; cbn [setup_from]; [exists w; split; [reflexivity|exact K]|].
  assert (X : exists u, setup_uri (w_s w) (m_control (fd_media f)) = Ok u).
  { unfold setup_uri. destruct (has_prefix _ _); [eexists; reflexivity|]. rewrite (proj1 K). eexists; reflexivity. }
  destruct X as (u & ->). destruct (command_goes proto user uri w (bs "SETUP") u [(bs "Transport", transport_string (fd_transp f))] NP K) as (w1 & -> & K1 & _).
  apply IH. apply mark_goes. exact K1.
Qed.

Lemma sink_goes proto user uri w ch port : going_on proto user uri w -> exists w', add_sink w ch port = (w', Ok tt) /\ going_on proto user uri w'.
Proof.
  intros (C & P & U & R & W & L & F). unfold add_sink. rewrite L. eexists. split; [reflexivity|]. unfold going_on, note, set_sinks. cbn [w_s w_writes w_listens tl s_conn s_proto s_user s_uri s_feeds]. splits; assumption || reflexivity.
Qed.
Lemma setup_feeds_goes proto user uri k v : transport_text_ok v -> forall todo i w, going_on proto user uri w -> Forall (fun f => readable (fd_media f)) todo ->
  exists w', setup_feeds w k v i todo = (w', Ok tt) /\ going_on proto user uri w'.
Proof.
  intros T. induction todo as [|f todo IH]; intros i w K F; cbn [setup_feeds]; [exists w; split; [reflexivity|exact K]|].
  apply Forall_cons_iff in F as [Ff F]. destruct (fd_cseq f =? k); [|apply IH; assumption]. cbv zeta.
  unfold transport_setup. pose proof (T (fd_transp f)) as Tf. destruct (transport_parse (fd_transp f) v) as [t e]. cbn [snd] in Tf. subst e.
  pose proof (Ff (fd_sets f)) as Fs. destruct (parse_sprops (fd_sets f) (m_sprops (fd_media f))) as [st o]. cbn [snd] in Fs. subst o. cbn [fd_transp].
  assert (K1 : going_on proto user uri (upd_s (upd_s w (fun s => set_feedidx s (i64 (s_feedidx s + 1)))) (put_feed i (mkFeed (fd_media f) t (fd_cseq f) true st)))).
  { destruct K as (C & P & U & R & W & L & FF). unfold going_on, upd_s, put_feed, set_feedidx, set_feeds. cbn [w_s w_writes w_listens s_conn s_proto s_user s_uri s_feeds].
    splits; try assumption. apply upd_Forall; [|exact FF]. exact Ff. }
  destruct (t_tcp t); [apply IH; assumption|].
  match goal with |- context [add_sink ?w ?a ?b] => destruct (sink_goes proto user uri w a b K1) as (w2 & -> & K2) end.
  match goal with |- context [add_sink ?w ?a ?b] => destruct (sink_goes proto user uri w a b K2) as (w3 & -> & K3) end.
  apply IH; assumption.
Qed.
Lemma finish_goes proto user uri w : going_on proto user uri w ->
  exists w', (if s_feedidx (w_s w) >=? zlen (s_feeds (w_s w)) then (note (notify w StageReady) Started, Ok tt) else (w, Ok tt)) = (w', Ok tt) /\ going_on proto user uri w'.
Proof. intros K. destruct (_ >=? _); eexists; (split; [reflexivity|]); exact K. Qed.
Lemma handle_setup_goes proto user uri w r : going_on proto user uri w -> transport_text_ok (header_get (p_header r) (bs "Transport")) ->
  exists w', handle_setup w r = (w', Ok tt) /\ going_on proto user uri w'.
Proof.
  intros K T. unfold handle_setup. cbv zeta. destruct (p_code r =? 200).
  - pose proof K as (_ & _ & _ & _ & _ & _ & F). destruct (setup_feeds_goes proto user uri (p_cseq r) _ T (s_feeds (w_s w)) 0%nat w K F) as (w1 & -> & K1). apply finish_goes. exact K1.
  - destruct (p_code r =? 401); cbn [negb]; apply finish_goes; exact K.
Qed.

Lemma made_media proto ms : forall i, map fd_media (make_feeds proto i ms) = ms.
Proof. induction ms as [|m ms IH]; intros i; cbn [make_feeds map fd_media]; [reflexivity|rewrite IH; reflexivity]. Qed.
Lemma react_goes proto user uri w req r : proto <> ProtoHTTP -> going_on proto user uri w -> transport_text_ok (header_get (p_header r) (bs "Transport")) ->
  (forall body, p_body r = Some body -> exists ms, sdp_parse body = Ok ms /\ Forall readable ms) ->
  exists w', react w req r = (w', Ok tt) /\ going_on proto user uri w'.
Proof.
  intros NP K T B. unfold react. cbv zeta.
  destruct (beq (q_verb req) (bs "OPTIONS")).
  { destruct (s_stage (w_s w) =? StageInit); [|exists w; split; [reflexivity|exact K]]. unfold describe, with_conn, upd_s. cbn [w_s]. rewrite (proj1 K : s_conn (set_verbs _ _) = true).
    match goal with |- context [command ?w1 ?a ?b ?c] => destruct (command_goes proto user uri w1 a b c NP K) as (w2 & -> & K2 & _) end. exists w2. split; [reflexivity|exact K2]. }
  destruct (beq (q_verb req) (bs "DESCRIBE")).
  { destruct (p_body r) as [body|]; [|exists w; split; [reflexivity|exact K]]. destruct (B body eq_refl) as (ms & E & F). unfold parse_feeds. rewrite E. cbn [bind]. unfold setup. apply setup_goes; [exact NP|].
    destruct K as (C & P & U & R & W & L & _). unfold going_on, upd_s, set_feeds. cbn [w_s w_writes w_listens s_conn s_proto s_user s_uri s_feeds]. splits; try assumption.
    rewrite <- (made_media (s_proto (w_s w)) ms 0) in F. rewrite Forall_map in F. exact F. }
  destruct (beq (q_verb req) (bs "PAUSE")); [eexists; split; [reflexivity|]; destruct (p_code r =? 200); exact K|].
  destruct (beq (q_verb req) (bs "PLAY")); [eexists; split; [reflexivity|]; destruct (p_code r =? 200); exact K|].
  destruct (beq (q_verb req) (bs "TEARDOWN")); [eexists; split; [reflexivity|]; destruct (p_code r =? 200); exact K|].
  destruct (beq (q_verb req) (bs "SETUP")); [apply handle_setup_goes; assumption|]. exists w. split; [reflexivity|exact K].
Qed.
Lemma retry_goes proto user uri w req r : proto <> ProtoHTTP -> going_on proto user uri w -> user <> None -> (exists d, new_digest uri (header_get (p_header r) (bs "WWW-Authenticate")) = Ok d) ->
  exists w', retry w req r = (w', Ok tt) /\ going_on proto user uri w'.
Proof.
  intros NP (C & P & U & R & W & L & F) Us (d & D). unfold retry, authorize. rewrite R, D, U. destruct user as [[name pass]|]; [|contradiction].
  destruct (authenticate d name pass (hd [] (w_rand w))) as [d' text]. cbv beta iota. unfold call_auth. cbn [set_auth s_auth w_s].
  destruct (auth_call text d' (q_verb req) []) as [d2 out]. unfold enqueue. cbv zeta beta iota. unfold write, upd_s. cbn [w_s w_in w_writes w_listens w_rand w_log set_auth set_queue s_proto s_queue].
  rewrite P, W. destruct (proto =? ProtoHTTP) eqn:X; [apply Z.eqb_eq in X; contradiction|]. cbv zeta. cbn iota. eexists. split; [reflexivity|].
  unfold going_on. cbn [w_s w_writes w_listens s_conn s_proto s_user s_uri s_feeds tl]. splits; assumption || reflexivity.
Qed.
Lemma learn_goes proto user uri w r : going_on proto user uri w -> going_on proto user uri (upd_s w (fun s => learn_session s r)).
Proof. intros K. unfold going_on, upd_s, learn_session. cbn [w_s w_writes w_listens]. destruct (beq _ []); exact K. Qed.

(* a response *)
Lemma response_goes proto user uri w i r : proto <> ProtoHTTP -> going_on proto user uri w -> tells r i ->
  forall log, (forall k, outstanding log k -> qget (s_queue (w_s w)) k <> None) -> fair user uri log i ->
  exists w', handle_response w r = (w', Ok tt) /\ going_on proto user uri w'.
Proof.
  intros NP K T log Q F. destruct i as [ch p|code reason fields body|]; [destruct T| |destruct T]. destruct T as (T1 & T2 & T3 & T4). destruct F as ((k & Bk & Ok_ & Ek) & F2 & F3 & F4).
  specialize (T4 k Bk Ek). unfold handle_response. cbv zeta. rewrite T4. cbn [note w_s]. destruct (qget (s_queue (w_s w)) k) as [req|] eqn:Eq; [|destruct (Q k Ok_ Eq)].
  assert (K1 : going_on proto user uri (upd_s (note w (Got r)) (fun s => set_queue s (qdel (s_queue s) k)))) by exact K.
  destruct (p_code r =? 401) eqn:C.
  - apply Z.eqb_eq in C. rewrite T1 in C. destruct (F2 C) as [U D]. apply retry_goes; try assumption. rewrite T3 by (vm_compute; repeat constructor; congruence). exact D.
  - apply react_goes; [exact NP|apply learn_goes; exact K1| |].
    + rewrite T3 by (vm_compute; repeat constructor; congruence). exact F4.
    + intros b E. rewrite T2 in E. destruct body as [|x body]; [discriminate|]. injection E as <-. apply F3. discriminate.
Qed.

(* a turn *)
Lemma turn_goes proto user uri w t1 t2 i rest log : proto <> ProtoHTTP -> going_on proto user uri w -> item_ok i -> w_in w = item_stream i ++ rest ->
  (forall k, outstanding log k -> qget (s_queue (w_s w)) k <> None) -> fair user uri log i ->
  exists w', turn w t1 t2 = (w', Again) /\ going_on proto user uri w'.
Proof.
  intros NP K IO E Q F. unfold turn. cbv zeta. destruct (keepalive_goes proto user uri w t1 t2 NP K) as (w1 & -> & K1 & E1 & Q1). rewrite E in E1.
  destruct i as [ch p|code reason fs body|]; cbn [item_ok item_stream] in *.
  - destruct IO as [_ L]. rewrite (receive_frame w1 ch p rest) by (try exact E1; lia). destruct (zlen p <=? 2048) eqn:X; [|lia]. eexists. split; [reflexivity|]. exact K1.
  - destruct IO as (Kc & Rn & Fs & Co & L).
    destruct (unpack_response_spec code reason fs body rest Kc Rn Fs Co L) as (r & U & H1 & H2 & H3 & H4). fold (sent (response_text (bs "RTSP/1.0") code reason fs body)) in U. rewrite <- E1 in U.
    unfold receive.
    assert (Pk : peek 1 (w_in w1) = (w_in w1, Ok [82])).
    { rewrite E1. unfold response_text. change (bs "RTSP/1.0") with (82 :: bs "TSP/1.0"). cbn [app]. rewrite sent_cons. reflexivity. }
    rewrite Pk. cbv beta iota. rewrite U.
    destruct (response_goes proto user uri (upd_in w1 rest) (Resp code reason fs body) r NP K1) with (log := log) as (w2 & -> & K2); [cbn [tells]; auto| |exact F|].
    + intros k O. apply Q1. apply Q. exact O.
    + exists w2. split; [reflexivity|exact K2].
  - unfold receive. rewrite E1. cbn [app]. unfold peek. change (1 >? bufio_size) with false. change (Z.to_nat 1) with 1%nat. cbn [take_bytes]. eexists. split; [reflexivity|]. exact K1.
Qed.
(* a command *)
Lemma cmd_goes proto user uri w c : proto <> ProtoHTTP -> going_on proto user uri w -> exists w', do_cmd w c = (w', Ok tt) /\ going_on proto user uri w' .
Proof.
  intros NP K. destruct c; cbn [do_cmd]; unfold options, describe, play, pause, teardown, with_conn; rewrite ?(proj1 K);
    try (match goal with |- context [command ?w1 ?a ?b ?c] => destruct (command_goes proto user uri w1 a b c NP K) as (w2 & -> & K2 & _) end; exists w2; split; [reflexivity|exact K2]).
  - unfold setup. apply setup_goes; assumption.
  - destruct (keepalive_goes proto user uri w t1 t2 NP K) as (w2 & -> & K2 & _). exists w2. split; [reflexivity|exact K2].
Qed.

(* whole histories *)
Lemma fair_before user uri items w es e : fair_play user uri items w (es ++ [e]) -> fair_play user uri items w es.
Proof. intros F a t1 t2 b w1 l1 E R. apply (F a t1 t2 (b ++ [e]) w1 l1); [|exact R]. rewrite E, <- app_assoc. reflexivity. Qed.
Lemma turns_snoc es e : turns (es ++ [e]) = (turns es + match e with Turn _ _ => 1 | _ => 0 end)%nat.
Proof. unfold turns. rewrite filter_app, app_length. destruct e; reflexivity. Qed.
Lemma history_goes proto user uri rnd items rest : proto <> ProtoHTTP -> Forall item_ok items ->
  let w := mkW (dialled proto user uri) (flat_map item_stream items ++ rest) [] [] rnd [] in
  forall es, fair_play user uri items w es -> exists w', run (w, Live) es = (w', Live) /\ going_on proto user uri w'.
Proof.
  intros NP IO w. induction es as [|e es IH] using rev_ind; intros F.
  - exists w. split; [reflexivity|]. unfold going_on, w, dialled. cbn. splits; reflexivity || constructor.
  - destruct (IH (fair_before _ _ _ _ _ _ F)) as (w1 & R & K). rewrite run_app, R. cbn [M_session.run fold_left step]. destruct e as [c|t1 t2].
    + destruct (cmd_goes proto user uri w1 c NP K) as (w2 & -> & K2). exists w2. split; [reflexivity|exact K2].
    + destruct (F es t1 t2 [] w1 Live eq_refl R) as (i & N & Fi).
      assert (T : (turns es <= length items)%nat) by (assert (turns es < length items)%nat by (apply nth_error_Some; congruence); lia).
      assert (X : w_in w1 = item_stream i ++ flat_map item_stream (skipn (S (turns es)) items) ++ rest).
      { destruct (run_items es items rest w Live w1 Live IO T eq_refl R) as (j & effs & _ & E & _ & _ & J). rewrite (J eq_refl) in E. rewrite E.
        rewrite (nth_error_skipn_cons items (turns es) i N). cbn [flat_map]. rewrite <- app_assoc. reflexivity. }
      assert (Ii : item_ok i) by (rewrite Forall_forall in IO; apply IO; apply nth_error_In in N; exact N).
      assert (Q : forall k, outstanding (w_log w1) k -> qget (s_queue (w_s w1)) k <> None).
      { intros k O. apply (kept_outstanding proto w es w1 Live k NP) in O; [destruct O as (rq & O); congruence| |exact R]. exists user, uri. split; reflexivity. }
      destruct (turn_goes proto user uri w1 t1 t2 i _ (w_log w1) NP K Ii X Q Fi) as (w2 & -> & K2). exists w2. split; [reflexivity|exact K2].
Qed.
Lemma fair_turns user uri items w es : fair_play user uri items w es -> (turns es <= length items)%nat.
Proof.
  induction es as [|e es IH] using rev_ind; intros F; [apply Nat.le_0_l|]. specialize (IH (fair_before _ _ _ _ _ _ F)). rewrite turns_snoc. destruct e as [c|t1 t2]; [lia|].
  destruct (run (w, Live) es) as [w1 l1] eqn:R. destruct (F es t1 t2 [] w1 l1 eq_refl R) as (i & N & _). assert (turns es < length items)%nat by (apply nth_error_Some; congruence). lia.
Qed.
