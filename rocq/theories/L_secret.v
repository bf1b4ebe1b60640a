(* Lemmas: what depends on the credentials. *)
From Coq Require Import String.
From Verif Require Import Base GoStrings S_digest M_conn M_message M_transport M_sdp M_digest M_sps M_session S_session S_secret
  L_base L_strings L_digest L_message L_session L_frames L_main.
From Coq Require Import ZifyBool ZifyNat.

Local Opaque digest_response.

Definition tx {A} (u : option (bytes * bytes)) (r : world * A) : world * A := (with_user u (fst r), snd r).
Lemma write_tx u w a r : write (with_user u w) a r = tx u (write w a r).
Proof. unfold write, tx. cbn [with_user upd_s w_s s_proto w_writes]. destruct (s_proto (w_s w) =? ProtoHTTP); [reflexivity|]. destruct (w_writes w) as [|[e|] l]; reflexivity. Qed.
Lemma command_tx u w verb uri hs : command (with_user u w) verb uri hs = tx u (command w verb uri hs).
Proof.
  destruct w as [s i wr li rn lg]. destruct s as [cn pr us ur si st au qu se fe fi ve la cs]. unfold command. cbn [with_user upd_s w_s s_conn]. destruct cn; cbn [negb]; [|reflexivity].
  unfold call_auth. cbn [s_auth]. destruct au as [[text d]|].
  - destruct (auth_call text d verb []) as [d' out]. cbn [set_auth set_cseq s_cseq s_conn s_proto s_user s_uri s_sinks s_stage s_auth s_queue s_session s_feeds s_feedidx s_verbs s_last enqueue set_queue q_verb q_uri q_auth q_header].
    rewrite <- write_tx. reflexivity.
  - cbn [set_auth set_cseq s_cseq s_conn s_proto s_user s_uri s_sinks s_stage s_auth s_queue s_session s_feeds s_feedidx s_verbs s_last enqueue set_queue q_verb q_uri q_auth q_header].
    rewrite <- write_tx. reflexivity.
Qed.
Lemma with_conn_tx u w k k' : (k' (w_s (with_user u w)) = tx u (k (w_s w))) -> with_conn (with_user u w) k' = tx u (with_conn w k).
Proof. intros K. unfold with_conn. cbn [with_user upd_s w_s s_conn]. revert K. generalize (k (w_s w)). intros r K. cbn [with_user upd_s w_s] in K. destruct (s_conn (w_s w)); [exact K|reflexivity]. Qed.
Lemma cmd1_tx u w verb hs : with_conn (with_user u w) (fun s => command (with_user u w) verb (s_uri s) hs) = tx u (with_conn w (fun s => command w verb (s_uri s) hs)).
Proof. apply with_conn_tx. cbn [with_user upd_s w_s s_uri]. apply command_tx. Qed.
Lemma setup_from_tx u todo : forall w i, setup_from (with_user u w) i todo = tx u (setup_from w i todo).
Proof.
  induction todo as [|f todo IH]; intros w i; cbn [setup_from]; [reflexivity|].
  assert (U : setup_uri (w_s (with_user u w)) (m_control (fd_media f)) = setup_uri (w_s w) (m_control (fd_media f))) by reflexivity. rewrite U.
  destruct (setup_uri (w_s w) (m_control (fd_media f))) as [uri|e| |]; try reflexivity. rewrite command_tx.
  destruct (command w (bs "SETUP") uri [(bs "Transport", transport_string (fd_transp f))]) as [w' o]. unfold tx at 1. cbn [fst snd]. destruct o; try reflexivity.
  rewrite <- IH. f_equal. destruct w' as [s ? ? ? ? ?]. unfold with_user, upd_s, mark_feed. cbn [w_s s_feeds s_cseq]. destruct (nth_error (s_feeds s) i); reflexivity.
Qed.
Lemma setup_tx u w : setup (with_user u w) = tx u (setup w).
Proof. unfold setup. cbn [with_user upd_s w_s s_feeds]. apply setup_from_tx. Qed.
Lemma keepalive_tx u w t1 t2 : keepalive (with_user u w) t1 t2 = tx u (keepalive w t1 t2).
Proof.
  unfold keepalive. apply with_conn_tx. cbn [with_user upd_s w_s s_proto s_stage s_last s_uri s_session].
  destruct (negb (s_proto (w_s w) =? ProtoHTTP) && negb (s_proto (w_s w) =? ProtoTCP) && (s_stage (w_s w) >? StageInit) && (s_stage (w_s w) <? StageDone)); [|reflexivity].
  destruct (match s_last (w_s w) with Some l => t1 - l >=? keepAliveTimeout | None => true end); [|reflexivity]. rewrite <- command_tx. reflexivity.
Qed.
Lemma do_cmd_tx u w c : do_cmd (with_user u w) c = tx u (do_cmd w c).
Proof. destruct c; cbn [do_cmd]; [apply cmd1_tx|apply cmd1_tx|apply setup_tx|apply cmd1_tx|apply cmd1_tx|apply cmd1_tx|apply keepalive_tx]. Qed.
Lemma add_sink_tx u w ch port : add_sink (with_user u w) ch port = tx u (add_sink w ch port).
Proof. unfold add_sink. cbn [with_user upd_s w_listens]. destruct (w_listens w) as [|[e|] l]; reflexivity. Qed.
Lemma setup_feeds_tx u todo : forall w cseq v i, setup_feeds (with_user u w) cseq v i todo = tx u (setup_feeds w cseq v i todo).
Proof.
  induction todo as [|f todo IH]; intros w cseq v i; cbn [setup_feeds]; [reflexivity|]. destruct (fd_cseq f =? cseq); [|apply IH].
  destruct (transport_setup f v) as [f' o]. destruct o; try reflexivity.
  set (w1 := upd_s (upd_s w (fun s => set_feedidx s (i64 (s_feedidx s + 1)))) (put_feed i f')).
  assert (E : upd_s (upd_s (with_user u w) (fun s => set_feedidx s (i64 (s_feedidx s + 1)))) (put_feed i f') = with_user u w1) by reflexivity. rewrite E.
  destruct (t_tcp (fd_transp f')); [apply IH|]. rewrite add_sink_tx. change (s_feedidx (w_s (with_user u w1))) with (s_feedidx (w_s w1)).
  destruct (add_sink w1 (u8 (u8 (s_feedidx (w_s w1)) * 2)) (p_one (t_port (fd_transp f')))) as [w2 o2]. unfold tx at 1. cbn [fst snd]. destruct o2; try reflexivity.
  rewrite add_sink_tx. destruct (add_sink w2 (u8 (u8 (u8 (s_feedidx (w_s w1)) * 2) + 1)) (p_two (t_port (fd_transp f')))) as [w3 o3]. unfold tx at 1. cbn [fst snd]. destruct o3; try reflexivity. apply IH.
Qed.
Lemma handle_setup_tx u w r : handle_setup (with_user u w) r = tx u (handle_setup w r).
Proof.
  unfold handle_setup. destruct (p_code r =? 200).
  - change (s_feeds (w_s (with_user u w))) with (s_feeds (w_s w)). rewrite setup_feeds_tx. destruct (setup_feeds w (p_cseq r) (header_get (p_header r) (bs "Transport")) 0 (s_feeds (w_s w))) as [w' o].
    unfold tx at 1. cbn [fst snd]. destruct o; try reflexivity. change (s_feedidx (w_s (with_user u w'))) with (s_feedidx (w_s w')). change (s_feeds (w_s (with_user u w'))) with (s_feeds (w_s w')).
    destruct (s_feedidx (w_s w') >=? zlen (s_feeds (w_s w'))); reflexivity.
  - destruct (negb (p_code r =? 401)).
    + cbn [with_user upd_s w_s set_feedidx s_feedidx s_feeds]. destruct (i64 (s_feedidx (w_s w) + 1) >=? zlen (s_feeds (w_s w))); reflexivity.
    + cbn [with_user upd_s w_s s_feedidx s_feeds]. destruct (s_feedidx (w_s w) >=? zlen (s_feeds (w_s w))); reflexivity.
Qed.
Lemma react_tx u w req r : react (with_user u w) req r = tx u (react w req r).
Proof.
  unfold react. destruct (beq (q_verb req) (bs "OPTIONS")).
  { change (s_stage (w_s (with_user u w))) with (s_stage (w_s w)). destruct (s_stage (w_s w) =? StageInit); [|reflexivity]. unfold describe. rewrite <- cmd1_tx. reflexivity. }
  destruct (beq (q_verb req) (bs "DESCRIBE")).
  { destruct (p_body r) as [body|]; [|reflexivity]. change (s_proto (w_s (with_user u w))) with (s_proto (w_s w)). destruct (parse_feeds (s_proto (w_s w)) body); try reflexivity. rewrite <- setup_tx. reflexivity. }
  destruct (beq (q_verb req) (bs "PAUSE")); [destruct (p_code r =? 200); reflexivity|].
  destruct (beq (q_verb req) (bs "PLAY")); [destruct (p_code r =? 200); reflexivity|].
  destruct (beq (q_verb req) (bs "TEARDOWN")); [destruct (p_code r =? 200); reflexivity|].
  destruct (beq (q_verb req) (bs "SETUP")); [apply handle_setup_tx|reflexivity].
Qed.

(* credentials that lead to the same answer to a challenge *)
Definition agree (u1 u2 : option (bytes * bytes)) (ch : bytes) : Prop :=
  forall uri d, new_digest uri ch = Ok d ->
  match u1, u2 with
  | None, None => True
  | Some (a, b), Some (c, e) => forall rnd, authenticate d a b rnd = authenticate d c e rnd
  | _, _ => False
  end.
Lemma retry_tx u1 u2 w req r : agree u1 u2 (header_get (p_header r) (bs "WWW-Authenticate")) -> s_user (w_s w) = u1 ->
  retry (with_user u2 w) req r = tx u2 (retry w req r).
Proof.
  intros A U. unfold retry. assert (E : authorize (with_user u2 w) (header_get (p_header r) (bs "WWW-Authenticate")) = tx u2 (authorize w (header_get (p_header r) (bs "WWW-Authenticate")))).
  { unfold authorize. cbn [with_user upd_s w_s s_uri s_user w_rand w_in w_writes w_listens w_log]. destruct (new_digest (s_uri (w_s w)) (header_get (p_header r) (bs "WWW-Authenticate"))) as [d|e| |] eqn:N; try reflexivity.
    specialize (A _ _ N). rewrite U. destruct u1 as [[a b]|], u2 as [[c e]|]; try contradiction; [|reflexivity]. rewrite <- A. destruct (authenticate d a b (hd [] (w_rand w))) as [d' text]. reflexivity. }
  rewrite E. destruct (authorize w (header_get (p_header r) (bs "WWW-Authenticate"))) as [w' o]. unfold tx at 1. cbn [fst snd]. destruct o; try reflexivity.
  destruct w' as [s i wr li rn lg]. destruct s as [cn pr us ur si st au qu se fe fi ve la cs]. unfold call_auth. cbn [with_user upd_s w_s s_auth]. destruct au as [[text d]|].
  - destruct (auth_call text d (q_verb req) []) as [d' out]. cbn [set_auth s_cseq s_conn s_proto s_user s_uri s_sinks s_stage s_auth s_queue s_session s_feeds s_feedidx s_verbs s_last enqueue set_queue q_verb q_uri q_auth q_header]. rewrite <- write_tx. reflexivity.
  - cbn [set_auth s_cseq s_conn s_proto s_user s_uri s_sinks s_stage s_auth s_queue s_session s_feeds s_feedidx s_verbs s_last enqueue set_queue q_verb q_uri q_auth q_header]. rewrite <- write_tx. reflexivity.
Qed.
Lemma handle_response_tx u1 u2 w r : (p_code r = 401 -> agree u1 u2 (header_get (p_header r) (bs "WWW-Authenticate"))) -> s_user (w_s w) = u1 ->
  handle_response (with_user u2 w) r = tx u2 (handle_response w r).
Proof.
  intros A U. unfold handle_response. change (s_queue (w_s (note (with_user u2 w) (Got r)))) with (s_queue (w_s (note w (Got r)))).
  destruct (qget (s_queue (w_s (note w (Got r)))) (p_cseq r)) as [req|]; [|reflexivity]. destruct (p_code r =? 401) eqn:C.
  - rewrite <- (retry_tx u1); [reflexivity|apply A; lia|exact U].
  - rewrite <- react_tx. f_equal. unfold learn_session. generalize (header_get (p_header r) (bs "Session")). intros v. destruct (beq v []); reflexivity.
Qed.

(* the response a turn takes, if any, is in the log *)
Lemma challenges_app a b : challenges (a ++ b) = challenges a ++ challenges b.
Proof. apply flat_map_app. Qed.
Lemma agree_refl u ch : agree u u ch.
Proof. intros uri d _. destruct u as [[a b]|]; [reflexivity|exact I]. Qed.
Definition answer (w : world) (s : stream) : world * res unit :=
  match unpack_response s with
  | (s1, Ok r) => handle_response (upd_in w s1) r | (s1, Err e) => (upd_in w s1, Err e) | (s1, Panic) => (upd_in w s1, Panic) | (s1, Fuel) => (upd_in w s1, Fuel) end.
Lemma answer_tx u1 u2 w s : (forall ch, In ch (challenges (w_log (fst (answer w s)))) -> agree u1 u2 ch) -> s_user (w_s w) = u1 ->
  answer (with_user u2 w) s = tx u2 (answer w s).
Proof.
  intros A U. unfold answer in *. destruct (unpack_response s) as [s1 [r| | |]]; try reflexivity. change (upd_in (with_user u2 w) s1) with (with_user u2 (upd_in w s1)).
  apply (handle_response_tx u1); [|exact U]. intros C. apply A. destruct (handle_response (upd_in w s1) r) as [w' o] eqn:H. apply handle_response_acts in H. destruct H as (_ & new & L & _). cbn [fst].
  rewrite L. cbn [note upd_in w_log]. rewrite !challenges_app. apply in_or_app. left. apply in_or_app. right. cbn [challenges flat_map]. rewrite C. left. reflexivity.
Qed.
Lemma receive_tx u1 u2 w : (forall ch, In ch (challenges (w_log (fst (receive w)))) -> agree u1 u2 ch) -> s_user (w_s w) = u1 ->
  receive (with_user u2 w) = tx u2 (receive w).
Proof.
  intros A U. unfold receive in *. change (w_in (with_user u2 w)) with (w_in w). pose proof (answer_tx u1 u2 w) as H. unfold answer in H. destruct (peek 1 (w_in w)) as [s0 [b|e| |]]; try reflexivity.
  specialize (fun X => H s0 X U). destruct b as [|b0 bt]; [apply H, A|]. destruct (Z.eq_dec b0 36) as [->|N].
  - destruct bt; [|apply H, A]. destruct (read_byte (discard 1 s0)) as [s1 [ch|e| |]]; try reflexivity. destruct (read_uint16 s1) as [s2 [len|e| |]]; try reflexivity.
    destruct (read_bytes len s2) as [s3 [p|e| |]]; reflexivity.
  - destruct b0 as [|q|q]; try (apply H, A). repeat (destruct q as [q|q|]; try (apply H, A)). contradiction N. reflexivity.
Qed.
Lemma with_own w : with_user (s_user (w_s w)) w = w.
Proof. destruct w as [s ? ? ? ? ?]. destruct s. reflexivity. Qed.
Lemma do_cmd_user w c : s_user (w_s (fst (do_cmd w c))) = s_user (w_s w).
Proof. pose proof (do_cmd_tx (s_user (w_s w)) w c) as E. rewrite with_own in E. rewrite E. reflexivity. Qed.
Lemma receive_user w : s_user (w_s (fst (receive w))) = s_user (w_s w).
Proof. pose proof (receive_tx (s_user (w_s w)) (s_user (w_s w)) w (fun ch _ => agree_refl _ ch) eq_refl) as E. rewrite with_own in E. rewrite E. reflexivity. Qed.

Lemma turn_log w t1 t2 : exists new, w_log (fst (turn w t1 t2)) = w_log w ++ new.
Proof. destruct (turn w t1 t2) as [w' en] eqn:T. apply turn_grows in T. destruct T as (new & L & _). exists new. exact L. Qed.
Lemma turn_tx u1 u2 w t1 t2 : (forall ch, In ch (challenges (w_log (fst (turn w t1 t2)))) -> agree u1 u2 ch) -> s_user (w_s w) = u1 ->
  turn (with_user u2 w) t1 t2 = tx u2 (turn w t1 t2).
Proof.
  intros A U. unfold turn in *. rewrite keepalive_tx. pose proof (do_cmd_user w (CKeepAlive t1 t2)) as V. cbn [do_cmd] in V. destruct (keepalive w t1 t2) as [w1 k]. cbn [fst] in V. unfold tx at 1. cbn [fst snd].
  assert (R : (forall ch, In ch (challenges (w_log (fst (match receive w1 with (w, Ok _) => (w, Again) | (w, Err e) => (w, if is_timeout e then Again else Stop) | (w, Panic) | (w, Fuel) => (w, Crash) end)))) -> agree u1 u2 ch) ->
    match receive (with_user u2 w1) with (w, Ok _) => (w, Again) | (w, Err e) => (w, if is_timeout e then Again else Stop) | (w, Panic) | (w, Fuel) => (w, Crash) end
    = tx u2 (match receive w1 with (w, Ok _) => (w, Again) | (w, Err e) => (w, if is_timeout e then Again else Stop) | (w, Panic) | (w, Fuel) => (w, Crash) end)).
  { intros B. rewrite (receive_tx u1); [destruct (receive w1) as [w2 [x|e| |]]; reflexivity| |congruence]. intros ch I. apply B. destruct (receive w1) as [w2 [x|e| |]]; exact I. }
  destruct k as [x|e| |]; [exact (R A)| |reflexivity|reflexivity]. change (s_stage (w_s (with_user u2 w1))) with (s_stage (w_s w1)).
  destruct (s_stage (w_s w1) =? StageDone); [reflexivity|exact (R A)].
Qed.
Lemma turn_user w t1 t2 : s_user (w_s (fst (turn w t1 t2))) = s_user (w_s w).
Proof. pose proof (turn_tx (s_user (w_s w)) (s_user (w_s w)) w t1 t2 (fun ch _ => agree_refl _ ch) eq_refl) as E. rewrite with_own in E. rewrite E. reflexivity. Qed.

Definition tx2 (u : option (bytes * bytes)) (r : world * life) : world * life := (with_user u (fst r), snd r).
Lemma step_tx u1 u2 w l e : (forall ch, In ch (challenges (w_log (fst (step (w, l) e)))) -> agree u1 u2 ch) -> s_user (w_s w) = u1 ->
  step (with_user u2 w, l) e = tx2 u2 (step (w, l) e).
Proof.
  intros A U. unfold step in *. destruct l, e as [c|t1 t2]; try reflexivity.
  1,3: rewrite do_cmd_tx; destruct (do_cmd w c) as [w' [x|er| |]]; reflexivity.
  rewrite (turn_tx u1); [destruct (turn w t1 t2) as [w' []]; reflexivity| |exact U]. destruct (turn w t1 t2) as [w' []]; exact A.
Qed.
Lemma step_log w l e : exists new, w_log (fst (step (w, l) e)) = w_log w ++ new.
Proof.
  unfold step. destruct l, e as [c|t1 t2]; try (exists []; rewrite app_nil_r; reflexivity).
  1,3: destruct (do_cmd w c) as [w' o] eqn:D; apply do_cmd_acts in D; destruct D as (_ & new & L & _); exists new; destruct o; exact L.
  destruct (turn_log w t1 t2) as (new & L). exists new. destruct (turn w t1 t2) as [w' []]; exact L.
Qed.
Lemma step_user w l e : s_user (w_s (fst (step (w, l) e))) = s_user (w_s w).
Proof.
  unfold step. destruct l, e as [c|t1 t2]; try reflexivity.
  1,3: pose proof (do_cmd_user w c) as D; destruct (do_cmd w c) as [w' []]; exact D.
  pose proof (turn_user w t1 t2) as D. destruct (turn w t1 t2) as [w' []]; exact D.
Qed.
Lemma run_log es : forall w l, exists new, w_log (fst (run (w, l) es)) = w_log w ++ new.
Proof.
  induction es as [|e es IH]; intros w l; [exists []; rewrite app_nil_r; reflexivity|]. unfold run in *. cbn [fold_left]. destruct (step_log w l e) as (n1 & L1). destruct (step (w, l) e) as [w1 l1].
  destruct (IH w1 l1) as (n2 & L2). exists (n1 ++ n2). cbn [fst] in *. rewrite L2, L1, app_assoc. reflexivity.
Qed.
Lemma run_tx u1 u2 es : forall w l, (forall ch, In ch (challenges (w_log (fst (run (w, l) es)))) -> agree u1 u2 ch) -> s_user (w_s w) = u1 ->
  run (with_user u2 w, l) es = tx2 u2 (run (w, l) es).
Proof.
  induction es as [|e es IH]; intros w l A U; [reflexivity|]. unfold run in *. cbn [fold_left] in *. rewrite (step_tx u1); [|intros ch I; apply A|exact U].
  - pose proof (step_user w l e) as V. destruct (step (w, l) e) as [w1 l1]. apply IH; [exact A|cbn [fst] in V; congruence].
  - destruct (step (w, l) e) as [w1 l1]. destruct (run_log es w1 l1) as (new & L). unfold run in L. rewrite L, challenges_app. apply in_or_app. left. exact I.
Qed.

(* what a challenge without Basic makes of the password *)
Lemma new_digest_basic uri ch d : new_digest uri ch = Ok d -> d_basic d = true -> asks_basic ch.
Proof.
  unfold new_digest, asks_basic. cbv zeta. intros N B. destruct (has_prefix (bs "Digest ") (trim_space ch)) eqn:D.
  - match type of N with bind ?m _ = _ => destruct m as [d0|e| |] eqn:S; try discriminate N end. cbn [bind] in N. apply set_attrs_fresh in S. destruct S as (_ & F & _). cbn [d_basic] in F.
    match type of N with (if ?c then _ else _) = _ => destruct c; [discriminate N|] end. injection N as ->. congruence.
  - destruct (has_prefix (bs "Basic ") (trim_space ch)) eqn:P; [|discriminate N]. apply has_prefix_inv in P. eexists. exact P.
Qed.
Lemma agree_hash user p1 p2 ch : ~ asks_basic ch -> (forall realm, in_realm ch realm -> H (colons [user; realm; p1]) = H (colons [user; realm; p2])) ->
  agree (Some (user, p1)) (Some (user, p2)) ch.
Proof.
  intros NB HH uri d N rnd. destruct (d_basic d) eqn:B; [contradiction NB; eapply new_digest_basic; eauto|]. specialize (HH (d_realm d) (ex_intro _ uri (ex_intro _ d (conj N eq_refl)))).
  unfold authenticate. rewrite B. destruct d as [ba us re dm no op st al cn qo ur h1 h2 nc ct]. cbn [d_realm] in HH. rewrite !colonnade_colons, !md5hex_H, HH. reflexivity.
Qed.
Lemma new_digest_of_basic uri ch d : new_digest uri ch = Ok d -> asks_basic ch -> d_basic d = true.
Proof.
  unfold new_digest, asks_basic. cbv zeta. intros N (rest & E). rewrite E in N. change (has_prefix (bs "Digest ") (bs "Basic " ++ rest)) with false in N. rewrite has_prefix_app in N. cbv iota in N.
  match type of N with bind ?m _ = _ => destruct m as [d0|e| |] eqn:S; try discriminate N end. cbn [bind] in N. apply set_attrs_fresh in S. destruct S as (_ & F & _). cbn [d_basic] in F.
  match type of N with (if ?c then _ else _) = _ => destruct c; [discriminate N|] end. injection N as ->. exact F.
Qed.
Lemma retry_basic w r req user pass d :
  qget (s_queue (w_s w)) (p_cseq r) = Some req -> p_code r = 401 -> s_proto (w_s w) <> ProtoHTTP ->
  s_user (w_s w) = Some (user, pass) -> new_digest (s_uri (w_s w)) (header_get (p_header r) (bs "WWW-Authenticate")) = Ok d -> d_basic d = true ->
  exists rq w' o, handle_response w r = (w', o) /\ w_log w' = w_log w ++ [Got r; Sent true rq] /\ q_auth rq = bs "Basic " ++ b64_encode (user ++ bs ":" ++ pass).
Proof.
  intros Q C P U D B. unfold handle_response. cbv zeta. cbn [note w_s]. rewrite Q. destruct (p_code r =? 401) eqn:E; [|lia].
  unfold retry, authorize. cbn [upd_s note w_s set_queue s_uri s_user w_rand]. rewrite D, U. unfold authenticate. rewrite B.
  unfold call_auth. cbn [w_s set_auth s_auth]. unfold auth_call. rewrite B. rewrite colonnade_colons.
  unfold enqueue. cbv zeta. cbn [q_verb q_uri q_auth q_header set_auth s_cseq s_session s_queue set_queue].
  unfold write, upd_s. cbn [w_s w_in w_writes w_listens w_rand w_log note set_queue set_auth s_proto]. destruct (s_proto (w_s w) =? ProtoHTTP) eqn:EP; [lia|]. cbv zeta.
  destruct (w_writes w) as [|[e|] ?]; cbn iota; do 3 eexists; (split; [reflexivity|]); cbn [w_log]; (split; [rewrite <- app_assoc; reflexivity|reflexivity]).
Qed.
