(* Lemmas on the command-line client. *)
From Coq Require Import String.
From Verif Require Import Base GoStrings S_rtp M_rtp S_nal M_nal M_conn M_message M_transport M_sdp M_digest M_session S_session M_main S_main
  L_base L_rtp L_nal L_session L_flow.
From Coq Require Import ZifyBool ZifyNat.

(* ---- what a turn of the loop adds to the log ---- *)
Definition own (e : effect) : Prop := match e with Sent false r => waits_for (q_verb r) = None | _ => True end.
Definition grows (n : nat) (w w' : world) : Prop := exists es, w_log w' = w_log w ++ es /\ Forall own es /\ (length (signals es) <= n)%nat.

Lemma grows_refl n w w' : w_log w' = w_log w -> grows n w w'.
Proof. intros E. exists []. rewrite app_nil_r. splits; [exact E|constructor|cbn; lia]. Qed.
Lemma grows_trans n m w1 w2 w3 : grows n w1 w2 -> grows m w2 w3 -> grows (n + m) w1 w3.
Proof.
  intros (e1 & L1 & F1 & N1) (e2 & L2 & F2 & N2). exists (e1 ++ e2). splits.
  - rewrite L2, L1, app_assoc. reflexivity.
  - apply Forall_app. auto.
  - unfold signals in *. rewrite filter_app, app_length. lia.
Qed.
Lemma grows_le n m w w' : grows n w w' -> (n <= m)%nat -> grows m w w'.
Proof. intros (es & L & F & N) H. exists es. splits; auto. lia. Qed.
Lemma grows_note n w e w' : own e -> w_log w' = w_log w ++ [e] -> (length (signals [e]) <= n)%nat -> grows n w w'.
Proof. intros O L N. exists [e]. splits; auto. Qed.
Lemma grows_from n w w1 w' : w_log w1 = w_log w -> grows n w1 w' -> grows n w w'.
Proof. intros E (es & L & F & N). exists es. splits; auto. congruence. Qed.

Lemma write_log w again r w' o : write w again r = (w', o) -> w_log w' = w_log w \/ w_log w' = w_log w ++ [Sent again r].
Proof. unfold write. destruct (s_proto (w_s w) =? ProtoHTTP); [intros E; inversion E; auto|]. cbv zeta. destruct (w_writes w) as [|[e|] ?]; intros E; inversion E; subst; right; reflexivity. Qed.
Lemma command_log w verb uri hs w' o : command w verb uri hs = (w', o) -> w_log w' = w_log w \/ exists r, w_log w' = w_log w ++ [Sent false r] /\ q_verb r = verb.
Proof.
  unfold command. destruct (s_conn (w_s w)); cbn [negb]; [|intros E; inversion E; auto]. cbv zeta. destruct (call_auth (w_s w) verb) as [s1 auth] eqn:A.
  unfold enqueue. cbv zeta beta iota. intros E. apply write_log in E as [E|E]; [left; exact E|]. right. eexists. split; [exact E|]. reflexivity.
Qed.
Lemma command_grows w verb uri hs w' o : waits_for verb = None -> command w verb uri hs = (w', o) -> grows 0 w w'.
Proof. intros V E. apply command_log in E as [E|(r & E & Q)]; [apply grows_refl; exact E|]. apply (grows_note _ _ (Sent false r)); [cbn; congruence|exact E|cbn; lia]. Qed.
Lemma with_conn_log w k w' o : with_conn w k = (w', o) -> w_log w' = w_log w \/ k (w_s w) = (w', o).
Proof. unfold with_conn. destruct (s_conn (w_s w)); [auto|]. intros E. inversion E. auto. Qed.
Lemma setup_from_grows todo : forall w i w' o, setup_from w i todo = (w', o) -> grows 0 w w'.
Proof.
  induction todo as [|f todo IH]; intros w i w' o E; cbn [setup_from] in E; [inversion E; apply grows_refl; reflexivity|].
  destruct (setup_uri (w_s w) (m_control (fd_media f))) as [uri|e| |]; try (inversion E; apply grows_refl; reflexivity).
  destruct (command w (bs "SETUP") uri [(bs "Transport", transport_string (fd_transp f))]) as [w1 [u|e| |]] eqn:EC; apply command_grows in EC; try reflexivity; try (inversion E; subst; exact EC).
  apply (grows_trans 0 0 _ w1); [exact EC|]. apply IH in E. eapply grows_from; [|exact E]. reflexivity.
Qed.
Lemma keepalive_grows w t1 t2 w' o : keepalive w t1 t2 = (w', o) -> grows 0 w w'.
Proof.
  intros E. apply with_conn_log in E as [E|E]; [apply grows_refl; exact E|].
  destruct (negb (s_proto (w_s w) =? ProtoHTTP) && negb (s_proto (w_s w) =? ProtoTCP) && (s_stage (w_s w) >? StageInit) && (s_stage (w_s w) <? StageDone)); [|inversion E; apply grows_refl; reflexivity].
  destruct (match s_last (w_s w) with None => true | Some l => t1 - l >=? keepAliveTimeout end); [|inversion E; apply grows_refl; reflexivity].
  apply command_grows in E; [|reflexivity]. eapply (grows_trans 0 0); [|exact E]. apply (grows_note _ _ (Alive t1 t2)); [exact I|reflexivity|cbn; lia].
Qed.
Lemma add_sink_grows w ch port w' o : add_sink w ch port = (w', o) -> grows 0 w w'.
Proof.
  unfold add_sink. destruct (w_listens w) as [|[e|] l]; intros E; inversion E; subst; try (apply grows_refl; reflexivity);
    (apply (grows_note _ _ (Listening ch port)); [exact I|reflexivity|cbn; lia]).
Qed.
Lemma setup_feeds_grows todo : forall w cseq v i w' o, setup_feeds w cseq v i todo = (w', o) -> grows 0 w w'.
Proof.
  induction todo as [|f todo IH]; intros w cseq v i w' o E; cbn [setup_feeds] in E; [inversion E; apply grows_refl; reflexivity|].
  destruct (fd_cseq f =? cseq); [|eapply IH; exact E]. cbv zeta in E.
  destruct (transport_setup f v) as [f' [u|e| |]]; try (inversion E; subst; apply grows_refl; reflexivity).
  destruct (t_tcp (fd_transp f')); [apply IH in E; eapply grows_from; [|exact E]; reflexivity|].
  match type of E with context [add_sink ?a ?b ?p] => destruct (add_sink a b p) as [w1 [u1|e1| |]] eqn:E1; apply add_sink_grows in E1; apply (grows_from 0 w _ _ eq_refl) in E1 end; try (inversion E; subst; exact E1).
  match type of E with context [add_sink ?a ?b ?p] => destruct (add_sink a b p) as [w2 [u2|e2| |]] eqn:E2; apply add_sink_grows in E2 end;
    (eapply (grows_trans 0 0); [exact E1|]); try (inversion E; subst; exact E2).
  eapply (grows_trans 0 0); [exact E2|]. eapply IH. exact E.
Qed.

Definition loud (o : res unit) : nat := match o with Err _ => 0 | _ => 1 end.
Lemma handle_setup_grows w r w' o : handle_setup w r = (w', o) -> grows (loud o) w w'.
Proof.
  unfold handle_setup.
  assert (F : forall w w' o, (if s_feedidx (w_s w) >=? zlen (s_feeds (w_s w)) then (note (notify w StageReady) Started, @Ok unit tt) else (w, Ok tt)) = (w', o) -> grows (loud o) w w').
  { clear. intros w w' o. destruct (s_feedidx (w_s w) >=? zlen (s_feeds (w_s w))); intros E; inversion E; subst; [|apply grows_refl; reflexivity].
    exists [Notified StageReady; Started]. splits; [cbn; rewrite <- app_assoc; reflexivity|repeat constructor|cbn; lia]. }
  destruct (p_code r =? 200).
  - destruct (setup_feeds w (p_cseq r) (header_get (p_header r) (bs "Transport")) 0 (s_feeds (w_s w))) as [w1 [u|e| |]] eqn:E;
      apply setup_feeds_grows in E; intros X; try (inversion X; subst; eapply grows_le; [exact E|cbn; lia]).
    apply F in X. change (loud o) with (0 + loud o)%nat. eapply grows_trans; eassumption.
  - destruct (p_code r =? 401); cbn [negb]; intros X; apply F in X; exact X.
Qed.
Lemma react_grows w req r w' o : react w req r = (w', o) -> grows (loud o) w w'.
Proof.
  unfold react. destruct (beq (q_verb req) (bs "OPTIONS")).
  { destruct (s_stage (w_s w) =? StageInit); [|intros E; inversion E; apply grows_refl; reflexivity]. intros E.
    apply with_conn_log in E as [E|E]; [apply grows_refl; exact E|]. apply command_grows in E; [|reflexivity]. eapply grows_le; [eapply grows_from; [|exact E]; reflexivity|lia]. }
  destruct (beq (q_verb req) (bs "DESCRIBE")).
  { destruct (p_body r) as [body|]; [|intros E; inversion E; apply grows_refl; reflexivity].
    destruct (parse_feeds (s_proto (w_s w)) body) as [fs| | |]; intros E; try (inversion E; apply grows_refl; reflexivity).
    apply setup_from_grows in E. eapply grows_le; [eapply grows_from; [|exact E]; reflexivity|lia]. }
  assert (K : forall st w' o, (if p_code r =? 200 then notify w st else w, @Ok unit tt) = (w', o) -> grows (loud o) w w').
  { intros st w2 o2 E. destruct (p_code r =? 200); inversion E; subst; [|apply grows_refl; reflexivity]. apply (grows_note _ _ (Notified st)); [exact I|reflexivity|cbn; lia]. }
  destruct (beq (q_verb req) (bs "PAUSE")); [apply K|]. destruct (beq (q_verb req) (bs "PLAY")); [apply K|]. destruct (beq (q_verb req) (bs "TEARDOWN")); [apply K|].
  destruct (beq (q_verb req) (bs "SETUP")); [apply handle_setup_grows|]. intros E; inversion E; apply grows_refl; reflexivity.
Qed.
Lemma retry_grows w req r w' o : retry w req r = (w', o) -> grows 0 w w'.
Proof.
  unfold retry, authorize. destruct (new_digest (s_uri (w_s w)) (header_get (p_header r) (bs "WWW-Authenticate"))) as [d| | |]; try (intros E; inversion E; apply grows_refl; reflexivity).
  destruct (s_user (w_s w)) as [[user pass]|]; [|intros E; inversion E; apply grows_refl; reflexivity].
  destruct (authenticate d user pass (hd [] (w_rand w))) as [d' text]. 
  destruct (call_auth _ (q_verb req)) as [s2 auth]. unfold enqueue. cbv zeta beta iota.
  intros E. apply write_log in E as [E|E]; [apply grows_refl; exact E|]. eapply (grows_note _ _ (Sent true _)); [exact I|exact E|cbn; lia].
Qed.
Lemma handle_response_grows w r w' o : handle_response w r = (w', o) -> grows (loud o) w w'.
Proof.
  unfold handle_response. cbv zeta. cbn [note w_s].
  assert (G : grows 0 w (note w (Got r))) by (apply (grows_note _ _ (Got r)); [exact I|reflexivity|cbn; lia]).
  destruct (qget (s_queue (w_s w)) (p_cseq r)) as [req|]; [|intros E; inversion E; subst; exact G].
  destruct (p_code r =? 401); intros E; change (loud o) with (0 + loud o)%nat; (eapply grows_trans; [exact G|]).
  - apply retry_grows in E. eapply grows_le; [exact E|lia].
  - apply react_grows in E. exact E.
Qed.
Lemma receive_grows w w' o : receive w = (w', o) -> grows (loud o) w w'.
Proof.
  unfold receive.
  assert (Z : forall s w' (o : res unit) x, (upd_in w s, x) = (w', o) -> grows (loud o) w w') by (intros s w2 o2 x E; inversion E; apply grows_refl; reflexivity).
  assert (H : forall s w' o, match unpack_response s with
      | (s1, Ok r) => handle_response (upd_in w s1) r | (s1, Err e) => (upd_in w s1, Err e) | (s1, Panic) => (upd_in w s1, Panic) | (s1, Fuel) => (upd_in w s1, Fuel) end = (w', o) -> grows (loud o) w w').
  { intros s w2 o2. destruct (unpack_response s) as [s1 [r|e| |]]; try apply Z. intros E. apply handle_response_grows in E. exact E. }
  destruct (peek 1 (w_in w)) as [s0 [b|e| |]]; try apply Z.
  destruct b as [|b0 bt]; [apply H|]. destruct (Z.eq_dec b0 36) as [->|N].
  - destruct bt; [|apply H]. destruct (read_byte (discard 1 s0)) as [s1 [ch|e| |]]; try apply Z. destruct (read_uint16 s1) as [s2 [len|e| |]]; try apply Z.
    destruct (read_bytes len s2) as [s3 [p|e| |]]; try apply Z. intros E. inversion E; subst. apply (grows_note _ _ (Delivered ch p)); [exact I|reflexivity|cbn; lia].
  - destruct b0 as [|q|q]; try apply H. repeat (destruct q as [q|q|]; try apply H). contradiction N. reflexivity.
Qed.
Lemma turn_grows w t1 t2 w' en : turn w t1 t2 = (w', en) -> grows (match en with Stop => 0 | _ => 1 end) w w'.
Proof.
  unfold turn. destruct (keepalive w t1 t2) as [w1 k] eqn:K. apply keepalive_grows in K.
  assert (R : match receive w1 with (w, Ok _) => (w, Again) | (w, Err e) => (w, if is_timeout e then Again else Stop) | (w, Panic) | (w, Fuel) => (w, Crash) end = (w', en) -> grows (match en with Stop => 0 | _ => 1 end) w w').
  { destruct (receive w1) as [w3 x] eqn:R. apply receive_grows in R. intros E.
    assert (w' = w3) by (destruct x; inversion E; reflexivity). subst w'. eapply grows_le; [eapply grows_trans; [exact K|exact R]|].
    destruct x as [u|e| |]; try destruct (is_timeout e); inversion E; cbn; lia. }
  destruct k as [u|e| |]; [exact R| | |]; try (intros E; inversion E; subst; eapply grows_le; [exact K|lia]).
  destruct (s_stage (w_s w1) =? StageDone); [|exact R]. intros E; inversion E; subst. exact K.
Qed.

Lemma news_app w w' es : w_log w' = w_log w ++ es -> news w w' = es.
Proof. intros E. unfold news. rewrite E, skipn_app, skipn_all, Nat.sub_diag. reflexivity. Qed.

(* ---- order ---- *)
Lemma in_order_app log es : in_order log -> Forall own es -> in_order (log ++ es).
Proof.
  intros O F a r b n E V. apply app_eq_app in E as (m & [[E1 E2]|[E1 E2]]).
  - destruct m as [|x m]; cbn [app] in E2.
    + rewrite app_nil_r in E1. subst. apply Forall_inv in F. cbn in F. congruence.
    + injection E2 as <- ->. eapply O; eauto.
  - subst. rewrite Forall_app in F. destruct F as [_ F]. apply Forall_inv in F. cbn in F. congruence.
Qed.
Lemma in_order_snoc log r : in_order log -> (forall n, waits_for (q_verb r) = Some n -> In (Notified n) log) -> in_order (log ++ [Sent false r]).
Proof.
  intros O F a r' b n E V. apply app_eq_app in E as (m & [[E1 E2]|[E1 E2]]).
  - destruct m as [|x m]; cbn [app] in E2.
    + rewrite app_nil_r in E1. injection E2 as E2 _. subst. auto.
    + injection E2 as <- ->. eapply O; eauto.
  - destruct m as [|x m]; cbn [app] in E2; [injection E2 as <- <-; rewrite app_nil_r in E1; subst; auto|]. injection E2 as _ E2. destruct m; discriminate.
Qed.
(* the log, with what the client knows *)
Definition good (y : system) : Prop :=
  in_order (w_log (y_w y)) /\ (forall n, y_stage y = Some n -> In (Notified n) (w_log (y_w y))) /\
  (c_state (y_c y) <> 0 -> In (Notified (c_state (y_c y))) (w_log (y_w y))).

Lemma stages_in_In es n : hd_error (stages_in es) = Some n -> In (Notified n) es.
Proof.
  unfold stages_in. induction es as [|e es IH]; [discriminate|]. cbn [flat_map]. destruct e; cbn [app]; try (intros H; right; apply IH; exact H). cbn. intros H. injection H as ->. auto.
Qed.

Lemma must_cmd w c verb w' c' f n (r : world * res unit) : (w_log (fst r) = w_log w \/ exists q, w_log (fst r) = w_log w ++ [Sent false q] /\ q_verb q = verb) -> must r c = (w', c', f) ->
  waits_for verb = Some n -> In (Notified n) (w_log w) -> in_order (w_log w) ->
  c' = c /\ in_order (w_log w') /\ (forall e, In e (w_log w) -> In e (w_log w')).
Proof.
  destruct r as [w1 o]. cbn [fst]. intros L M V I O. assert (c' = c /\ w' = w1) as [-> ->] by (destruct o; inversion M; auto). split; [reflexivity|].
  destruct L as [->|(q & -> & Q)]; [auto|]. split; [|intros e He; apply in_or_app; auto]. apply in_order_snoc; [exact O|]. intros m Vm. congruence.
Qed.
Lemma with_conn_command w verb hs : let r := with_conn w (fun s => command w verb (s_uri s) hs) in
  w_log (fst r) = w_log w \/ exists q, w_log (fst r) = w_log w ++ [Sent false q] /\ q_verb q = verb.
Proof. cbv zeta. destruct (with_conn w _) as [w' o] eqn:E. apply with_conn_log in E as [E|E]; [auto|]. apply command_log in E. exact E. Qed.

Lemma ystep_good y e y' : ystep y e = Some y' -> good y -> good y'.
Proof.
  unfold ystep. destruct (y_fate y) eqn:YF; try discriminate. intros H (O & S & C). destruct e.
  - destruct (y_loop y); try discriminate. destruct (y_stage y); try discriminate. destruct (zlen (y_data y) <=? 20); try discriminate.
    destruct (turn (y_w y) t1 t2) as [w en] eqn:T. apply turn_grows in T as (es & L & F & _). injection H as <-.
    unfold good. cbn [y_w y_stage y_c]. rewrite (news_app _ _ _ L), L. splits.
    + apply in_order_app; assumption.
    + intros n X. apply in_or_app. right. apply stages_in_In. exact X.
    + intros X. apply in_or_app. left. apply C. exact X.
  - destruct (y_stage y) as [n|] eqn:YS; try discriminate. specialize (S n eq_refl). unfold on_stage in H.
    destruct (n =? StageReady) eqn:E1.
    + destruct (must (play (y_w y)) _) as [[w c] f] eqn:M. assert (n = 1) as -> by (unfold StageReady in E1; lia).
      eapply (must_cmd _ _ (bs "PLAY") _ _ _ 1) in M; [|apply with_conn_command|reflexivity|exact S|exact O]. destruct M as (-> & M1 & M2). injection H as <-.
      unfold good. cbn [y_w y_stage y_c c_state]. splits; auto. discriminate.
    + cbn [c_sink c_running c_ticked] in H. destruct ((n =? StagePlay) || (n =? StagePause) || (n =? StageDone)); injection H as <-; unfold good; cbn [y_w y_stage y_c c_state]; splits; auto; discriminate.
  - destruct (y_data y) as [|[ch p] rest]; try discriminate. destruct (on_packet (y_c y) ch p) as [c f] eqn:P. injection H as <-.
    assert (c_state c = c_state (y_c y)) as E.
    { unfold on_packet in P. destruct (ch mod 2 =? 0).
      - destruct (rtp_unpack p) as [q|er| |]; try (inversion P; reflexivity). destruct (push (c_sink (y_c y)) (rtp_pl q) (rtp_ts q)) as [s [?|?| |]]; inversion P; reflexivity.
      - destruct (rtcp_unpack p); inversion P; reflexivity. }
    unfold good. cbn [y_w y_stage y_c]. rewrite E. auto.
  - destruct (c_ticked (y_c y)); try discriminate. cbv zeta in H. unfold on_tick in H. cbn [c_state] in H.
    destruct (c_state (y_c y) =? StagePlay) eqn:E1; [|destruct (c_state (y_c y) =? StagePause) eqn:E2].
    + destruct (must (pause (y_w y)) _) as [[w c] f] eqn:M. assert (c_state (y_c y) = 2) as E by (unfold StagePlay in E1; lia). rewrite E in *.
      eapply (must_cmd _ _ (bs "PAUSE") _ _ _ 2) in M; [|apply with_conn_command|reflexivity|apply C; lia|exact O]. destruct M as (-> & M1 & M2). injection H as <-.
      unfold good. cbn [y_w y_stage y_c c_state]. splits; auto.
    + destruct (must (teardown (y_w y)) _) as [[w c] f] eqn:M. assert (c_state (y_c y) = 3) as E by (unfold StagePause in E2; lia). rewrite E in *.
      eapply (must_cmd _ _ (bs "TEARDOWN") _ _ _ 3) in M; [|apply with_conn_command|reflexivity|apply C; lia|exact O]. destruct M as (-> & M1 & M2). injection H as <-.
      unfold good. cbn [y_w y_stage y_c c_state]. splits; auto.
    + destruct (c_state (y_c y) =? StageDone); injection H as <-; unfold good; cbn [y_w y_stage y_c c_state]; auto.
  - cbv zeta in H. destruct (c_running (y_c y)); try discriminate. injection H as <-. unfold good. cbn [y_w y_stage y_c c_state]. auto.
Qed.
Lemma yrun_good es : forall y y', yrun y es = Some y' -> good y -> good y'.
Proof.
  induction es as [|e es IH]; intros y y' H G; cbn [yrun] in H; [injection H as <-; exact G|]. destruct (ystep y e) as [y1|] eqn:E; [|discriminate].
  eapply IH; [exact H|]. eapply ystep_good; eassumption.
Qed.
Lemma launch_good w proto : opened w proto -> good (launch w).
Proof.
  intros (user & uri & Es & El). unfold launch. destruct (options w) as [w' r] eqn:E. pose proof (with_conn_command w (bs "OPTIONS") []) as L. cbv zeta in L. fold (options w) in L. rewrite E in L. cbn [fst] in L. rewrite El in L.
  unfold good. cbn [y_w y_stage y_c client0 c_state]. splits; [|discriminate|unfold StageInit; lia].
  destruct L as [L|(q & L & Q)]; rewrite L; [intros a r' b n X; destruct a; discriminate|].
  apply (in_order_snoc []); [intros a r' b n X; destruct a; discriminate|]. rewrite Q. discriminate.
Qed.

(* ---- the system's session goes through a history of the session model ---- *)
Definition lived (w0 : world) (y : system) : Prop := exists evs l, run (w0, Live) evs = (y_w y, l) /\ (y_fate y = Goes -> l = y_loop y).
Lemma run_snoc x evs e : run x (evs ++ [e]) = step (run x evs) e.
Proof. unfold run. apply fold_left_app. Qed.
Lemma must_fate r c w' c' f : must r c = (w', c', f) -> fst r = w' /\ (f = Goes -> exists u, snd r = Ok u).
Proof. destruct r as [w [u|e| |]]; cbn; intros E; inversion E; subst; split; try reflexivity; try discriminate. eauto. Qed.
Lemma cmd_step cm w l c w' c' f : l <> Dead -> must (do_cmd w cm) c = (w', c', f) -> exists l', step (w, l) (App cm) = (w', l') /\ (f = Goes -> l' = l).
Proof.
  intros D M. apply must_fate in M as [E G]. cbn [step]. destruct (do_cmd w cm) as [w1 [u|e| |]] eqn:C; cbn [fst snd] in *; subst w1.
  - exists l. destruct l; [split; auto|split; auto|contradiction].
  - exists l. destruct l; [split; auto|split; auto|contradiction].
  - exists Dead. destruct l; try contradiction; (split; [reflexivity|]; intros X; destruct (G X); discriminate).
  - exists Dead. destruct l; try contradiction; (split; [reflexivity|]; intros X; destruct (G X); discriminate).
Qed.
Lemma ystep_lived w0 y e y' : ystep y e = Some y' -> y_loop y <> Dead -> lived w0 y -> lived w0 y' /\ (y_fate y' = Goes -> y_loop y' <> Dead).
Proof.
  unfold ystep. destruct (y_fate y) eqn:YF; try discriminate. intros H D (evs & l & R & LL). specialize (LL YF). subst l.
  assert (K : forall cm w f l', step (y_w y, y_loop y) (App cm) = (w, l') -> (f = Goes -> l' = y_loop y) -> forall c st d, lived w0 (mkY w (y_loop y) c st d f) /\ (f = Goes -> y_loop y <> Dead)).
  { intros cm w f l' S G c st d. split; [|auto]. exists (evs ++ [App cm]), l'. rewrite run_snoc, R. split; [exact S|]. cbn [y_fate y_loop]. exact G. }
  assert (N : forall c st d f, lived w0 (mkY (y_w y) (y_loop y) c st d f) /\ (f = Goes -> y_loop y <> Dead)).
  { intros c st d f. split; [|auto]. exists evs, (y_loop y). cbn [y_w y_loop]. auto. }
  destruct e.
  - destruct (y_loop y) eqn:YL; try discriminate. destruct (y_stage y); try discriminate. destruct (zlen (y_data y) <=? 20); try discriminate.
    destruct (turn (y_w y) t1 t2) as [w en] eqn:T. injection H as <-. split.
    + exists (evs ++ [Turn t1 t2]). rewrite run_snoc, R. cbn [step]. rewrite T. destruct en; eexists; (split; [reflexivity|]); auto.
    + cbn [y_fate y_loop]. destruct en; discriminate.
  - destruct (y_stage y) as [n|]; try discriminate. unfold on_stage in H. destruct (n =? StageReady).
    + destruct (must (play (y_w y)) _) as [[w c] f] eqn:M. apply (cmd_step CPlay) with (l := y_loop y) in M as (l' & S & G); [|exact D]. injection H as <-. eapply K; eauto.
    + cbn [c_sink c_running c_ticked] in H. destruct ((n =? StagePlay) || (n =? StagePause) || (n =? StageDone)); injection H as <-; apply N.
  - destruct (y_data y) as [|[ch p] rest]; try discriminate. destruct (on_packet (y_c y) ch p) as [c f]. injection H as <-. apply N.
  - destruct (c_ticked (y_c y)); try discriminate. cbv zeta in H. unfold on_tick in H. cbn [c_state] in H.
    destruct (c_state (y_c y) =? StagePlay); [|destruct (c_state (y_c y) =? StagePause)].
    + destruct (must (pause (y_w y)) _) as [[w c] f] eqn:M. apply (cmd_step CPause) with (l := y_loop y) in M as (l' & S & G); [|exact D]. injection H as <-. eapply K; eauto.
    + destruct (must (teardown (y_w y)) _) as [[w c] f] eqn:M. apply (cmd_step CTeardown) with (l := y_loop y) in M as (l' & S & G); [|exact D]. injection H as <-. eapply K; eauto.
    + destruct (c_state (y_c y) =? StageDone); injection H as <-; apply N.
  - cbv zeta in H. destruct (c_running (y_c y)); try discriminate. injection H as <-. apply N.
Qed.
Lemma yrun_lived es : forall w0 y y', yrun y es = Some y' -> (y_fate y = Goes -> y_loop y <> Dead) -> lived w0 y -> lived w0 y'.
Proof.
  induction es as [|e es IH]; intros w0 y y' H D L; cbn [yrun] in H; [injection H as <-; exact L|]. destruct (ystep y e) as [y1|] eqn:E; [|discriminate].
  assert (F : y_fate y = Goes) by (unfold ystep in E; destruct (y_fate y); [reflexivity| | |]; discriminate).
  destruct (ystep_lived w0 _ _ _ E (D F) L) as [L1 D1]. eapply IH; eauto.
Qed.
Lemma launch_lived w proto : opened w proto -> lived w (launch w).
Proof.
  intros _. unfold launch. destruct (options w) as [w' r] eqn:E. exists [App COptions]. cbn [run fold_left step do_cmd y_w y_fate y_loop]. rewrite E.
  destruct r; eexists; (split; [reflexivity|]); auto; discriminate.
Qed.

(* ---- packets ---- *)
Definition sink_ok (c : client) : Prop := 0 <= s_don (c_sink c) < 2 ^ 16.
Lemma control_cases c ch p : bytes_ok p -> ch mod 2 = 1 ->
  (control_crash p /\ on_packet c ch p = (c, Crashes)) \/ (control_leave p /\ on_packet c ch p = (c, Returns)) \/
  (~ control_crash p /\ ~ control_leave p /\ on_packet c ch p = (c, Goes)).
Proof.
  intros B O. unfold on_packet. replace (ch mod 2 =? 0) with false by lia. unfold control_crash, control_leave.
  destruct (Z_lt_ge_dec (zlen p) 4) as [L|L].
  - left. rewrite rtcp_short by (unfold zlen in L; lia). auto.
  - destruct p as [|a [|b [|e [|d r]]]]; try (rewrite ?zlen_cons, ?zlen_nil in L; lia). set (p := a :: b :: e :: d :: r) in *.
    assert (V : version2 p <-> a / 64 = 2) by (split; [intros (x & y & X & Y); injection X as <- <-; exact Y|intros X; exists a, (b :: e :: d :: r); auto]).
    assert (K : cut_report p <-> b = 200 /\ zlen p < 28 + a mod 32 * 24).
    { split; [intros (x & y & X & Y); injection X as <- <- <-; auto|intros [-> X]; exists a, (e :: d :: r); auto]. }
    pose proof (rtcp_outcome a b e d r ltac:(inversion B; assumption)) as RO. cbv zeta in RO. fold p in RO. rewrite RO.
    change 31 with (Z.ones 5). rewrite Z.land_ones by lia. change (2 ^ 5) with 32. rewrite V, K.
    destruct (Z.eqb_spec (a / 64) 2) as [V'|V']; cbn [negb]; [|right; left; split; [lia|reflexivity]].
    destruct ((b =? 200) && (zlen p <? 28 + 24 * (a mod 32))) eqn:X; [right; left; split; [lia|reflexivity]|]. right; right. splits; [lia|lia|reflexivity].
Qed.

Lemma push_nals_don nals : forall s ts, Forall bytes_ok nals -> 0 <= s_don s < 2 ^ 16 -> 0 <= s_don (fst (push_nals s nals ts)) < 2 ^ 16.
Proof.
  induction nals as [|n r IH]; intros s ts H D; [exact D|]. apply Forall_cons_iff in H as [Hn H]. cbn [push_nals].
  pose proof (parse_don s n ts Hn D) as D'. destruct (parse_nal s n ts) as [s' [?|?| |]]; cbn [fst] in *; auto.
Qed.
Lemma push_don s buf ts : bytes_ok buf -> 0 <= s_don s < 2 ^ 16 -> 0 <= s_don (fst (push s buf ts)) < 2 ^ 16.
Proof. intros B D. destruct (push_nals_bytes buf B) as (nals & E & F). unfold push. rewrite E. apply push_nals_don; assumption. Qed.
Lemma rtp_payload_ok p q : bytes_ok p -> rtp_unpack p = Ok q -> bytes_ok (rtp_pl q).
Proof.
  intros B E. destruct (rtp_unpack_inv p q B E) as (h & _ & -> & _). unfold rtp_layout in B. rewrite !bytes_ok_app in B. tauto.
Qed.
Lemma packet_sink_ok c ch p : bytes_ok p -> sink_ok c -> sink_ok (fst (on_packet c ch p)).
Proof.
  intros B D. unfold on_packet. destruct (ch mod 2 =? 0).
  - destruct (rtp_unpack p) as [q|e| |] eqn:E; try exact D. pose proof (push_don (c_sink c) (rtp_pl q) (rtp_ts q) (rtp_payload_ok _ _ B E) D) as K.
    destruct (push (c_sink c) (rtp_pl q) (rtp_ts q)) as [s [?|?| |]]; exact K.
  - destruct (rtcp_unpack p); exact D.
Qed.
Lemma media_unready c ch p : bytes_ok p -> ch mod 2 = 0 ->
  (p = [] \/ version2 p /\ ~ rtp_complete p -> on_packet c ch p = (c, Crashes)) /\ (p <> [] /\ ~ version2 p -> on_packet c ch p = (c, Returns)).
Proof.
  intros B O. unfold on_packet. rewrite O. change (0 =? 0) with true. cbv iota.
  destruct (rtp_unpack_kinds p B) as [[-> E]|[(H & V & E)|(V & [[q E]|E])]]; rewrite E; split; intros X; auto.
  - destruct X as [X _]. contradiction.
  - destruct X as [->|[X _]]; contradiction.
  - exfalso. destruct X as [->|[_ X]]; [destruct V as (? & ? & V & _); discriminate|]. apply X. destruct (rtp_unpack_inv p q B E) as (h & H1 & H2 & _). exists h, (rtp_pl q). auto.
  - destruct X as [_ X]. contradiction.
  - destruct X as [_ X]. contradiction.
Qed.
Lemma media_layout c ch h payload : rtp_legal h -> ch mod 2 = 0 ->
  snd (on_packet c ch (rtp_layout h payload)) = match snd (push (c_sink c) payload (h_time h)) with Ok _ => Goes | Err _ => Returns | _ => Crashes end.
Proof.
  intros L O. unfold on_packet. rewrite O. change (0 =? 0) with true. cbv iota. rewrite rtp_unpack_layout by exact L. cbn [rtp_of rtp_pl rtp_ts].
  destruct (push (c_sink c) payload (h_time h)) as [s [?|?| |]]; reflexivity.
Qed.
Lemma safe_packet c ch p : bytes_ok p -> sink_ok c -> (if ch mod 2 =? 0 then media_safe p else control_safe p) -> snd (on_packet c ch p) <> Crashes.
Proof.
  intros B D S. destruct (ch mod 2 =? 0) eqn:O.
  - destruct S as [NE S]. destruct (rtp_unpack_kinds p B) as [[-> E]|[(H & V & E)|(V & _)]]; [congruence| |].
    + rewrite (proj2 (media_unready c ch p B ltac:(lia))) by auto. discriminate.
    + destruct (S V) as (h & payload & L & -> & N). rewrite media_layout by (auto; lia).
      assert (BP : bytes_ok payload) by (unfold rtp_layout in B; rewrite !bytes_ok_app in B; tauto).
      destruct (push_nals_bytes payload BP) as (nals & E & F). specialize (N _ E). unfold push. rewrite E.
      destruct (push_nals_outcome nals (c_sink c) (h_time h) F D) as [[_ X]|[X|X]]; [|rewrite X; discriminate|rewrite X; discriminate].
      exfalso. apply Exists_exists in X as (n & I & C). rewrite Forall_forall in N. exact (N n I C).
  - unfold control_safe in S. destruct (control_cases c ch p B ltac:(pose proof (Z.mod_pos_bound ch 2); lia)) as [[X _]|[[_ X]|(_ & _ & X)]]; [unfold control_crash in X; lia| |]; rewrite X; discriminate.
Qed.
