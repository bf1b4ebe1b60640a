(* Lemmas: what a session takes from its connection. *)
From Coq Require Import String.
From Verif Require Import Base GoStrings M_conn S_message M_message M_transport M_sdp M_digest M_sps M_session S_session
  L_base L_strings L_rtp L_digest L_message L_session.
From Coq Require Import ZifyBool ZifyNat.

Local Opaque digest_response.

(* nothing is read, nothing heard *)
Definition acts (w w' : world) : Prop := w_in w' = w_in w /\ exists new, w_log w' = w_log w ++ new /\ incoming new = [].
Lemma acts_refl w : acts w w.
Proof. split; [reflexivity|]. exists []. rewrite app_nil_r. split; reflexivity. Qed.
Lemma acts_trans a b c : acts a b -> acts b c -> acts a c.
Proof.
  intros (I1 & n1 & L1 & F1) (I2 & n2 & L2 & F2). split; [congruence|]. exists (n1 ++ n2). rewrite L2, L1, app_assoc. split; [reflexivity|].
  unfold incoming in *. rewrite filter_app, F1, F2. reflexivity.
Qed.
Lemma acts_same w w' : w_in w' = w_in w -> w_log w' = w_log w -> acts w w'.
Proof. intros I L. split; [exact I|]. exists []. rewrite app_nil_r. auto. Qed.
Lemma acts_note w e : is_incoming e = false -> acts w (note w e).
Proof. intros H. split; [reflexivity|]. exists [e]. split; [reflexivity|]. cbn [incoming filter]. rewrite H. reflexivity. Qed.

Lemma write_acts w a r w' o : write w a r = (w', o) -> acts w w'.
Proof.
  unfold write. destruct (s_proto (w_s w) =? ProtoHTTP); [intros E; inversion E; subst; apply acts_refl|]. cbv zeta. intros E.
  assert (X : w' = mkW (w_s w) (w_in w) (tl (w_writes w)) (w_listens w) (w_rand w) (w_log w ++ [Sent a r])) by (destruct (w_writes w) as [|[e|] ?]; inversion E; reflexivity).
  subst. split; [reflexivity|]. exists [Sent a r]. split; reflexivity.
Qed.
Lemma command_acts w verb uri hs w' o : command w verb uri hs = (w', o) -> acts w w'.
Proof.
  unfold command. destruct (negb (s_conn (w_s w))); [intros E; inversion E; subst; apply acts_refl|]. cbv zeta.
  destruct (call_auth (w_s w) verb) as [s1 auth]. unfold enqueue. cbv zeta beta iota. intros E. apply write_acts in E. exact E.
Qed.
Lemma with_conn_acts w k w' o : (forall w' o, k (w_s w) = (w', o) -> acts w w') -> with_conn w k = (w', o) -> acts w w'.
Proof. unfold with_conn. intros K. destruct (s_conn (w_s w)); [apply K|]. intros E. inversion E; subst. apply acts_refl. Qed.
Lemma setup_from_acts todo : forall w i w' o, setup_from w i todo = (w', o) -> acts w w'.
Proof.
  induction todo as [|f todo IH]; intros w i w' o E; cbn [setup_from] in E; [inversion E; subst; apply acts_refl|].
  destruct (setup_uri (w_s w) (m_control (fd_media f))) as [uri|e| |]; try (inversion E; subst; apply acts_refl).
  destruct (command w (bs "SETUP") uri [(bs "Transport", transport_string (fd_transp f))]) as [w1 [u|e| |]] eqn:EC;
    apply command_acts in EC; try (inversion E; subst; exact EC).
  apply IH in E. eapply acts_trans; [exact EC|exact E].
Qed.
Lemma keepalive_acts w t1 t2 w' o : keepalive w t1 t2 = (w', o) -> acts w w'.
Proof.
  apply with_conn_acts. clear w' o. intros w' o. destruct (_ && _); [|intros X; inversion X; subst; apply acts_refl].
  destruct (match s_last (w_s w) with None => true | Some l => t1 - l >=? keepAliveTimeout end); [|intros X; inversion X; subst; apply acts_refl].
  intros X. apply command_acts in X. eapply acts_trans; [|exact X]. apply (acts_note (upd_s w (fun s => set_last s (Some t2))) (Alive t1 t2)). reflexivity.
Qed.
Lemma do_cmd_acts w c w' o : do_cmd w c = (w', o) -> acts w w'.
Proof.
  destruct c; cbn [do_cmd]; try (apply with_conn_acts; intros ? ?; apply command_acts).
  - apply setup_from_acts.
  - apply keepalive_acts.
Qed.
Lemma add_sink_acts w ch port w' o : add_sink w ch port = (w', o) -> acts w w'.
Proof.
  unfold add_sink. destruct (w_listens w) as [|[e|] l]; intros E; inversion E; subst; try (apply acts_same; reflexivity);
    (split; [reflexivity|]; exists [Listening ch port]; split; reflexivity).
Qed.
Lemma setup_feeds_acts todo : forall w cseq v i w' o, setup_feeds w cseq v i todo = (w', o) -> acts w w'.
Proof.
  induction todo as [|f todo IH]; intros w cseq v i w' o E; cbn [setup_feeds] in E; [inversion E; subst; apply acts_refl|].
  destruct (fd_cseq f =? cseq); [|eapply IH; exact E]. cbv zeta in E.
  destruct (transport_setup f v) as [f' [u|e| |]]; try (inversion E; subst; apply acts_same; reflexivity).
  destruct (t_tcp (fd_transp f')); [apply IH in E; exact E|].
  match type of E with context [add_sink ?a ?b ?p] => destruct (add_sink a b p) as [w1 [u1|e1| |]] eqn:E1; apply add_sink_acts in E1 end; try (inversion E; subst; exact E1).
  match type of E with context [add_sink ?a ?b ?p] => destruct (add_sink a b p) as [w2 [u2|e2| |]] eqn:E2; apply add_sink_acts in E2 end; try (inversion E; subst; eapply acts_trans; [exact E1|exact E2]).
  apply IH in E. eapply acts_trans; [exact E1|]. eapply acts_trans; [exact E2|exact E].
Qed.
Lemma notify_acts w st : acts w (notify w st).
Proof. apply (acts_note (upd_s w (fun s => set_stage s st)) (Notified st)). reflexivity. Qed.
Lemma handle_setup_acts w r w' o : handle_setup w r = (w', o) -> acts w w'.
Proof.
  unfold handle_setup.
  assert (F : forall w w' o, (if s_feedidx (w_s w) >=? zlen (s_feeds (w_s w)) then (note (notify w StageReady) Started, @Ok unit tt) else (w, Ok tt)) = (w', o) -> acts w w').
  { clear. intros w w' o E. destruct (s_feedidx (w_s w) >=? zlen (s_feeds (w_s w))); inversion E; subst; [|apply acts_refl].
    eapply acts_trans; [apply notify_acts|]. apply acts_note. reflexivity. }
  destruct (p_code r =? 200).
  - destruct (setup_feeds w (p_cseq r) (header_get (p_header r) (bs "Transport")) 0 (s_feeds (w_s w))) as [w1 [u|e| |]] eqn:E;
      apply setup_feeds_acts in E; intros X; try (inversion X; subst; exact E). apply F in X. eapply acts_trans; eassumption.
  - destruct (p_code r =? 401); cbn [negb]; intros X; apply F in X; exact X.
Qed.
Lemma react_acts w req r w' o : react w req r = (w', o) -> acts w w'.
Proof.
  unfold react. destruct (beq (q_verb req) (bs "OPTIONS")).
  { destruct (s_stage (w_s w) =? StageInit); [|intros E; inversion E; subst; apply acts_refl]. intros E.
    eapply with_conn_acts in E; [exact E|]. intros ? ?. apply command_acts. }
  destruct (beq (q_verb req) (bs "DESCRIBE")).
  { destruct (p_body r) as [body|]; [|intros E; inversion E; subst; apply acts_refl].
    destruct (parse_feeds (s_proto (w_s w)) body) as [fs| | |]; intros E; try (inversion E; subst; apply acts_refl).
    apply setup_from_acts in E. exact E. }
  assert (K : forall st w' o, (if p_code r =? 200 then notify w st else w, @Ok unit tt) = (w', o) -> acts w w').
  { intros st w2 o2 E. destruct (p_code r =? 200); inversion E; subst; [apply notify_acts|apply acts_refl]. }
  destruct (beq (q_verb req) (bs "PAUSE")); [apply K|]. destruct (beq (q_verb req) (bs "PLAY")); [apply K|].
  destruct (beq (q_verb req) (bs "TEARDOWN")); [apply K|]. destruct (beq (q_verb req) (bs "SETUP")); [apply handle_setup_acts|].
  intros E; inversion E; subst; apply acts_refl.
Qed.
Lemma retry_acts w req r w' o : retry w req r = (w', o) -> acts w w'.
Proof.
  unfold retry, authorize. destruct (new_digest (s_uri (w_s w)) (header_get (p_header r) (bs "WWW-Authenticate"))) as [d| | |];
    try (intros E; inversion E; subst; apply acts_refl).
  destruct (s_user (w_s w)) as [[user pass]|]; [|intros E; inversion E; subst; apply acts_refl].
  destruct (authenticate d user pass (hd [] (w_rand w))) as [d' text]. cbn [w_s].
  destruct (call_auth (set_auth (w_s w) (Some (text, d'))) (q_verb req)) as [s2 out2]. unfold enqueue. cbv zeta beta iota.
  intros E. apply write_acts in E. exact E.
Qed.
Lemma handle_response_acts w r w' o : handle_response w r = (w', o) -> acts (note w (Got r)) w'.
Proof.
  unfold handle_response. cbv zeta. destruct (qget (s_queue (w_s (note w (Got r)))) (p_cseq r)) as [req|]; [|intros E; inversion E; subst; apply acts_refl].
  destruct (p_code r =? 401); intros E; [apply retry_acts in E|apply react_acts in E]; exact E.
Qed.

Lemma sent_cons b l : sent (b :: l) = Some b :: sent l.
Proof. reflexivity. Qed.

Lemma read_uint16_sent n s : 0 <= n < 65536 -> read_uint16 (sent (be_put 2 n) ++ s) = (s, Ok n).
Proof.
  intros H. cbn [be_put sent map app read_uint16 read_byte]. do 2 f_equal. change (256 ^ Z.of_nat 1) with 256. change (256 ^ Z.of_nat 0) with 1. rewrite Z.div_1_r.
  Z.div_mod_to_equations; lia.
Qed.

Lemma receive_frame w ch p rest : zlen p <= 65535 -> w_in w = sent (frame_text ch p) ++ rest ->
  receive w = if zlen p <=? 2048 then (note (upd_in w rest) (Delivered ch p), Ok tt) else (upd_in w (sent p ++ rest), Err ErrBufferFull).
Proof.
  intros L E. unfold receive. rewrite E. unfold frame_text. cbn [app]. rewrite !sent_cons. cbn [app]. unfold peek at 1. change (1 >? bufio_size) with false.
  change (Z.to_nat 1) with 1%nat. cbn [take_bytes]. unfold discard. cbn [skipn read_byte]. rewrite sent_app, <- app_assoc.
  rewrite read_uint16_sent by (pose proof (zlen_nonneg p); lia).
  destruct (zlen p <=? 2048) eqn:C; [rewrite read_bytes_sent by lia; reflexivity|rewrite read_bytes_long by lia; reflexivity].
Qed.

Lemma receive_item w it rest w' o : item_ok it -> w_in w = item_stream it ++ rest -> receive w = (w', o) ->
  w_in w' = rest /\ (exists new, w_log w' = w_log w ++ new /\ heard it (incoming new)) /\
  match it with Frame _ _ => o = Ok tt | Quiet => o = Err ErrTimeout | Resp _ _ _ _ => True end.
Proof.
  intros K E R. destruct it as [ch p|code reason fs body|]; cbn [item_ok item_stream heard] in *.
  - destruct K as (B & L). rewrite (receive_frame w ch p rest) in R by (try exact E; lia). destruct (zlen p <=? 2048) eqn:C; [|lia]. inversion R; subst.
    splits; [reflexivity| |reflexivity]. exists [Delivered ch p]. split; reflexivity.
  - destruct K as (C & Rn & F & Co & L).
    destruct (unpack_response_spec code reason fs body rest C Rn F Co L) as (r & U & H1 & H2 & H3 & H4). fold (sent (response_text (bs "RTSP/1.0") code reason fs body)) in U. rewrite <- E in U.
    unfold receive in R.
    assert (P : peek 1 (w_in w) = (w_in w, Ok [82])).
    { rewrite E. unfold response_text. change (bs "RTSP/1.0") with (82 :: bs "TSP/1.0"). cbn [app]. rewrite sent_cons. reflexivity. }
    rewrite P in R. cbv beta iota in R. rewrite U in R. apply handle_response_acts in R. destruct R as (I & new & Lg & Fn). cbn [note upd_in w_in w_log] in *.
    splits; [exact I| |exact Logic.I]. exists (Got r :: new). split; [rewrite Lg, <- app_assoc; reflexivity|]. cbn [incoming filter is_incoming]. fold (incoming new). rewrite Fn.
    exists r. splits; auto.
  - unfold receive in R. rewrite E in R. cbn [app] in R. unfold peek in R. change (1 >? bufio_size) with false in R. change (Z.to_nat 1) with 1%nat in R. cbn [take_bytes] in R. inversion R; subst.
    splits; [reflexivity| |reflexivity]. exists []. rewrite app_nil_r. split; reflexivity.
Qed.

Lemma turn_item w t1 t2 it rest w' x : item_ok it -> w_in w = item_stream it ++ rest -> turn w t1 t2 = (w', x) ->
  (exists new, w_log w' = w_log w ++ new /\
    ((w_in w' = rest /\ heard it (incoming new)) \/ (w_in w' = w_in w /\ incoming new = [] /\ x <> Again))).
Proof.
  intros K E T. unfold turn in T. destruct (keepalive w t1 t2) as [w1 k] eqn:KA. apply keepalive_acts in KA. destruct KA as (I1 & n1 & L1 & F1).
  assert (R : forall w2 y, match receive w1 with (w, Ok _) => (w, Again) | (w, Err e) => (w, if is_timeout e then Again else Stop) | (w, Panic) | (w, Fuel) => (w, Crash) end = (w2, y) ->
     exists new, w_log w2 = w_log w ++ new /\ w_in w2 = rest /\ heard it (incoming new)).
  { intros w2 y E2. destruct (receive w1) as [w3 o] eqn:R. assert (w2 = w3) by (destruct o; inversion E2; reflexivity). subst w3.
    rewrite E in I1. destruct (receive_item _ _ _ _ _ K I1 R) as (I & (new & Lg & H) & _). exists (n1 ++ new). splits; [rewrite Lg, L1, app_assoc; reflexivity|exact I|].
    unfold incoming in *. rewrite filter_app, F1. exact H. }
  destruct k as [u|e| |].
  - destruct (R _ _ T) as (new & A & B & C). exists new. auto.
  - destruct (s_stage (w_s w1) =? StageDone).
    + inversion T; subst. exists n1. split; [exact L1|]. right. splits; [exact I1|exact F1|discriminate].
    + destruct (R _ _ T) as (new & A & B & C). exists new. auto.
  - inversion T; subst. exists n1. split; [exact L1|]. right. splits; [exact I1|exact F1|discriminate].
  - inversion T; subst. exists n1. split; [exact L1|]. right. splits; [exact I1|exact F1|discriminate].
Qed.

Lemma run_items es : forall items rest w l w' l', Forall item_ok items -> (turns es <= length items)%nat ->
  w_in w = flat_map item_stream items ++ rest -> run (w, l) es = (w', l') ->
  exists j heardlog, (j <= turns es)%nat /\ w_in w' = flat_map item_stream (skipn j items) ++ rest /\
    heard_all (firstn j items) heardlog /\ incoming (w_log w') = incoming (w_log w) ++ heardlog /\ (l' = Live -> j = turns es).
Proof.
  induction es as [|e es IH]; intros items rest w l w' l' F T E R; cbn [run fold_left] in R.
  { inversion R; subst. exists 0%nat, []. splits; [apply le_n|exact E|constructor|rewrite app_nil_r; reflexivity|reflexivity]. }
  fold (run (step (w, l) e) es) in R. destruct (step (w, l) e) as [w1 l1] eqn:S.
  assert (Same : (exists new, w_log w1 = w_log w ++ new /\ incoming new = []) -> w_in w1 = w_in w -> (turns es <= length items)%nat ->
     (turns (e :: es) = turns es \/ (l1 <> Live /\ turns (e :: es) = Datatypes.S (turns es))) -> (l' = Live -> l1 = Live) ->
     exists j heardlog, (j <= turns (e :: es))%nat /\ w_in w' = flat_map item_stream (skipn j items) ++ rest /\
    heard_all (firstn j items) heardlog /\ incoming (w_log w') = incoming (w_log w) ++ heardlog /\ (l' = Live -> j = turns (e :: es))).
  { intros (new & Lg & Fn) I Tl Te Ll. destruct (IH items rest w1 l1 w' l' F Tl ltac:(congruence) R) as (j & h & J1 & J2 & J3 & J4 & J5).
    exists j, h. splits; [destruct Te as [->|[_ ->]]; lia|exact J2|exact J3| |].
    - rewrite J4, Lg. unfold incoming in *. rewrite filter_app, Fn, app_nil_r. reflexivity.
    - intros X. rewrite (J5 X). destruct Te as [->|[N _]]; [reflexivity|]. contradiction N. exact (Ll X). }
  assert (NL : forall es w l w' l', run (w, l) es = (w', l') -> l' = Live -> l = Live).
  { clear. induction es as [|e es IH]; intros w l w' l' R X; cbn [run fold_left] in R; [congruence|]. fold (run (step (w, l) e) es) in R.
    destruct (step (w, l) e) as [w1 l1] eqn:S. specialize (IH _ _ _ _ R X). subst l1. destruct l; [reflexivity| |]; unfold step in S.
    - destruct e; [destruct (do_cmd w c) as [w2 [| | |]]; congruence|congruence].
    - congruence. }
  pose proof (NL _ _ _ _ _ R) as Ll.
  assert (Tle : (turns es <= turns (e :: es))%nat) by (unfold turns; cbn [filter]; destruct e; cbn [length]; lia).
  destruct e as [c|t1 t2].
  - apply Same; [| |lia|left; reflexivity|exact Ll]; unfold step in S; destruct l; try (inversion S; subst; try reflexivity; exists []; rewrite app_nil_r; split; reflexivity);
      destruct (do_cmd w c) as [w2 o] eqn:D; apply do_cmd_acts in D; destruct D as (I & A); assert (w1 = w2) by (destruct o; inversion S; reflexivity); subst; assumption.
  - destruct l; unfold step in S.
    + destruct (turn w t1 t2) as [w2 x] eqn:Tu. assert (w1 = w2) by (destruct x; inversion S; reflexivity). subst w2.
      destruct items as [|it items]; [unfold turns in T; cbn in T; lia|]. apply Forall_cons_iff in F as [Fi F]. cbn [flat_map] in E. rewrite <- app_assoc in E.
      destruct (turn_item _ _ _ _ _ _ _ Fi E Tu) as (new & Lg & [(I & H)|(I & Fn & N)]).
      * assert (Tt : (turns es <= length items)%nat) by (unfold turns in *; cbn [filter length] in T; lia).
        destruct (IH items rest w1 l1 w' l' F Tt I R) as (j & h & J1 & J2 & J3 & J4 & J5).
        exists (Datatypes.S j), (incoming new ++ h). splits.
        -- unfold turns in *. cbn [filter length]. lia.
        -- exact J2.
        -- cbn [firstn]. constructor; assumption.
        -- rewrite J4, Lg. unfold incoming. rewrite filter_app, app_assoc. reflexivity.
        -- intros X. rewrite (J5 X). reflexivity.
      * apply Same; [exists new; auto|exact I| |right|exact Ll].
        -- unfold turns in *. cbn [filter length] in *. lia.
        -- split; [|reflexivity]. destruct x; inversion S; subst; [contradiction N; reflexivity|discriminate|discriminate].
    + inversion S; subst. apply Same; [exists []; rewrite app_nil_r; split; reflexivity|reflexivity|lia|right; split; [discriminate|reflexivity]|exact Ll].
    + inversion S; subst. apply Same; [exists []; rewrite app_nil_r; split; reflexivity|reflexivity|lia|right; split; [discriminate|reflexivity]|exact Ll].
Qed.

Lemma take_cut i : forall l s, (i < length l)%nat ->
  take_bytes (length l) (sent (firstn i l) ++ None :: sent (skipn i l) ++ s) = (sent l ++ s, Err ErrTimeout).
Proof.
  induction i as [|i IH]; intros [|b l] s H; cbn [length] in H; try lia.
  - reflexivity.
  - cbn [firstn skipn length sent map app take_bytes]. fold (sent (firstn i l)). fold (sent (skipn i l)). rewrite IH by lia. reflexivity.
Qed.

Lemma receive_cut w ch p i rest : zlen p <= 2048 -> (0 < i < length (frame_text ch p))%nat ->
  w_in w = sent (firstn i (frame_text ch p)) ++ None :: sent (skipn i (frame_text ch p)) ++ rest ->
  receive w = (upd_in w (sent (skipn (Nat.min i 4) (frame_text ch p)) ++ rest), Err ErrTimeout).
Proof.
  intros L Hi E. unfold receive. rewrite E. unfold frame_text in *. cbn [be_put app] in *.
  destruct i as [|[|[|[|i]]]]; [lia| | | |]; cbn [firstn skipn Nat.min]; rewrite ?sent_cons; cbn [app]; unfold peek at 1; change (1 >? bufio_size) with false;
    change (Z.to_nat 1) with 1%nat; cbn [take_bytes]; unfold discard; cbn [skipn read_byte read_uint16 app]; try reflexivity.
  cbn [sent map app read_byte read_uint16]. change (256 ^ Z.of_nat 1) with 256. change (256 ^ Z.of_nat 0) with 1. rewrite Z.div_1_r.
  assert (X : zlen p / 256 mod 256 * 256 + zlen p mod 256 = zlen p) by (pose proof (zlen_nonneg p); Z.div_mod_to_equations; lia). rewrite X.
  fold (sent (firstn i p)). fold (sent (skipn i p)). unfold read_bytes, peek, bufio_size. destruct (zlen p >? 2048) eqn:G; [lia|].
  unfold zlen. rewrite Nat2Z.id. rewrite take_cut; [rewrite Nat.min_0_r; reflexivity|]. cbn [length] in Hi. lia.
Qed.

Lemma read_line_cut l s : ~ In 10 l -> read_line (sent l ++ None :: s) = (s, Err ErrTimeout).
Proof.
  induction l as [|b l IH]; intros N; [reflexivity|]. rewrite sent_cons. cbn [app read_line]. destruct (b =? 10) eqn:E; [exfalso; apply N; left; lia|].
  rewrite IH by (intros I; apply N; right; exact I). reflexivity.
Qed.

Lemma receive_line_cut w b l rest : b <> 36 -> ~ In 10 (b :: l) -> w_in w = sent (b :: l) ++ None :: rest -> receive w = (upd_in w rest, Err ErrTimeout).
Proof.
  intros B N E. unfold receive. rewrite E. assert (P : peek 1 (sent (b :: l) ++ None :: rest) = (sent (b :: l) ++ None :: rest, Ok [b])) by reflexivity. rewrite P.
  assert (U : unpack_response (sent (b :: l) ++ None :: rest) = (rest, Err ErrTimeout)) by (unfold unpack_response; rewrite read_line_cut by exact N; reflexivity).
  destruct b as [|q|q]; try (rewrite U; reflexivity). do 7 (try (destruct q as [q|q|]; try (rewrite U; reflexivity))). contradiction B. reflexivity.
Qed.

Definition loud (i : item) : bool := match i with Quiet => false | _ => true end.
Lemma heard_loud is es : heard_all is es -> heard_all (filter loud is) es.
Proof.
  induction 1 as [|i is e es H A IH]; [constructor|]. destruct i; cbn [filter loud]; try (constructor; assumption). cbn [heard] in H. subst e. exact IH.
Qed.

Lemma run_quiet items rest w es w' : Forall item_ok items -> turns es = length items ->
  w_in w = flat_map item_stream items ++ rest -> run (w, Live) es = (w', Live) ->
  w_in w' = rest /\ exists effs, incoming (w_log w') = incoming (w_log w) ++ effs /\ heard_all (filter loud items) effs.
Proof.
  intros F T E R. destruct (run_items es items rest w Live w' Live F ltac:(lia) E R) as (j & h & J1 & J2 & J3 & J4 & J5).
  specialize (J5 eq_refl). rewrite T in J5. subst j. rewrite skipn_all in J2. rewrite firstn_all in J3. split; [exact J2|]. exists h. split; [exact J4|]. apply heard_loud. exact J3.
Qed.

Definition deliveries (items : list (Z * bytes)) : list effect := map (fun e => Delivered (fst e) (snd e)) items.
Lemma run_frames fs : forall w ts rest, s_conn (w_s w) = true -> s_proto (w_s w) = ProtoTCP ->
  Forall (fun e => byte_ok (fst e) /\ zlen (snd e) <= 2048) fs -> length ts = length fs ->
  w_in w = flat_map (fun e => sent (frame_text (fst e) (snd e))) fs ++ rest ->
  run (w, Live) (map (fun t => Turn (fst t) (snd t)) ts) =
  (mkW (w_s w) rest (w_writes w) (w_listens w) (w_rand w) (w_log w ++ deliveries fs), Live).
Proof.
  induction fs as [|[ch p] fs IH]; intros w ts rest C P F L E.
  - destruct ts; [|discriminate]. cbn [map run fold_left deliveries]. rewrite app_nil_r. cbn [flat_map app] in E. destruct w. cbn in *. subst. reflexivity.
  - destruct ts as [|[t1 t2] ts]; [discriminate|]. apply Forall_cons_iff in F as [[B Lp] F]. cbn [fst snd] in *. cbn [map run fold_left fst snd].
    cbn [flat_map fst snd] in E. rewrite <- app_assoc in E.
    assert (K : keepalive w t1 t2 = (w, Ok tt)).
    { unfold keepalive, with_conn. rewrite C, P. reflexivity. }
    assert (T : turn w t1 t2 = (note (upd_in w (flat_map (fun e => sent (frame_text (fst e) (snd e))) fs ++ rest)) (Delivered ch p), Again)).
    { unfold turn. rewrite K. rewrite (receive_frame w ch p _ ltac:(lia) E). destruct (zlen p <=? 2048) eqn:G; [reflexivity|lia]. }
    cbn [step]. rewrite T. fold (run (note (upd_in w (flat_map (fun e => sent (frame_text (fst e) (snd e))) fs ++ rest)) (Delivered ch p), Live) (map (fun t => Turn (fst t) (snd t)) ts)).
    rewrite (IH _ ts rest); [|exact C|exact P|exact F|cbn in L; lia|reflexivity]. cbn [note upd_in w_s w_in w_writes w_listens w_rand w_log deliveries map fst snd]. rewrite <- app_assoc. reflexivity.
Qed.

Lemma long_frame_stops w ch p rest t1 t2 : 2048 < zlen p <= 65535 -> w_in w = sent (frame_text ch p) ++ rest ->
  s_conn (w_s w) = true -> s_proto (w_s w) = ProtoTCP ->
  step (w, Live) (Turn t1 t2) = (upd_in w (sent p ++ rest), NoLoop).
Proof.
  intros L E C P. assert (K : keepalive w t1 t2 = (w, Ok tt)) by (unfold keepalive, with_conn; rewrite C, P; reflexivity).
  unfold step, turn. rewrite K, (receive_frame w ch p rest ltac:(lia) E). destruct (zlen p <=? 2048) eqn:G; [lia|]. reflexivity.
Qed.
