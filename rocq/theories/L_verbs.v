(* Lemmas: what the server lists in Public has no effect. *)
From Coq Require Import String.
From Verif Require Import Base GoStrings M_conn S_message M_message M_transport M_sdp M_digest M_sps M_session S_session S_handshake S_refuse L_base L_message L_frames.
From Coq Require Import ZifyBool.

Local Opaque digest_response.
(* an effect without the text of the responses *)
Definition quiet (e : effect) : effect := match e with Got r => Got (mkRsp [] (p_code r) 0 (p_cseq r) [] (p_body r)) | _ => e end.
Definition twin (w : world) v inp log : world := mkW (set_verbs (w_s w) v) inp (w_writes w) (w_listens w) (w_rand w) log.
Definition veq (w w' : world) : Prop := exists v inp log, w' = twin w v inp log /\ map quiet log = map quiet (w_log w).
Definition vres (a b : world * res unit) : Prop := veq (fst a) (fst b) /\ snd a = snd b.

Ltac twins E v inp := exists v, inp; eexists; split; [reflexivity|cbn [w_log note upd_s twin]; rewrite ?map_app, ?E; reflexivity].
Lemma vres_ret w w' x : veq w w' -> vres (w, x) (w', x).
Proof. intros V. split; [exact V|reflexivity]. Qed.
Lemma veq_upd w w' g : veq w w' -> (forall s v, g (set_verbs s v) = set_verbs (g s) v) -> veq (upd_s w g) (upd_s w' g).
Proof. intros (v & inp & log & -> & LG) G. exists v, inp, log. split; [|exact LG]. unfold upd_s, twin. cbn [w_s w_in w_writes w_listens w_rand w_log]. rewrite G. reflexivity. Qed.
Lemma veq_note w w' e : veq w w' -> veq (note w e) (note w' e).
Proof. intros (v & inp & log & -> & LG). twins LG v inp. Qed.
Lemma veq_in w w' x y : veq w w' -> veq (upd_in w x) (upd_in w' y).
Proof. intros (v & inp & log & -> & LG). twins LG v y. Qed.
Lemma veq_fields w w' : veq w w' -> s_conn (w_s w') = s_conn (w_s w) /\ s_proto (w_s w') = s_proto (w_s w) /\ s_uri (w_s w') = s_uri (w_s w) /\ s_stage (w_s w') = s_stage (w_s w) /\
  s_queue (w_s w') = s_queue (w_s w) /\ s_session (w_s w') = s_session (w_s w) /\ s_feeds (w_s w') = s_feeds (w_s w) /\ s_feedidx (w_s w') = s_feedidx (w_s w) /\ s_last (w_s w') = s_last (w_s w) /\
  map quiet (w_log w') = map quiet (w_log w).
Proof. intros (v & inp & log & -> & LG). splits; try reflexivity. exact LG. Qed.

Lemma command_v w w' verb uri hs : veq w w' -> vres (command w verb uri hs) (command w' verb uri hs).
Proof.
  intros (v & inp & log & -> & LG). unfold command. cbn [twin w_s]. change (s_conn (set_verbs (w_s w) v)) with (s_conn (w_s w)).
  destruct (s_conn (w_s w)); cbn [negb]; [|apply vres_ret; twins LG v inp]. cbv zeta.
  assert (A : exists s1 out, call_auth (w_s w) verb = (s1, out) /\ call_auth (set_verbs (w_s w) v) verb = (set_verbs s1 v, out)).
  { unfold call_auth. change (s_auth (set_verbs (w_s w) v)) with (s_auth (w_s w)). destruct (s_auth (w_s w)) as [[text d]|]; [|eauto]. destruct (auth_call text d verb []). eauto. }
  destruct A as (s1 & out & -> & ->). unfold enqueue. cbv zeta. cbn [q_verb q_uri q_auth q_header].
  unfold write, upd_s, twin. cbn [w_s w_in w_writes w_listens w_rand w_log set_queue set_cseq set_verbs s_proto].
  destruct (s_proto s1 =? ProtoHTTP); [apply vres_ret; twins LG v inp|]. cbv zeta.
  destruct (w_writes w) as [|[e|] r]; apply vres_ret; twins LG v inp.
Qed.

Lemma named_v w w' verb hs : veq w w' -> vres (with_conn w (fun s => command w verb (s_uri s) hs)) (with_conn w' (fun s => command w' verb (s_uri s) hs)).
Proof.
  intros V. destruct (veq_fields _ _ V) as (C & _ & U & _). unfold with_conn. rewrite C, U. destruct (s_conn (w_s w)); [apply command_v; exact V|apply vres_ret; exact V].
Qed.

Lemma setup_from_v todo : forall w w' i, veq w w' -> vres (setup_from w i todo) (setup_from w' i todo).
Proof.
  induction todo as [|f todo IH]; intros w w' i V; [apply vres_ret; exact V|]. cbn [setup_from].
  destruct (veq_fields _ _ V) as (C & _ & U & _). unfold setup_uri. rewrite C, U.
  destruct (if has_prefix _ _ then _ else _) as [u| | |]; try (apply vres_ret; exact V).
  destruct (command_v w w' (bs "SETUP") u [(bs "Transport", transport_string (fd_transp f))] V) as (V1 & E).
  destruct (command w _ _ _) as [w1 o]. destruct (command w' _ _ _) as [w1' o']. cbn in V1, E. subst o'. destruct o; try (apply vres_ret; exact V1).
  apply IH. apply veq_upd; [exact V1|]. intros s v. unfold mark_feed. cbn [set_verbs s_feeds s_cseq]. destruct (nth_error (s_feeds s) i); reflexivity.
Qed.
Lemma setup_v w w' : veq w w' -> vres (setup w) (setup w').
Proof. intros V. unfold setup. destruct (veq_fields _ _ V) as (_ & _ & _ & _ & _ & _ & -> & _). apply setup_from_v. exact V. Qed.

Lemma keepalive_v w w' t1 t2 : veq w w' -> vres (keepalive w t1 t2) (keepalive w' t1 t2).
Proof.
  intros V. destruct (veq_fields _ _ V) as (C & P & U & S & _ & I & _ & _ & L & _). unfold keepalive, with_conn. rewrite C, P, U, S, I, L.
  destruct (s_conn (w_s w)); [|apply vres_ret; exact V]. destruct (_ && _); [|apply vres_ret; exact V].
  destruct (match s_last (w_s w) with None => true | Some l => _ end); [|apply vres_ret; exact V].
  apply command_v. apply veq_note. apply veq_upd; [exact V|reflexivity].
Qed.

Lemma do_cmd_v w w' c : veq w w' -> vres (do_cmd w c) (do_cmd w' c).
Proof. intros V. destruct c; cbn [do_cmd]; try (apply named_v; exact V); [apply setup_v|apply keepalive_v]; exact V. Qed.

Lemma authorize_v w w' ch : veq w w' -> vres (authorize w ch) (authorize w' ch).
Proof.
  intros (v & inp & log & -> & LG). unfold authorize. cbn [twin w_s]. change (s_uri (set_verbs (w_s w) v)) with (s_uri (w_s w)). change (s_user (set_verbs (w_s w) v)) with (s_user (w_s w)).
  destruct (new_digest (s_uri (w_s w)) ch); try (apply vres_ret; twins LG v inp).
  destruct (s_user (w_s w)) as [[u p]|]; [|apply vres_ret; twins LG v inp]. cbn [w_rand]. destruct (authenticate _ _ _ _) as [d' text]. apply vres_ret. twins LG v inp.
Qed.
Lemma retry_v w w' req r : veq w w' -> vres (retry w req r) (retry w' req r).
Proof.
  intros V. unfold retry. destruct (authorize_v w w' (header_get (p_header r) (bs "WWW-Authenticate")) V) as (V1 & E).
  destruct (authorize w _) as [w1 o]. destruct (authorize w' _) as [w1' o']. cbn in V1, E. subst o'. destruct o; try (apply vres_ret; exact V1).
  destruct V1 as (v & inp & log & -> & LG). cbn [twin w_s].
  assert (A : exists s1 out, call_auth (w_s w1) (q_verb req) = (s1, out) /\ call_auth (set_verbs (w_s w1) v) (q_verb req) = (set_verbs s1 v, out)).
  { unfold call_auth. change (s_auth (set_verbs (w_s w1) v)) with (s_auth (w_s w1)). destruct (s_auth (w_s w1)) as [[text d]|]; [|eauto]. destruct (auth_call text d (q_verb req) []). eauto. }
  destruct A as (s1 & out & -> & ->). unfold enqueue. cbv zeta. cbn [q_verb q_uri q_auth q_header].
  unfold write, upd_s, twin. cbn [w_s w_in w_writes w_listens w_rand w_log set_queue set_verbs s_proto].
  destruct (s_proto s1 =? ProtoHTTP); [apply vres_ret; twins LG v inp|]. cbv zeta.
  destruct (w_writes w1) as [|[e|] x]; apply vres_ret; twins LG v inp.
Qed.

Lemma notify_v w w' st : veq w w' -> veq (notify w st) (notify w' st).
Proof. intros V. unfold notify. apply veq_note. apply veq_upd; [exact V|reflexivity]. Qed.
Lemma add_sink_v w w' ch port : veq w w' -> vres (add_sink w ch port) (add_sink w' ch port).
Proof. intros (v & inp & log & -> & LG). unfold add_sink. cbn [twin w_listens]. destruct (w_listens w) as [|[e|] l]; apply vres_ret; twins LG v inp. Qed.
Lemma setup_feeds_v cseq value todo : forall w w' i, veq w w' -> vres (setup_feeds w cseq value i todo) (setup_feeds w' cseq value i todo).
Proof.
  induction todo as [|f todo IH]; intros w w' i V; [apply vres_ret; exact V|]. cbn [setup_feeds]. destruct (fd_cseq f =? cseq); [|apply IH; exact V]. cbv zeta.
  assert (V1 : veq (upd_s w (fun s => set_feedidx s (i64 (s_feedidx s + 1)))) (upd_s w' (fun s => set_feedidx s (i64 (s_feedidx s + 1))))) by (apply veq_upd; [exact V|reflexivity]).
  destruct (transport_setup f value) as [f' o].
  assert (V2 : veq (upd_s (upd_s w (fun s => set_feedidx s (i64 (s_feedidx s + 1)))) (put_feed i f')) (upd_s (upd_s w' (fun s => set_feedidx s (i64 (s_feedidx s + 1)))) (put_feed i f')))
    by (apply veq_upd; [exact V1|reflexivity]).
  destruct o; try (apply vres_ret; exact V2). destruct (t_tcp (fd_transp f')); [apply IH; exact V2|].
  revert V2. generalize (upd_s (upd_s w (fun s => set_feedidx s (i64 (s_feedidx s + 1)))) (put_feed i f')) (upd_s (upd_s w' (fun s => set_feedidx s (i64 (s_feedidx s + 1)))) (put_feed i f')).
  intros wa wb V2. destruct (veq_fields _ _ V2) as (_ & _ & _ & _ & _ & _ & _ & -> & _).
  destruct (add_sink_v wa wb (u8 (u8 (s_feedidx (w_s wa)) * 2)) (p_one (t_port (fd_transp f'))) V2) as (V3 & E3).
  destruct (add_sink wa _ _) as [a1 o1]. destruct (add_sink wb _ _) as [b1 o1']. cbn in V3, E3. subst o1'. destruct o1; try (apply vres_ret; exact V3).
  match goal with |- context [add_sink a1 ?c ?p] => destruct (add_sink_v a1 b1 c p V3) as (V4 & E4) end.
  destruct (add_sink a1 _ _) as [a2 o2]. destruct (add_sink b1 _ _) as [b2 o2']. cbn in V4, E4. subst o2'. destruct o2; try (apply vres_ret; exact V4).
  apply IH. exact V4.
Qed.
Lemma handle_setup_v w w' r : veq w w' -> vres (handle_setup w r) (handle_setup w' r).
Proof.
  intros V. unfold handle_setup. cbv zeta.
  assert (Fin : forall a b, veq a b -> vres (if s_feedidx (w_s a) >=? zlen (s_feeds (w_s a)) then (note (notify a StageReady) Started, Ok tt) else (a, Ok tt))
    (if s_feedidx (w_s b) >=? zlen (s_feeds (w_s b)) then (note (notify b StageReady) Started, Ok tt) else (b, Ok tt))).
  { intros a b X. destruct (veq_fields _ _ X) as (_ & _ & _ & _ & _ & _ & -> & -> & _). destruct (_ >=? _); apply vres_ret; [apply veq_note; apply notify_v|]; exact X. }
  destruct (p_code r =? 200).
  - destruct (veq_fields _ _ V) as (_ & _ & _ & _ & _ & _ & -> & _).
    destruct (setup_feeds_v (p_cseq r) (header_get (p_header r) (bs "Transport")) (s_feeds (w_s w)) w w' 0 V) as (V1 & E).
    destruct (setup_feeds w _ _ _ _) as [a o]. destruct (setup_feeds w' _ _ _ _) as [b o']. cbn in V1, E. subst o'. destruct o; [apply Fin|apply vres_ret..]; exact V1.
  - destruct (p_code r =? 401); cbn [negb]; apply Fin; [exact V|]. apply veq_upd; [exact V|reflexivity].
Qed.
Lemma react_v w w' req r : veq w w' -> vres (react w req r) (react w' req r).
Proof.
  intros V. unfold react. destruct (veq_fields _ _ V) as (_ & -> & _ & -> & _).
  destruct (beq (q_verb req) (bs "OPTIONS")).
  { destruct (s_stage (w_s w) =? StageInit); [|apply vres_ret; exact V]. apply named_v. destruct V as (v & inp & log & -> & LG).
    exists (v ++ split_commasp [] (header_get (p_header r) (bs "Public"))), inp, log. split; [reflexivity|exact LG]. }
  destruct (beq (q_verb req) (bs "DESCRIBE")).
  { destruct (p_body r); [|apply vres_ret; exact V]. destruct (parse_feeds _ _); try (apply vres_ret; exact V). apply setup_v. apply veq_upd; [exact V|reflexivity]. }
  destruct (beq (q_verb req) (bs "PAUSE")). { destruct (p_code r =? 200); apply vres_ret; [apply notify_v|]; exact V. }
  destruct (beq (q_verb req) (bs "PLAY")). { destruct (p_code r =? 200); apply vres_ret; [apply notify_v|]; exact V. }
  destruct (beq (q_verb req) (bs "TEARDOWN")). { destruct (p_code r =? 200); apply vres_ret; [apply notify_v|]; exact V. }
  destruct (beq (q_verb req) (bs "SETUP")); [apply handle_setup_v; exact V|apply vres_ret; exact V].
Qed.
(* the same response, but for the list *)
Definition relisted (r r' : response) : Prop := p_code r' = p_code r /\ p_cseq r' = p_cseq r /\ p_body r' = p_body r /\
  forall k, In k [bs "Session"; bs "Transport"; bs "WWW-Authenticate"] -> header_get (p_header r') k = header_get (p_header r) k.

Lemma relisted_refl r : relisted r r.
Proof. repeat split. Qed.
Lemma learn_v r r' s v : header_get (p_header r') (bs "Session") = header_get (p_header r) (bs "Session") -> learn_session (set_verbs s v) r' = set_verbs (learn_session s r) v.
Proof. intros E. unfold learn_session. rewrite E. cbv zeta. destruct (beq _ _); reflexivity. Qed.
Lemma react_r w w' req r r' : veq w w' -> relisted r r' -> vres (react w req r) (react w' req r').
Proof.
  intros V (C & Q & B & H). destruct (beq (q_verb req) (bs "OPTIONS")) eqn:EO.
  - unfold react. rewrite EO. destruct (veq_fields _ _ V) as (_ & _ & _ & -> & _). destruct (s_stage (w_s w) =? StageInit); [|apply vres_ret; exact V]. apply named_v. destruct V as (v & inp & log & -> & LG).
    exists (v ++ split_commasp [] (header_get (p_header r') (bs "Public"))), inp, log. split; [reflexivity|exact LG].
  - replace (react w' req r') with (react w' req r); [apply react_v; exact V|]. unfold react. rewrite EO, B, C. unfold handle_setup. rewrite C, Q, H by (right; left; reflexivity). reflexivity.
Qed.

Lemma retry_r w w' req r r' : veq w w' -> relisted r r' -> vres (retry w req r) (retry w' req r').
Proof.
  intros V (_ & _ & _ & H). replace (retry w' req r') with (retry w' req r); [apply retry_v; exact V|]. unfold retry. rewrite H by (right; right; left; reflexivity). reflexivity.
Qed.
Lemma handle_r w w' r r' : veq w w' -> relisted r r' -> vres (handle_response w r) (handle_response w' r').
Proof.
  intros V Re. pose proof Re as (C & Q & B & H). unfold handle_response. cbv zeta.
  assert (V1 : veq (note w (Got r)) (note w' (Got r'))).
  { destruct V as (v & inp & log & -> & LG). exists v, inp. eexists. split; [reflexivity|]. cbn [note twin w_log]. rewrite !map_app, LG. cbn [map quiet]. rewrite C, Q, B. reflexivity. }
  destruct (veq_fields _ _ V1) as (_ & _ & _ & _ & -> & _). rewrite Q, C. destruct (qget (s_queue (w_s (note w (Got r)))) (p_cseq r)) as [req|]; [|apply vres_ret; exact V1].
  assert (V2 : veq (upd_s (note w (Got r)) (fun s => set_queue s (qdel (s_queue s) (p_cseq r)))) (upd_s (note w' (Got r')) (fun s => set_queue s (qdel (s_queue s) (p_cseq r)))))
    by (apply veq_upd; [exact V1|reflexivity]).
  destruct (p_code r =? 401); [apply retry_r; assumption|]. apply react_r; [|exact Re].
  destruct V2 as (v & inp & log & E & LG). exists v, inp, log. rewrite E. split; [|exact LG]. unfold upd_s, twin. cbn [w_s w_in w_writes w_listens w_rand w_log].
  rewrite (learn_v r r') by (apply H; left; reflexivity). reflexivity.
Qed.

Definition heeded : list bytes := [bs "CSeq"; bs "Session"; bs "Transport"; bs "WWW-Authenticate"].
Lemma receive_v w w' i i' rest rest' : veq w w' -> item_ok i -> item_ok i' -> agree heeded i i' -> w_in w = item_stream i ++ rest -> w_in w' = item_stream i' ++ rest' ->
  vres (receive w) (receive w').
Proof.
  intros V K K' A E E'. destruct i as [ch p|code reason fs body|].
  - destruct i' as [ch' p'|? ? ? ?|]; cbn [agree] in A; try discriminate. injection A as -> ->. cbn [item_ok item_stream] in *. destruct K as (_ & L).
    rewrite (receive_frame w ch p rest), (receive_frame w' ch p rest') by (try assumption; lia). destruct (zlen p <=? 2048) eqn:X; [|lia].
    apply vres_ret. apply veq_note. apply veq_in. exact V.
  - destruct i' as [? ?|code' reason' fs' body'|]; cbn [agree] in A; try discriminate. destruct A as (-> & -> & F). cbn [item_ok item_stream] in *.
    destruct K as (Kc & Rn & F1 & Co & L). destruct K' as (_ & Rn' & F1' & Co' & _).
    destruct (unpack_response_ok code reason fs body rest Kc Rn F1 Co L) as (len & U & _). destruct (unpack_response_ok code reason' fs' body rest' Kc Rn' F1' Co' L) as (len' & U' & _).
    rewrite <- E in U. rewrite <- E' in U'. unfold receive.
    assert (P : peek 1 (w_in w) = (w_in w, Ok [82])).
    { rewrite E. unfold response_text. change (bs "RTSP/1.0") with (82 :: bs "TSP/1.0"). cbn [app]. rewrite sent_cons. reflexivity. }
    assert (P' : peek 1 (w_in w') = (w_in w', Ok [82])).
    { rewrite E'. unfold response_text. change (bs "RTSP/1.0") with (82 :: bs "TSP/1.0"). cbn [app]. rewrite sent_cons. reflexivity. }
    rewrite P, P'. cbv beta iota. rewrite U, U'. apply handle_r; [apply veq_in; exact V|].
    rewrite Forall_forall in F. unfold relisted. cbn [p_code p_cseq p_body p_header]. splits; try reflexivity.
    + rewrite F by (left; reflexivity). reflexivity.
    + intros k I. assert (T : token k) by (destruct I as [<-|[<-|[<-|[]]]]; vm_compute; repeat constructor; congruence).
      rewrite !header_run_fields by assumption. apply F. right. exact I.
  - destruct i'; cbn [agree] in A; try discriminate. unfold receive. rewrite E, E'. cbn [item_stream app]. unfold peek. change (1 >? bufio_size) with false. change (Z.to_nat 1) with 1%nat. cbn [take_bytes].
    apply vres_ret. apply veq_in. exact V.
Qed.

Lemma keep_in w t1 t2 : w_in (fst (keepalive w t1 t2)) = w_in w.
Proof. destruct (keepalive w t1 t2) as [w1 o] eqn:E. apply keepalive_acts in E. destruct E as (I & _). exact I. Qed.
Lemma turn_v w w' i i' rest rest' t1 t2 : veq w w' -> item_ok i -> item_ok i' -> agree heeded i i' -> w_in w = item_stream i ++ rest -> w_in w' = item_stream i' ++ rest' ->
  snd (turn w t1 t2) = snd (turn w' t1 t2) /\ veq (fst (turn w t1 t2)) (fst (turn w' t1 t2)).
Proof.
  intros V K K' A E E'. unfold turn. pose proof (keep_in w t1 t2) as I. pose proof (keep_in w' t1 t2) as I'.
  destruct (keepalive_v w w' t1 t2 V) as (V1 & E1). destruct (keepalive w t1 t2) as [w1 o]. destruct (keepalive w' t1 t2) as [w1' o']. cbn [fst snd] in *. subst o'.
  destruct (receive_v w1 w1' i i' rest rest' V1 K K' A ltac:(congruence) ltac:(congruence)) as (V2 & E2).
  destruct (receive w1) as [w2 o2]. destruct (receive w1') as [w2' o2']. cbn [fst snd] in *. subst o2'. cbv zeta.
  destruct (veq_fields _ _ V1) as (_ & _ & _ & -> & _).
  destruct o; [|destruct (s_stage (w_s w1) =? StageDone)|..]; destruct o2; cbn [fst snd]; split; try reflexivity; try exact V1; exact V2.
Qed.

Lemma step_turn w t1 t2 : step (w, Live) (Turn t1 t2) = (fst (turn w t1 t2), match snd (turn w t1 t2) with Again => Live | Stop => NoLoop | Crash => Dead end).
Proof. unfold step. destruct (turn w t1 t2) as [w1 []]; reflexivity. Qed.
Lemma run_v es : forall items items' rest rest' w w' l, veq w w' -> Forall item_ok items -> Forall item_ok items' -> Forall2 (agree heeded) items items' ->
  (turns es <= length items)%nat -> (l = Live -> w_in w = flat_map item_stream items ++ rest /\ w_in w' = flat_map item_stream items' ++ rest') ->
  snd (run (w, l) es) = snd (run (w', l) es) /\ veq (fst (run (w, l) es)) (fst (run (w', l) es)).
Proof.
  induction es as [|e es IH]; intros items items' rest rest' w w' l V K K' A T E; [split; [reflexivity|exact V]|].
  cbn [run fold_left]. fold (run (step (w, l) e) es). fold (run (step (w', l) e) es).
  destruct e as [c|t1 t2].
  - assert (X : exists w1 w1' l1, step (w, l) (App c) = (w1, l1) /\ step (w', l) (App c) = (w1', l1) /\ veq w1 w1' /\ w_in w1 = w_in w /\ w_in w1' = w_in w' /\ (l1 = Live -> l = Live)).
    { destruct (do_cmd_v w w' c V) as (V1 & E1). destruct (do_cmd w c) as [w1 o] eqn:D. destruct (do_cmd w' c) as [w1' o'] eqn:D'. cbn [fst snd] in *. subst o'.
      pose proof (do_cmd_acts _ _ _ _ D) as (I & _). pose proof (do_cmd_acts _ _ _ _ D') as (I' & _).
      destruct l; [| |exists w, w', Dead; splits; auto]; unfold step; rewrite D, D'; destruct o; do 3 eexists; (split; [reflexivity|]); (split; [reflexivity|]); splits; try assumption; auto; discriminate. }
    destruct X as (w1 & w1' & l1 & -> & -> & V1 & I & I' & Ll). apply (IH items items' rest rest'); try assumption. intros L. rewrite I, I'. apply E. auto.
  - destruct l.
    + destruct (E eq_refl) as (E1 & E2). destruct items as [|i items]; [cbn in T; lia|]. inversion A as [|? i' ? items2 Ai Ar]; subst.
      apply Forall_cons_iff in K as [Ki K]. apply Forall_cons_iff in K' as [Ki' K'].
      cbn [flat_map] in E1, E2. rewrite <- app_assoc in E1, E2.
      destruct (turn_v w w' i i' _ _ t1 t2 V Ki Ki' Ai E1 E2) as (S & V1).
      destruct (turn w t1 t2) as [w1 x] eqn:Tu. destruct (turn w' t1 t2) as [w1' x'] eqn:Tu'. cbn [fst snd] in *. subst x'.
      rewrite !step_turn, Tu, Tu'. cbn [fst snd].
      assert (Tt : (turns es <= length items)%nat) by (unfold turns in *; cbn [filter length] in T; lia).
      destruct (turn_item _ _ _ _ _ _ _ Ki E1 Tu) as (n1 & _ & [(I1 & _)|(_ & _ & N1)]); destruct (turn_item _ _ _ _ _ _ _ Ki' E2 Tu') as (n2 & _ & [(I2 & _)|(_ & _ & N2)]);
        destruct x; try contradiction; apply (IH items items2 rest rest'); try assumption; intros L; try discriminate; auto; contradiction.
    + change (step (w, NoLoop) (Turn t1 t2)) with (w, NoLoop). change (step (w', NoLoop) (Turn t1 t2)) with (w', NoLoop). apply (IH items items' rest rest'); try assumption; try discriminate. unfold turns in *. cbn [filter length] in T. lia.
    + change (step (w, Dead) (Turn t1 t2)) with (w, Dead). change (step (w', Dead) (Turn t1 t2)) with (w', Dead). apply (IH items items' rest rest'); try assumption; try discriminate. unfold turns in *. cbn [filter length] in T. lia.
Qed.
Lemma quiet_sent l l' : map quiet l = map quiet l' -> sent_requests l = sent_requests l' /\ stages l = stages l' /\ packets l = packets l' /\ listenings l = listenings l'.
Proof.
  revert l'. induction l as [|e l IH]; intros [|e' l'] E; try discriminate; [repeat split|]. cbn [map] in E. injection E as E1 E2. destruct (IH l' E2) as (A & B & C & D).
  assert (X : sent_requests [e] = sent_requests [e'] /\ stages [e] = stages [e'] /\ packets [e] = packets [e'] /\ listenings [e] = listenings [e']).
  { destruct e; destruct e'; cbn [quiet] in E1; try discriminate E1; splits; first [rewrite E1; reflexivity|reflexivity]. }
  destruct X as (X1 & X2 & X3 & X4). change (e :: l) with ([e] ++ l). change (e' :: l') with ([e'] ++ l').
  unfold sent_requests, stages, packets, listenings in *. rewrite !flat_map_app, X1, X2, X3, X4, A, B, C, D. repeat split.
Qed.
