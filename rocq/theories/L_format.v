(* The session and the program never look at the format of a stream. *)
From Coq Require Import String.
From Verif Require Import Base GoStrings M_conn M_message M_transport M_sdp M_digest M_session M_main S_format L_base.

Definition bare_media (m : media) : media := mkMedia 0 0 (m_control m) 0 [] (m_sprops m) 0 0 0.
Definition bare_feed (f : feed) : feed := mkFeed (bare_media (fd_media f)) (fd_transp f) (fd_cseq f) (fd_set f) (fd_sets f).
Definition hide (e : effect) : effect := match e with Got r => Got (mkRsp [] (p_code r) 0 (p_cseq r) (p_header r) None) | e => e end.
Definition uns (s : session) : session := set_feeds s (map bare_feed (s_feeds s)).
Definition unw (w : world) : world := mkW (uns (w_s w)) (w_in w) (w_writes w) (w_listens w) (w_rand w) (map hide (w_log w)).

Lemma bare_feed_eq f g : feed_but_format f g <-> bare_feed f = bare_feed g.
Proof.
  destruct f as [m t c s st], g as [m' t' c' s' st']. unfold feed_but_format, but_format, bare_feed, bare_media. cbn. split.
  - intros ((-> & ->) & -> & -> & -> & ->). reflexivity.
  - intros H. inversion H. repeat split; congruence.
Qed.

Lemma hide_eq e g : effect_but_body e g <-> hide e = hide g.
Proof.
  unfold effect_but_body, response_but_body, hide. destruct e, g; try (split; congruence).
  split; [intros (-> & -> & ->); reflexivity|intros H; inversion H; auto].
Qed.

Lemma Forall2_map_eq {A B} (P : A -> A -> Prop) (f : A -> B) : (forall x y, P x y <-> f x = f y) -> forall a b, Forall2 P a b <-> map f a = map f b.
Proof.
  intros H. induction a as [|x a IH]; intros [|y b]; cbn; (split; [intros F; inversion F; subst|intros E; inversion E]); try constructor; try reflexivity.
  - f_equal; [apply H; assumption|apply IH; assumption].
  - apply H; assumption.
  - apply IH; assumption.
Qed.

Lemma unw_eq w1 w2 : world_but_format w1 w2 <-> unw w1 = unw w2.
Proof.
  unfold world_but_format. rewrite (Forall2_map_eq _ _ bare_feed_eq), (Forall2_map_eq _ _ hide_eq).
  destruct w1 as [s1 i1 wr1 li1 ra1 lo1], w2 as [s2 i2 wr2 li2 ra2 lo2]. destruct s1, s2. unfold unw, uns, set_feeds. cbn. split.
  - intros (E & F & -> & -> & -> & -> & L). inversion E. subst. rewrite F, L. reflexivity.
  - intros E. inversion E. subst. repeat split; congruence.
Qed.

(* ---- operations that do not take a response ---- *)
Definition commutes (op : world -> world * res unit) : Prop := forall w, op (unw w) = (unw (fst (op w)), snd (op w)).

Lemma note_unw w e : hide e = e -> note (unw w) e = unw (note w e).
Proof. intros H. unfold note, unw. cbn. rewrite map_app. cbn. rewrite H. reflexivity. Qed.
Lemma write_unw a r : commutes (fun w => write w a r).
Proof.
  intros w. unfold write. cbn. destruct (s_proto (w_s w) =? ProtoHTTP); [reflexivity|].
  destruct (w_writes w) as [|[e|] l]; unfold unw; cbn; rewrite map_app; reflexivity.
Qed.
Lemma call_auth_uns s v : call_auth (uns s) v = (uns (fst (call_auth s v)), snd (call_auth s v)).
Proof. unfold call_auth. cbn [s_auth uns set_feeds]. destruct (s_auth s) as [[t d]|]; [|reflexivity]. destruct (auth_call t d v []). reflexivity. Qed.
Lemma enqueue_uns s r : enqueue (uns s) r = (uns (fst (enqueue s r)), snd (enqueue s r)).
Proof. reflexivity. Qed.
Lemma command_unw v u h : commutes (fun w => command w v u h).
Proof.
  intros w. unfold command. change (s_conn (w_s (unw w))) with (s_conn (w_s w)). destruct (s_conn (w_s w)); [|reflexivity]. cbn [negb].
  change (w_s (unw w)) with (uns (w_s w)). rewrite call_auth_uns. destruct (call_auth (w_s w) v) as [s a]. cbn [fst snd].
  change (set_cseq (uns s) (i64 (s_cseq (uns s) + 1))) with (uns (set_cseq s (i64 (s_cseq s + 1)))). rewrite enqueue_uns.
  destruct (enqueue _ _) as [s' r]. cbn [fst snd]. exact (write_unw false r (upd_s w (fun _ => s'))).
Qed.
Lemma with_conn_unw k w : k (uns (w_s w)) (unw w) = (unw (fst (k (w_s w) w)), snd (k (w_s w) w)) ->
  with_conn (unw w) (fun s => k s (unw w)) = (unw (fst (with_conn w (fun s => k s w))), snd (with_conn w (fun s => k s w))).
Proof. intros H. unfold with_conn. change (s_conn (w_s (unw w))) with (s_conn (w_s w)). destruct (s_conn (w_s w)); [exact H|reflexivity]. Qed.

Lemma options_unw : commutes options. Proof. intros w. apply (with_conn_unw (fun s w => command w (bs "OPTIONS") (s_uri s) []) w). apply (command_unw _ _ _ w). Qed.
Lemma describe_unw : commutes describe.
Proof. intros w. apply (with_conn_unw (fun s w => command w (bs "DESCRIBE") (s_uri s) [(bs "Accept", bs "application/sdp")]) w). apply (command_unw _ _ _ w). Qed.
Lemma play_unw : commutes play. Proof. intros w. apply (with_conn_unw (fun s w => command w (bs "PLAY") (s_uri s) []) w). apply (command_unw _ _ _ w). Qed.
Lemma pause_unw : commutes pause. Proof. intros w. apply (with_conn_unw (fun s w => command w (bs "PAUSE") (s_uri s) []) w). apply (command_unw _ _ _ w). Qed.
Lemma teardown_unw : commutes teardown. Proof. intros w. apply (with_conn_unw (fun s w => command w (bs "TEARDOWN") (s_uri s) []) w). apply (command_unw _ _ _ w). Qed.

Lemma upd_bare (f : feed) : forall l i, map bare_feed (upd l i f) = upd (map bare_feed l) i (bare_feed f).
Proof. induction l as [|x l IH]; intros [|i]; cbn; try reflexivity. f_equal. apply IH. Qed.
Lemma mark_feed_uns i s : mark_feed i (uns s) = uns (mark_feed i s).
Proof.
  unfold mark_feed. cbn [uns set_feeds s_feeds]. rewrite nth_error_map. destruct (nth_error (s_feeds s) i) as [f|]; [|reflexivity]. cbn.
  unfold uns, set_feeds. cbn. rewrite upd_bare. reflexivity.
Qed.
Lemma setup_from_unw : forall todo i w, setup_from (unw w) i (map bare_feed todo) = (unw (fst (setup_from w i todo)), snd (setup_from w i todo)).
Proof.
  induction todo as [|f r IH]; intros i w; [reflexivity|]. cbn [map setup_from]. change (setup_uri (w_s (unw w)) (m_control (fd_media (bare_feed f)))) with (setup_uri (w_s w) (m_control (fd_media f))).
  destruct (setup_uri _ _) as [u| | |]; try reflexivity. change (fd_transp (bare_feed f)) with (fd_transp f).
  pose proof (command_unw (bs "SETUP") u [(bs "Transport", transport_string (fd_transp f))] w) as C. cbn beta in C. rewrite C.
  destruct (command w _ u _) as [w' o]. cbn [fst snd]. destruct o as [[]| | |]; try reflexivity.
  rewrite <- IH. f_equal. unfold upd_s, unw. cbn. rewrite mark_feed_uns. reflexivity.
Qed.
Lemma setup_unw : commutes setup. Proof. intros w. apply setup_from_unw. Qed.

Lemma keepalive_unw t1 t2 : commutes (fun w => keepalive w t1 t2).
Proof.
  intros w. apply (with_conn_unw (fun s w => if negb (s_proto s =? ProtoHTTP) && negb (s_proto s =? ProtoTCP) && (s_stage s >? StageInit) && (s_stage s <? StageDone) then
    if match s_last s with None => true | Some l => t1 - l >=? keepAliveTimeout end then
      command (note (upd_s w (fun s => set_last s (Some t2))) (Alive t1 t2)) (bs "OPTIONS") (s_uri s) [(bs "Session", s_session s)]
    else (w, Ok tt) else (w, Ok tt)) w).
  cbn [uns set_feeds s_proto s_stage s_last s_uri s_session]. destruct (negb _ && _ && _ && _); [|reflexivity]. destruct (match s_last (w_s w) with None => _ | Some _ => _ end); [|reflexivity].
  change (upd_s (unw w) (fun s => set_last s (Some t2))) with (unw (upd_s w (fun s => set_last s (Some t2)))). rewrite note_unw by reflexivity.
  apply (command_unw _ _ _ (note (upd_s w (fun s => set_last s (Some t2))) (Alive t1 t2))).
Qed.

Lemma authorize_unw c : commutes (fun w => authorize w c).
Proof.
  intros w. unfold authorize. change (s_uri (w_s (unw w))) with (s_uri (w_s w)). destruct (new_digest _ _) as [d| | |]; try reflexivity.
  change (s_user (w_s (unw w))) with (s_user (w_s w)). destruct (s_user (w_s w)) as [[u p]|]; [|reflexivity]. change (w_rand (unw w)) with (w_rand w).
  destruct (authenticate d u p _) as [d' t]. reflexivity.
Qed.
Lemma notify_unw w n : notify (unw w) n = unw (notify w n).
Proof. unfold notify. change (upd_s (unw w) (fun s => set_stage s n)) with (unw (upd_s w (fun s => set_stage s n))). apply note_unw. reflexivity. Qed.
Lemma add_sink_unw ch p : commutes (fun w => add_sink w ch p).
Proof.
  intros w. unfold add_sink. change (w_listens (unw w)) with (w_listens w). destruct (w_listens w) as [|[e|] l]; try reflexivity; unfold note, unw; cbn; rewrite map_app; reflexivity.
Qed.
Lemma transport_setup_bare f v : transport_setup (bare_feed f) v = (bare_feed (fst (transport_setup f v)), snd (transport_setup f v)).
Proof.
  unfold transport_setup. cbn [bare_feed bare_media fd_transp fd_media fd_sets m_sprops]. destruct (transport_parse _ _) as [t [e|]]; [reflexivity|].
  destruct (parse_sprops _ _) as [st [[]| | |]]; reflexivity.
Qed.
Lemma put_feed_unw i f w : upd_s (unw w) (put_feed i (bare_feed f)) = unw (upd_s w (put_feed i f)).
Proof. unfold upd_s, unw, put_feed, uns, set_feeds. cbn. rewrite upd_bare. reflexivity. Qed.
Lemma setup_feeds_unw cseq v : forall todo i w, setup_feeds (unw w) cseq v i (map bare_feed todo) = (unw (fst (setup_feeds w cseq v i todo)), snd (setup_feeds w cseq v i todo)).
Proof.
  induction todo as [|f r IH]; intros i w; [reflexivity|]. cbn [map setup_feeds]. change (fd_cseq (bare_feed f)) with (fd_cseq f). destruct (fd_cseq f =? cseq); [|apply IH].
  change (upd_s (unw w) (fun s => set_feedidx s (i64 (s_feedidx s + 1)))) with (unw (upd_s w (fun s => set_feedidx s (i64 (s_feedidx s + 1))))).
  generalize (upd_s w (fun s => set_feedidx s (i64 (s_feedidx s + 1)))). clear w. intros w.
  rewrite transport_setup_bare. destruct (transport_setup f v) as [f' o]. cbn [fst snd]. destruct o as [[]| | |]; rewrite put_feed_unw; try reflexivity.
  generalize (upd_s w (put_feed i f')). clear w. intros w. cbn [bare_feed fd_transp]. destruct (t_tcp (fd_transp f')); [apply IH|].
  change (s_feedidx (w_s (unw w))) with (s_feedidx (w_s w)). generalize (u8 (u8 (s_feedidx (w_s w)) * 2)). intros ch.
  pose proof (add_sink_unw ch (p_one (t_port (fd_transp f'))) w) as A. cbn beta in A. rewrite A.
  destruct (add_sink w ch _) as [w1 o1]. cbn [fst snd]. destruct o1 as [[]| | |]; try reflexivity.
  pose proof (add_sink_unw (u8 (ch + 1)) (p_two (t_port (fd_transp f'))) w1) as B. cbn beta in B. rewrite B.
  destruct (add_sink w1 _ _) as [w2 o2]. cbn [fst snd]. destruct o2 as [[]| | |]; try reflexivity. apply IH.
Qed.
Lemma zlen_bare l : zlen (map bare_feed l) = zlen l.
Proof. unfold zlen. rewrite map_length. reflexivity. Qed.
Lemma handle_setup_unw r : commutes (fun w => handle_setup w r).
Proof.
  intros w. unfold handle_setup.
  assert (Fin : forall w, (if s_feedidx (w_s (unw w)) >=? zlen (s_feeds (w_s (unw w))) then (note (notify (unw w) StageReady) Started, Ok tt) else (unw w, @Ok unit tt)) =
     (unw (fst (if s_feedidx (w_s w) >=? zlen (s_feeds (w_s w)) then (note (notify w StageReady) Started, Ok tt) else (w, @Ok unit tt))),
      snd (if s_feedidx (w_s w) >=? zlen (s_feeds (w_s w)) then (note (notify w StageReady) Started, Ok tt) else (w, @Ok unit tt)))).
  { clear. intros w. cbn [unw w_s uns set_feeds s_feedidx s_feeds]. rewrite zlen_bare. destruct (_ >=? _); [|reflexivity]. cbn [fst snd].
    change (mkW (uns (w_s w)) (w_in w) (w_writes w) (w_listens w) (w_rand w) (map hide (w_log w))) with (unw w). rewrite notify_unw, note_unw by reflexivity. reflexivity. }
  destruct (p_code r =? 200).
  - change (s_feeds (w_s (unw w))) with (map bare_feed (s_feeds (w_s w))). rewrite setup_feeds_unw. destruct (setup_feeds w _ _ _ _) as [w' o]. cbn [fst snd].
    destruct o as [[]| | |]; try reflexivity. apply Fin.
  - destruct (negb (p_code r =? 401)); [|apply Fin].
    exact (Fin (upd_s w (fun s => set_feedidx s (i64 (s_feedidx s + 1))))).
Qed.
Lemma retry_unw req r : commutes (fun w => retry w req r).
Proof.
  intros w. unfold retry. pose proof (authorize_unw (header_get (p_header r) (bs "WWW-Authenticate")) w) as A. cbn beta in A. rewrite A.
  destruct (authorize w _) as [w' o]. cbn [fst snd]. destruct o as [[]| | |]; try reflexivity.
  change (w_s (unw w')) with (uns (w_s w')). rewrite call_auth_uns. destruct (call_auth (w_s w') _) as [s a]. cbn [fst snd]. rewrite enqueue_uns.
  destruct (enqueue _ _) as [s' rq]. cbn [fst snd]. exact (write_unw true rq (upd_s w' (fun _ => s'))).
Qed.

(* ---- the reaction to two responses that differ in the body ---- *)
Definition bodies_alike (proto : Z) (r1 r2 : response) : Prop :=
  match p_body r1, p_body r2 with
  | None, None => True
  | Some b1, Some b2 => match parse_feeds proto b1, parse_feeds proto b2 with Ok fs1, Ok fs2 => map bare_feed fs1 = map bare_feed fs2 | x, y => x = y end
  | _, _ => False
  end.

Lemma same_of op w1 w2 : commutes op -> unw w1 = unw w2 -> unw (fst (op w1)) = unw (fst (op w2)) /\ snd (op w1) = snd (op w2).
Proof. intros C E. pose proof (C w1) as A. pose proof (C w2) as B. rewrite E in A. rewrite A in B. split; congruence. Qed.

Lemma react_same w1 w2 req r1 r2 : unw w1 = unw w2 -> response_but_body r1 r2 -> bodies_alike (s_proto (w_s w1)) r1 r2 ->
  unw (fst (react w1 req r1)) = unw (fst (react w2 req r2)) /\ snd (react w1 req r1) = snd (react w2 req r2).
Proof.
  intros E (Rc & Rq & Rh) B. assert (St : s_stage (w_s w1) = s_stage (w_s w2)) by (change (s_stage (w_s (unw w1)) = s_stage (w_s (unw w2))); rewrite E; reflexivity).
  assert (Pr : s_proto (w_s w1) = s_proto (w_s w2)) by (change (s_proto (w_s (unw w1)) = s_proto (w_s (unw w2))); rewrite E; reflexivity).
  unfold react. destruct (beq _ (bs "OPTIONS")).
  { rewrite St, Rh. destruct (_ =? StageInit); [|split; [exact E|reflexivity]]. set (v := split_commasp _ _).
    apply (same_of describe _ _ describe_unw). change (upd_s (unw w1) (fun s => set_verbs s (s_verbs s ++ v)) = upd_s (unw w2) (fun s => set_verbs s (s_verbs s ++ v))). rewrite E. reflexivity. }
  destruct (beq _ (bs "DESCRIBE")).
  { unfold bodies_alike in B. destruct (p_body r1) as [b1|], (p_body r2) as [b2|]; try contradiction; [|split; [exact E|reflexivity]]. rewrite <- Pr.
    destruct (parse_feeds _ b1) as [f1|e1| |], (parse_feeds _ b2) as [f2|e2| |]; try discriminate.
    - apply (same_of setup _ _ setup_unw). 
      change (upd_s (unw w1) (fun s => set_feeds s (map bare_feed f1)) = upd_s (unw w2) (fun s => set_feeds s (map bare_feed f2))). rewrite B, E. reflexivity.
    - injection B as ->. split; [exact E|reflexivity].
    - split; [exact E|reflexivity].
    - split; [exact E|reflexivity]. }
  rewrite Rc. destruct (beq _ (bs "PAUSE")); [destruct (p_code r2 =? 200); split; try reflexivity; try exact E; cbn [fst]; rewrite <- !notify_unw, E; reflexivity|].
  destruct (beq _ (bs "PLAY")); [destruct (p_code r2 =? 200); split; try reflexivity; try exact E; cbn [fst]; rewrite <- !notify_unw, E; reflexivity|].
  destruct (beq _ (bs "TEARDOWN")); [destruct (p_code r2 =? 200); split; try reflexivity; try exact E; cbn [fst]; rewrite <- !notify_unw, E; reflexivity|].
  destruct (beq _ (bs "SETUP")); [|split; [exact E|reflexivity]].
  assert (H : handle_setup w1 r1 = handle_setup w1 r2) by (unfold handle_setup; rewrite Rc, Rq, Rh; reflexivity). rewrite H.
  apply (same_of _ _ _ (handle_setup_unw r2) E).
Qed.

Lemma handle_same w1 w2 r1 r2 : unw w1 = unw w2 -> response_but_body r1 r2 -> bodies_alike (s_proto (w_s w1)) r1 r2 ->
  unw (fst (handle_response w1 r1)) = unw (fst (handle_response w2 r2)) /\ snd (handle_response w1 r1) = snd (handle_response w2 r2).
Proof.
  intros E R B. unfold handle_response. pose proof R as (Rc & Rq & Rh).
  assert (E' : unw (note w1 (Got r1)) = unw (note w2 (Got r2))).
  { apply unw_eq in E. apply unw_eq. destruct E as (A1 & A2 & A3 & A4 & A5 & A6 & A7). unfold world_but_format, note. cbn [w_s w_in w_writes w_listens w_rand w_log]. splits; try assumption.
    apply Forall2_app; [exact A7|]. constructor; [exact R|constructor]. }
  assert (B' : bodies_alike (s_proto (w_s (note w1 (Got r1)))) r1 r2) by exact B. clear E B. revert E' B'. generalize (note w1 (Got r1)) (note w2 (Got r2)). clear w1 w2. intros w1 w2 E B.
  assert (Qe : s_queue (w_s w1) = s_queue (w_s w2)) by (change (s_queue (w_s (unw w1)) = s_queue (w_s (unw w2))); rewrite E; reflexivity).
  rewrite Qe, Rq. destruct (qget (s_queue (w_s w2)) (p_cseq r2)) as [req|]; [|split; [exact E|reflexivity]].
  assert (E2 : unw (upd_s w1 (fun s => set_queue s (qdel (s_queue s) (p_cseq r2)))) = unw (upd_s w2 (fun s => set_queue s (qdel (s_queue s) (p_cseq r2))))).
  { change (upd_s (unw w1) (fun s => set_queue s (qdel (s_queue s) (p_cseq r2))) = upd_s (unw w2) (fun s => set_queue s (qdel (s_queue s) (p_cseq r2)))). rewrite E. reflexivity. }
  rewrite Rc. destruct (p_code r2 =? 401).
  - assert (H : forall w, retry w req r1 = retry w req r2) by (intros w; unfold retry; rewrite Rh; reflexivity). rewrite H. apply (same_of _ _ _ (retry_unw req r2) E2).
  - apply react_same; [|exact R|].
    + assert (H : forall s, learn_session s r1 = learn_session s r2) by (intros s; unfold learn_session; rewrite Rh; reflexivity).
      assert (H2 : forall w, unw (upd_s w (fun s => learn_session s r2)) = upd_s (unw w) (fun s => learn_session s r2)) by (intros w; unfold unw, upd_s, learn_session; cbn; destruct (beq _ []); reflexivity).
      assert (H3 : forall w, upd_s w (fun s => learn_session s r1) = upd_s w (fun s => learn_session s r2)) by (intros w; unfold upd_s; rewrite H; reflexivity).
      rewrite H3, !H2, E2. reflexivity.
    + assert (H : forall s, s_proto (learn_session s r1) = s_proto s) by (intros s; unfold learn_session; destruct (beq _ []); reflexivity). cbn [upd_s w_s]. rewrite H. exact B.
Qed.

Lemma bodies_refl proto r : bodies_alike proto r r.
Proof. unfold bodies_alike. destruct (p_body r) as [b|]; [|exact I]. destruct (parse_feeds proto b); reflexivity. Qed.

Lemma make_feeds_bare proto : forall ms1 ms2 i, Forall2 but_format ms1 ms2 -> map bare_feed (make_feeds proto i ms1) = map bare_feed (make_feeds proto i ms2).
Proof.
  induction ms1 as [|m1 ms1 IH]; intros [|m2 ms2] i F; inversion F as [|? ? ? ? (C & P) F']; subst; [reflexivity|]. cbn. rewrite (IH ms2 (i + 1) F').
  unfold bare_feed, bare_media. cbn. rewrite C, P. reflexivity.
Qed.

(* ---- histories ---- *)
Lemma receive_same w1 w2 : unw w1 = unw w2 -> unw (fst (receive w1)) = unw (fst (receive w2)) /\ snd (receive w1) = snd (receive w2).
Proof.
  intros E. assert (In : w_in w1 = w_in w2) by (change (w_in (unw w1) = w_in (unw w2)); rewrite E; reflexivity).
  assert (U : forall x, unw (upd_in w1 x) = unw (upd_in w2 x)) by (intros x; change (upd_in (unw w1) x = upd_in (unw w2) x); rewrite E; reflexivity).
  unfold receive. rewrite In. destruct (peek 1 (w_in w2)) as [s0 [l| | |]]; try (split; [apply U|reflexivity]).
  assert (R : unw (fst (match unpack_response s0 with (s1, Ok r) => handle_response (upd_in w1 s1) r | (s1, Err e) => (upd_in w1 s1, Err e) | (s1, Panic) => (upd_in w1 s1, Panic) | (s1, Fuel) => (upd_in w1 s1, Fuel) end)) =
              unw (fst (match unpack_response s0 with (s1, Ok r) => handle_response (upd_in w2 s1) r | (s1, Err e) => (upd_in w2 s1, Err e) | (s1, Panic) => (upd_in w2 s1, Panic) | (s1, Fuel) => (upd_in w2 s1, Fuel) end)) /\
              snd (match unpack_response s0 with (s1, Ok r) => handle_response (upd_in w1 s1) r | (s1, Err e) => (upd_in w1 s1, Err e) | (s1, Panic) => (upd_in w1 s1, Panic) | (s1, Fuel) => (upd_in w1 s1, Fuel) end) =
              snd (match unpack_response s0 with (s1, Ok r) => handle_response (upd_in w2 s1) r | (s1, Err e) => (upd_in w2 s1, Err e) | (s1, Panic) => (upd_in w2 s1, Panic) | (s1, Fuel) => (upd_in w2 s1, Fuel) end)).
  { destruct (unpack_response s0) as [s1 [r| | |]]; try (split; [apply U|reflexivity]). apply handle_same; [apply U|repeat split|apply bodies_refl]. }
  destruct l as [|a [|b l]]; [exact R| |destruct a as [|p|p]; [exact R| |exact R]; repeat (destruct p as [p|p|]; try exact R)].
  destruct (Z.eq_dec a 36) as [->|N].
  2: { destruct a as [|p|p]; [exact R| |exact R]. repeat (destruct p as [p|p|]; try exact R). congruence. }
  destruct (read_byte (discard 1 s0)) as [s1 [ch| | |]]; try (split; [apply U|reflexivity]).
  destruct (read_uint16 s1) as [s2 [n| | |]]; try (split; [apply U|reflexivity]).
  destruct (read_bytes n s2) as [s3 [p| | |]]; try (split; [apply U|reflexivity]).
  split; [|reflexivity]. cbn [fst]. rewrite <- !note_unw by reflexivity. rewrite U. reflexivity.
Qed.

Lemma turn_same w1 w2 t1 t2 : unw w1 = unw w2 -> unw (fst (turn w1 t1 t2)) = unw (fst (turn w2 t1 t2)) /\ snd (turn w1 t1 t2) = snd (turn w2 t1 t2).
Proof.
  intros E. unfold turn. destruct (same_of _ _ _ (keepalive_unw t1 t2) E) as [K1 K2]. destruct (keepalive w1 t1 t2) as [a o], (keepalive w2 t1 t2) as [b o2]. cbn [fst snd] in K1, K2. subst o2.
  destruct (receive_same a b K1) as [R1 R2]. destruct (receive a) as [a' p], (receive b) as [b' p2]. cbn [fst snd] in R1, R2. subst p2.
  assert (St : s_stage (w_s a) = s_stage (w_s b)) by (change (s_stage (w_s (unw a)) = s_stage (w_s (unw b))); rewrite K1; reflexivity). rewrite St.
  destruct o as [[]| | |]; try (split; [exact K1|reflexivity]).
  - destruct p as [[]| | |]; split; try exact R1; reflexivity.
  - destruct (_ =? StageDone); [split; [exact K1|reflexivity]|]. destruct p as [[]| | |]; split; try exact R1; reflexivity.
Qed.

Lemma cmd_unw c : commutes (fun w => do_cmd w c).
Proof. destruct c; [apply options_unw|apply describe_unw|apply setup_unw|apply play_unw|apply pause_unw|apply teardown_unw|apply keepalive_unw]. Qed.

Lemma step_same w1 w2 l e : unw w1 = unw w2 -> unw (fst (step (w1, l) e)) = unw (fst (step (w2, l) e)) /\ snd (step (w1, l) e) = snd (step (w2, l) e).
Proof.
  intros E. unfold step. destruct l; [| |split; [exact E|reflexivity]]; destruct e as [c|t1 t2]; try (split; [exact E|reflexivity]).
  - destruct (same_of _ _ _ (cmd_unw c) E) as [K1 K2]. destruct (do_cmd w1 c) as [a o], (do_cmd w2 c) as [b o2]. cbn [fst snd] in K1, K2. subst o2. destruct o; split; try exact K1; reflexivity.
  - destruct (turn_same w1 w2 t1 t2 E) as [K1 K2]. destruct (turn w1 t1 t2) as [a o], (turn w2 t1 t2) as [b o2]. cbn [fst snd] in K1, K2. subst o2. destruct o; split; try exact K1; reflexivity.
  - destruct (same_of _ _ _ (cmd_unw c) E) as [K1 K2]. destruct (do_cmd w1 c) as [a o], (do_cmd w2 c) as [b o2]. cbn [fst snd] in K1, K2. subst o2. destruct o; split; try exact K1; reflexivity.
Qed.

Lemma run_same es : forall w1 w2 l, unw w1 = unw w2 -> unw (fst (M_session.run (w1, l) es)) = unw (fst (M_session.run (w2, l) es)) /\ snd (M_session.run (w1, l) es) = snd (M_session.run (w2, l) es).
Proof.
  induction es as [|e es IH]; intros w1 w2 l E; [split; [exact E|reflexivity]|]. unfold M_session.run. cbn [fold_left].
  destruct (step_same w1 w2 l e E) as [K1 K2]. destruct (step (w1, l) e) as [a x], (step (w2, l) e) as [b y]. cbn [fst snd] in K1, K2. subst y. apply IH. exact K1.
Qed.

(* ---- the program ---- *)
Lemma must_same r1 r2 c : unw (fst r1) = unw (fst r2) -> snd r1 = snd r2 ->
  unw (fst (fst (must r1 c))) = unw (fst (fst (must r2 c))) /\ snd (fst (must r1 c)) = snd (fst (must r2 c)) /\ snd (must r1 c) = snd (must r2 c).
Proof. destruct r1 as [a o], r2 as [b p]. cbn [fst snd]. intros E ->. unfold must. destruct p; splits; try exact E; reflexivity. Qed.

Lemma stages_hide l : stages_in (map hide l) = stages_in l.
Proof. unfold stages_in. induction l as [|e l IH]; [reflexivity|]. cbn. rewrite IH. destruct e; reflexivity. Qed.
Lemma packets_hide l : packets_in (map hide l) = packets_in l.
Proof. unfold packets_in. induction l as [|e l IH]; [reflexivity|]. cbn. rewrite IH. destruct e; reflexivity. Qed.
Lemma news_unw w w' : news (unw w) (unw w') = map hide (news w w').
Proof. unfold news. cbn. rewrite map_length, skipn_map. reflexivity. Qed.

Lemma on_stage_same w1 w2 c n : unw w1 = unw w2 ->
  unw (fst (fst (on_stage w1 c n))) = unw (fst (fst (on_stage w2 c n))) /\ snd (fst (on_stage w1 c n)) = snd (fst (on_stage w2 c n)) /\ snd (on_stage w1 c n) = snd (on_stage w2 c n).
Proof.
  intros E. unfold on_stage. destruct (n =? StageReady).
  - destruct (same_of _ _ _ play_unw E) as [A B]. apply must_same; assumption.
  - destruct (_ || _ || _)%bool; splits; try exact E; reflexivity.
Qed.
Lemma on_tick_same w1 w2 c : unw w1 = unw w2 ->
  unw (fst (fst (on_tick w1 c))) = unw (fst (fst (on_tick w2 c))) /\ snd (fst (on_tick w1 c)) = snd (fst (on_tick w2 c)) /\ snd (on_tick w1 c) = snd (on_tick w2 c).
Proof.
  intros E. unfold on_tick. destruct (_ =? StagePlay).
  - destruct (same_of _ _ _ pause_unw E) as [A B]. apply must_same; assumption.
  - destruct (_ =? StagePause).
    + destruct (same_of _ _ _ teardown_unw E) as [A B]. apply must_same; assumption.
    + destruct (_ =? StageDone); splits; try exact E; reflexivity.
Qed.

Definition opt_same (a b : option system) : Prop := match a, b with Some x, Some y => system_but_format x y | None, None => True | _, _ => False end.

Lemma ystep_same y1 y2 e : system_but_format y1 y2 -> opt_same (ystep y1 e) (ystep y2 e).
Proof.
  destruct y1 as [w1 l c st d f], y2 as [w2 l2 c2 st2 d2 f2]. unfold system_but_format. cbn [y_w y_loop y_c y_stage y_data y_fate].
  intros (E & <- & <- & <- & <- & <-). apply unw_eq in E. unfold ystep. cbn [y_w y_loop y_c y_stage y_data y_fate]. destruct f; try exact I. destruct e as [t1 t2| | | |].
  - destruct l; try exact I. destruct st; try exact I. destruct (zlen d <=? 20); [|exact I]. destruct (turn_same w1 w2 t1 t2 E) as [A B].
    destruct (turn w1 t1 t2) as [a o], (turn w2 t1 t2) as [b p]. cbn [fst snd] in A, B. subst p.
    assert (N : map hide (news w1 a) = map hide (news w2 b)) by (rewrite <- !news_unw, E, A; reflexivity).
    unfold opt_same, system_but_format. cbn [y_w y_loop y_c y_stage y_data y_fate]. splits; try reflexivity.
    + apply unw_eq. exact A.
    + rewrite <- (stages_hide (news w1 a)), N, stages_hide. reflexivity.
    + rewrite <- (packets_hide (news w1 a)), N, packets_hide. reflexivity.
  - destruct st as [n|]; [|exact I]. destruct (on_stage_same w1 w2 c n E) as (A & B & C). destruct (on_stage w1 c n) as [[a c1] f1], (on_stage w2 c n) as [[b c2] f2]. cbn [fst snd] in A, B, C. subst.
    unfold opt_same, system_but_format. cbn [y_w y_loop y_c y_stage y_data y_fate]. splits; try reflexivity. apply unw_eq. exact A.
  - destruct d as [|[ch p] r]; [exact I|]. destruct (on_packet c ch p) as [c1 f1]. unfold opt_same, system_but_format. cbn [y_w y_loop y_c y_stage y_data y_fate]. splits; try reflexivity. apply unw_eq. exact E.
  - destruct (c_ticked c); [|exact I]. destruct (on_tick_same w1 w2 (mkC (c_state c) (c_sink c) (c_running c) false) E) as (A & B & C).
    destruct (on_tick w1 _) as [[a c1] f1], (on_tick w2 _) as [[b c2] f2]. cbn [fst snd] in A, B, C. subst.
    unfold opt_same, system_but_format. cbn [y_w y_loop y_c y_stage y_data y_fate]. splits; try reflexivity. apply unw_eq. exact A.
  - destruct (c_running c); [|exact I]. unfold opt_same, system_but_format. cbn [y_w y_loop y_c y_stage y_data y_fate]. splits; try reflexivity. apply unw_eq. exact E.
Qed.

Lemma yrun_same es : forall y1 y2, system_but_format y1 y2 -> opt_same (yrun y1 es) (yrun y2 es).
Proof.
  induction es as [|e es IH]; intros y1 y2 E; [exact E|]. cbn [yrun]. pose proof (ystep_same y1 y2 e E) as H.
  destruct (ystep y1 e), (ystep y2 e); cbn [opt_same] in H; try contradiction; [apply IH; exact H|exact I].
Qed.
