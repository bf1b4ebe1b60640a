(* Lemmas: a session with credentials next to the same session without. *)
From Coq Require Import String Permutation.
From Verif Require Import Base GoStrings S_message M_message M_transport M_sdp M_sps M_digest S_digest M_session S_session S_handshake S_auth
  L_base L_strings L_digest L_session L_handshake.
From Coq Require Import ZifyBool ZifyNat.

(* ---- the same request, effect, queue, with an Authorization field that depends on the verb ---- *)
Definition dress_eff (o : bytes -> bytes) (e : effect) : effect := match e with Sent a r => Sent a (dress o r) | e => e end.
(* what is left of a request in the queue when it is sent once more: the rest is put in then *)
Definition strip (r : request) : request := mkReq (q_verb r) 0 (q_uri r) [] [] (q_header r).
Definition bare (e : Z * request) : Z * request := (fst e, strip (snd e)).
Definition same_queue (q q' : list (Z * request)) : Prop := map bare q = map bare q'.

(* the closure keeps answering by the verb alone *)
Definition steady (au : option (bytes * digest)) (o : bytes -> bytes) : Prop :=
  match au with
  | None => forall v, o v = []
  | Some (text, d) => forall vs, calls text d (map (fun v => Call v []) vs) = map o vs
  end.

Definition cloak (s : session) u au q : session := mkSes (s_conn s) (s_proto s) u (s_uri s) (s_sinks s) (s_stage s) au q (s_session s) (s_feeds s) (s_feedidx s) (s_verbs s) (s_last s) (s_cseq s).
Definition cloaked (w : world) u au q rnd log : world := mkW (cloak (w_s w) u au q) (w_in w) (w_writes w) (w_listens w) rnd log.

Definition plain (s : session) : Prop := s_user s = None /\ s_auth s = None.
Definition related (o : bytes -> bytes) (w w' : world) : Prop :=
  plain (w_s w) /\ exists u au q rnd log, w' = cloaked w u au q rnd log /\ steady au o /\ same_queue (s_queue (w_s w)) q.
Definition grown (o : bytes -> bytes) (w w' w1 w1' : world) : Prop :=
  related o w1 w1' /\ (exists new, w_log w1 = w_log w ++ new /\ w_log w1' = w_log w' ++ map (dress_eff o) new) /\
  s_user (w_s w1') = s_user (w_s w') /\ w_rand w1' = w_rand w'.
Definition sims (o : bytes -> bytes) (w w' : world) (r r' : world * res unit) : Prop := snd r' = snd r /\ grown o w w' (fst r) (fst r').

Lemma grown_refl o w w' : related o w w' -> grown o w w' w w'.
Proof. intros R. unfold grown. splits; [exact R|exists []; cbn; rewrite !app_nil_r; split; reflexivity|reflexivity|reflexivity]. Qed.
Lemma grown_trans o w w' w1 w1' w2 w2' : grown o w w' w1 w1' -> grown o w1 w1' w2 w2' -> grown o w w' w2 w2'.
Proof.
  intros (_ & (n1 & A1 & A2) & A3 & A4) (R & (n2 & B1 & B2) & B3 & B4). unfold grown. splits; [exact R| |congruence|congruence].
  exists (n1 ++ n2). rewrite B1, A1, B2, A2, map_app, <- !app_assoc. split; reflexivity.
Qed.
Lemma sims_ret o w w' w1 w1' x : grown o w w' w1 w1' -> sims o w w' (w1, x) (w1', x).
Proof. intros G. split; [reflexivity|exact G]. Qed.
Lemma sims_step o w w' w1 w1' r r' : grown o w w' w1 w1' -> sims o w1 w1' r r' -> sims o w w' r r'.
Proof. intros G [E H]. split; [exact E|eapply grown_trans; eassumption]. Qed.
Lemma grown_related o w w' w1 w1' : grown o w w' w1 w1' -> related o w1 w1'.
Proof. intros (R & _). exact R. Qed.

(* what the two have in common *)
Lemma related_eq o w w' : related o w w' -> s_conn (w_s w') = s_conn (w_s w) /\ s_proto (w_s w') = s_proto (w_s w) /\ s_uri (w_s w') = s_uri (w_s w) /\
  s_stage (w_s w') = s_stage (w_s w) /\ s_session (w_s w') = s_session (w_s w) /\ s_feeds (w_s w') = s_feeds (w_s w) /\
  s_feedidx (w_s w') = s_feedidx (w_s w) /\ s_last (w_s w') = s_last (w_s w) /\ s_cseq (w_s w') = s_cseq (w_s w) /\ w_in w' = w_in w /\ w_writes w' = w_writes w /\ w_listens w' = w_listens w.
Proof. intros (_ & u & au & q & rnd & log & -> & _). splits; reflexivity. Qed.

(* ---- steps that touch neither the queue nor the credentials ---- *)
Lemma grown_upd o w w' g : related o w w' -> (forall s u au q, g (cloak s u au q) = cloak (g s) u au q) ->
  (forall s, s_user (g s) = s_user s /\ s_auth (g s) = s_auth s /\ s_queue (g s) = s_queue s) -> grown o w w' (upd_s w g) (upd_s w' g).
Proof.
  intros ((P1 & P2) & u & au & q & rnd & log & -> & S & Q) C F. destruct (F (w_s w)) as (F1 & F2 & F3). unfold grown. splits.
  - split; [split; cbn; congruence|]. exists u, au, q, rnd, log. splits; [|exact S|cbn; rewrite F3; exact Q]. unfold upd_s, cloaked. cbn. rewrite C. reflexivity.
  - exists []. cbn. rewrite !app_nil_r. split; reflexivity.
  - cbn. rewrite C. reflexivity.
  - reflexivity.
Qed.
Ltac upd_tac := apply grown_upd; [assumption|intros; reflexivity|intros; repeat split; reflexivity].
Lemma grown_note o w w' e : related o w w' -> (forall o', dress_eff o' e = e) -> grown o w w' (note w e) (note w' e).
Proof.
  intros ((P1 & P2) & u & au & q & rnd & log & -> & S & Q) D. unfold grown. splits; try reflexivity.
  - split; [split; assumption|]. exists u, au, q, rnd, (log ++ [e]). splits; [reflexivity|exact S|exact Q].
  - exists [e]. cbn [map]. rewrite D. split; reflexivity.
Qed.
Lemma grown_in o w w' x : related o w w' -> grown o w w' (upd_in w x) (upd_in w' x).
Proof.
  intros ((P1 & P2) & u & au & q & rnd & log & -> & S & Q). unfold grown. splits; try reflexivity.
  - split; [split; assumption|]. exists u, au, q, rnd, log. splits; [reflexivity|exact S|exact Q].
  - exists []. cbn. rewrite !app_nil_r. split; reflexivity.
Qed.

(* ---- the queue ---- *)
Lemma same_get q : forall q' k, same_queue q q' -> match qget q k, qget q' k with
  | Some r, Some r' => strip r = strip r' | None, None => True | _, _ => False end.
Proof.
  induction q as [|[a r] q IH]; intros [|[a' r'] q'] k E; cbn in *; try discriminate; [exact I|].
  injection E as <- E1 E2 E3 E. specialize (IH q' k E). destruct (a =? k); [|exact IH]. unfold strip. congruence.
Qed.
Lemma same_del q : forall q' k, same_queue q q' -> same_queue (qdel q k) (qdel q' k).
Proof.
  unfold same_queue, qdel. induction q as [|[a r] q IH]; intros [|[a' r'] q'] k E; cbn [map filter] in *; try discriminate; [reflexivity|].
  injection E as <- E1 E2 E3 E. cbn [fst]. destruct (negb (a =? k)); cbn [map]; [|apply IH; exact E]. rewrite (IH q' k E). f_equal. unfold bare, strip. cbn. congruence.
Qed.
Lemma same_set q q' k r r' : same_queue q q' -> strip r = strip r' -> same_queue (qset q k r) (qset q' k r').
Proof. intros Q E. unfold same_queue, qset. cbn [map]. unfold bare at 1 3. cbn [fst snd]. rewrite E. f_equal. apply same_del. exact Q. Qed.

(* ---- the closure ---- *)
Lemma steady_call s u au q o verb : steady au o -> exists au', steady au' o /\ call_auth (cloak s u au q) verb = (cloak s u au' q, o verb).
Proof.
  intros S. unfold call_auth. cbn [cloak s_auth]. destruct au as [[text d]|]; [|exists None; split; [exact S|cbn in S; rewrite S; reflexivity]].
  cbn in S. destruct (auth_call text d verb []) as [d' out] eqn:E. exists (Some (text, d')). split.
  - intros vs. pose proof (S (verb :: vs)) as X. cbn [map calls] in X. rewrite E in X. injection X as _ X. exact X.
  - pose proof (S [verb]) as X. cbn [map calls] in X. rewrite E in X. injection X as X. subst out. reflexivity.
Qed.

(* ---- commands ---- *)
Lemma write_sims o w u au q rnd log again r r' : plain (w_s w) -> steady au o -> same_queue (s_queue (w_s w)) q -> r' = dress o r ->
  sims o w (cloaked w u au q rnd log) (write w again r) (write (cloaked w u au q rnd log) again r').
Proof.
  intros P S Q ->. unfold write. change (s_proto (w_s (cloaked w u au q rnd log))) with (s_proto (w_s w)). change (w_writes (cloaked w u au q rnd log)) with (w_writes w). destruct (s_proto (w_s w) =? ProtoHTTP).
  - apply sims_ret, grown_refl. split; [exact P|]. exists u, au, q, rnd, log. splits; [reflexivity|exact S|exact Q].
  - set (w1 := mkW (w_s w) (w_in w) (tl (w_writes w)) (w_listens w) (w_rand w) (w_log w ++ [Sent again r])).
    set (w1' := mkW (w_s (cloaked w u au q rnd log)) (w_in w) (tl (w_writes w)) (w_listens w) rnd (log ++ [Sent again (dress o r)])).
    assert (G : grown o w (cloaked w u au q rnd log) w1 w1').
    { unfold grown. splits; try reflexivity.
      - split; [exact P|]. exists u, au, q, rnd, (log ++ [Sent again (dress o r)]). splits; [reflexivity|exact S|exact Q].
      - exists [Sent again r]. split; reflexivity. }
    assert (X : sims o w (cloaked w u au q rnd log) (match w_writes w with Some e :: _ => (w1, Err e) | _ => (w1, Ok tt) end) (match w_writes w with Some e :: _ => (w1', Err e) | _ => (w1', Ok tt) end)).
    { destruct (w_writes w) as [|[e|] t]; apply sims_ret; exact G. }
    exact X.
Qed.

Lemma command_sims o w w' verb uri hs : related o w w' -> sims o w w' (command w verb uri hs) (command w' verb uri hs).
Proof.
  intros R. pose proof R as ((P1 & P2) & u & au & q & rnd & log & -> & S & Q). unfold command.
  change (s_conn (w_s (cloaked w u au q rnd log))) with (s_conn (w_s w)).
  destruct (s_conn (w_s w)); cbn [negb]; [|apply sims_ret, grown_refl; exact R].
  change (w_s (cloaked w u au q rnd log)) with (cloak (w_s w) u au q).
  destruct (steady_call (w_s w) u au q o verb S) as (au' & S' & E). rewrite E.
  assert (E0 : call_auth (w_s w) verb = (w_s w, [])) by (unfold call_auth; rewrite P2; reflexivity). rewrite E0.
  unfold enqueue. set (h := fold_left (fun (h : header) e => header_set h (fst e) (snd e)) hs []). set (c := i64 (s_cseq (w_s w) + 1)). change (i64 (s_cseq (cloak (w_s w) u au' q) + 1)) with c.
  set (r := mkReq verb c uri [] (s_session (w_s w)) h). set (r' := mkReq verb c uri (o verb) (s_session (w_s w)) h).
  set (w1 := upd_s w (fun _ => set_queue (set_cseq (w_s w) c) (qset (s_queue (w_s w)) c r))).
  assert (Q' : same_queue (s_queue (w_s w1)) (qset q c r')) by (apply same_set; [exact Q|reflexivity]).
  assert (G : grown o w (cloaked w u au q rnd log) w1 (cloaked w1 u au' (qset q c r') rnd log)).
  { unfold grown. splits; try reflexivity.
    - split; [split; assumption|]. exists u, au', (qset q c r'), rnd, log. splits; [reflexivity|exact S'|exact Q'].
    - exists []. cbn. rewrite !app_nil_r. split; reflexivity. }
  eapply sims_step; [exact G|].
  exact (write_sims o w1 u au' (qset q c r') rnd log false r r' (conj P1 P2) S' Q' eq_refl).
Qed.

Lemma with_conn_sims o w w' k k' : related o w w' -> (s_conn (w_s w) = true -> sims o w w' (k (w_s w)) (k' (w_s w'))) -> sims o w w' (with_conn w k) (with_conn w' k').
Proof.
  intros R K. unfold with_conn. destruct (related_eq o w w' R) as (-> & _). destruct (s_conn (w_s w)); [apply K; reflexivity|apply sims_ret, grown_refl; exact R].
Qed.
Lemma named_sims o w w' verb hs : related o w w' -> sims o w w' (with_conn w (fun s => command w verb (s_uri s) hs)) (with_conn w' (fun s => command w' verb (s_uri s) hs)).
Proof.
  intros R. apply with_conn_sims; [exact R|]. intros _. destruct (related_eq o w w' R) as (_ & _ & -> & _). apply command_sims. exact R.
Qed.

Lemma mark_cloak i s u au q : mark_feed i (cloak s u au q) = cloak (mark_feed i s) u au q.
Proof. unfold mark_feed. cbn [cloak s_feeds s_cseq]. destruct (nth_error (s_feeds s) i); reflexivity. Qed.
Lemma mark_frame i s : s_user (mark_feed i s) = s_user s /\ s_auth (mark_feed i s) = s_auth s /\ s_queue (mark_feed i s) = s_queue s.
Proof. unfold mark_feed. destruct (nth_error (s_feeds s) i); repeat split; reflexivity. Qed.
Lemma setup_from_sims o todo : forall w w' i, related o w w' -> sims o w w' (setup_from w i todo) (setup_from w' i todo).
Proof.
  induction todo as [|f todo IH]; intros w w' i R; cbn [setup_from]; [apply sims_ret, grown_refl; exact R|].
  assert (E : setup_uri (w_s w') (m_control (fd_media f)) = setup_uri (w_s w) (m_control (fd_media f))).
  { destruct (related_eq o w w' R) as (E1 & _ & E2 & _). unfold setup_uri. rewrite E1, E2. reflexivity. }
  rewrite E. destruct (setup_uri (w_s w) (m_control (fd_media f))); try (apply sims_ret, grown_refl; exact R).
  pose proof (command_sims o w w' (bs "SETUP") a [(bs "Transport", transport_string (fd_transp f))] R) as [Ex G].
  destruct (command w (bs "SETUP") a _) as [w1 x]. destruct (command w' (bs "SETUP") a _) as [w1' x']. cbn [fst snd] in *. subst x'.
  destruct x; try (apply sims_ret; exact G).
  pose proof (grown_related _ _ _ _ _ G) as R1.
  assert (G2 : grown o w1 w1' (upd_s w1 (mark_feed i)) (upd_s w1' (mark_feed i))) by (apply grown_upd; [exact R1|intros; apply mark_cloak|intros; apply mark_frame]).
  eapply sims_step; [exact (grown_trans _ _ _ _ _ _ _ G G2)|]. apply IH. exact (grown_related _ _ _ _ _ G2).
Qed.
Lemma setup_sims o w w' : related o w w' -> sims o w w' (setup w) (setup w').
Proof. intros R. unfold setup. destruct (related_eq o w w' R) as (_ & _ & _ & _ & _ & -> & _). apply setup_from_sims. exact R. Qed.

Lemma keepalive_sims o w w' t1 t2 : related o w w' -> sims o w w' (keepalive w t1 t2) (keepalive w' t1 t2).
Proof.
  intros R. unfold keepalive. apply with_conn_sims; [exact R|]. intros _. destruct (related_eq o w w' R) as (_ & -> & -> & -> & -> & _ & _ & -> & _).
  destruct (_ && _ && _ && _); [|apply sims_ret, grown_refl; exact R].
  destruct (match s_last (w_s w) with None => true | Some l => _ end); [|apply sims_ret, grown_refl; exact R].
  assert (G1 : grown o w w' (upd_s w (fun s => set_last s (Some t2))) (upd_s w' (fun s => set_last s (Some t2)))) by upd_tac.
  pose proof (grown_note o _ _ (Alive t1 t2) (grown_related _ _ _ _ _ G1) ltac:(reflexivity)) as G2.
  eapply sims_step; [exact (grown_trans _ _ _ _ _ _ _ G1 G2)|]. apply command_sims. exact (grown_related _ _ _ _ _ G2).
Qed.

Lemma do_cmd_sims o w w' c : related o w w' -> sims o w w' (do_cmd w c) (do_cmd w' c).
Proof.
  intros R. destruct c; cbn [do_cmd]; try (apply named_sims; exact R); [apply setup_sims; exact R|apply keepalive_sims; exact R].
Qed.

(* ---- responses other than 401 ---- *)
Lemma notify_grown o w w' st : related o w w' -> grown o w w' (notify w st) (notify w' st).
Proof.
  intros R. unfold notify. assert (G1 : grown o w w' (upd_s w (fun s => set_stage s st)) (upd_s w' (fun s => set_stage s st))) by upd_tac.
  eapply grown_trans; [exact G1|]. apply grown_note; [exact (grown_related _ _ _ _ _ G1)|reflexivity].
Qed.
Lemma add_sink_sims o w w' ch port : related o w w' -> sims o w w' (add_sink w ch port) (add_sink w' ch port).
Proof.
  intros R. pose proof R as ((P1 & P2) & u & au & q & rnd & log & -> & S & Q). unfold add_sink.
  change (w_listens (cloaked w u au q rnd log)) with (w_listens w). 
  assert (Y : forall l, grown o w (cloaked w u au q rnd log) (note (mkW (set_sinks (w_s w) (s_sinks (w_s w) ++ [(ch, port)])) (w_in w) (w_writes w) l (w_rand w) (w_log w)) (Listening ch port))
     (note (mkW (set_sinks (w_s (cloaked w u au q rnd log)) (s_sinks (w_s (cloaked w u au q rnd log)) ++ [(ch, port)])) (w_in (cloaked w u au q rnd log)) (w_writes (cloaked w u au q rnd log)) l (w_rand (cloaked w u au q rnd log)) (w_log (cloaked w u au q rnd log))) (Listening ch port))).
  { intros l. unfold grown. splits; try reflexivity.
    - split; [split; assumption|]. exists u, au, q, rnd, (log ++ [Listening ch port]). splits; [reflexivity|exact S|exact Q].
    - exists [Listening ch port]. split; reflexivity. }
  destruct (w_listens w) as [|[e|] l]; try (apply sims_ret; apply Y).
  apply sims_ret. unfold grown. splits; try reflexivity.
  - split; [split; assumption|]. exists u, au, q, rnd, log. splits; [reflexivity|exact S|exact Q].
  - exists []. cbn. rewrite !app_nil_r. split; reflexivity.
Qed.

Lemma setup_feeds_sims o cseq v todo : forall w w' i, related o w w' -> sims o w w' (setup_feeds w cseq v i todo) (setup_feeds w' cseq v i todo).
Proof.
  induction todo as [|f todo IH]; intros w w' i R; cbn [setup_feeds]; [apply sims_ret, grown_refl; exact R|].
  destruct (fd_cseq f =? cseq); [|apply IH; exact R].
  assert (G1 : grown o w w' (upd_s w (fun s => set_feedidx s (i64 (s_feedidx s + 1)))) (upd_s w' (fun s => set_feedidx s (i64 (s_feedidx s + 1))))) by upd_tac.
  set (w1 := upd_s w _) in *. set (w1' := upd_s w' _) in *. clearbody w1 w1'. pose proof (grown_related _ _ _ _ _ G1) as R1.
  destruct (transport_setup f v) as [f' x].
  assert (G2 : grown o w1 w1' (upd_s w1 (put_feed i f')) (upd_s w1' (put_feed i f'))) by upd_tac.
  pose proof (grown_trans _ _ _ _ _ _ _ G1 G2) as G3. pose proof (grown_related _ _ _ _ _ G3) as R3.
  destruct x; try (apply sims_ret; exact G3).
  set (w2 := upd_s w1 _) in *. set (w2' := upd_s w1' _) in *. clearbody w2 w2'.
  destruct (t_tcp (fd_transp f')); [eapply sims_step; [exact G3|apply IH; exact R3]|].
  destruct (related_eq o w2 w2' R3) as (_ & _ & _ & _ & _ & _ & -> & _).
  pose proof (add_sink_sims o w2 w2' (u8 (u8 (s_feedidx (w_s w2)) * 2)) (p_one (t_port (fd_transp f'))) R3) as [E4 G4].
  destruct (add_sink w2 _ (p_one _)) as [w4 x4], (add_sink w2' _ (p_one _)) as [w4' x4']. cbn [fst snd] in *. subst x4'.
  pose proof (grown_trans _ _ _ _ _ _ _ G3 G4) as G5. destruct x4; try (apply sims_ret; exact G5).
  pose proof (add_sink_sims o w4 w4' (u8 (u8 (u8 (s_feedidx (w_s w2)) * 2) + 1)) (p_two (t_port (fd_transp f'))) (grown_related _ _ _ _ _ G4)) as [E6 G6].
  destruct (add_sink w4 _ (p_two _)) as [w6 x6], (add_sink w4' _ (p_two _)) as [w6' x6']. cbn [fst snd] in *. subst x6'.
  pose proof (grown_trans _ _ _ _ _ _ _ G5 G6) as G7. destruct x6; try (apply sims_ret; exact G7).
  eapply sims_step; [exact G7|]. apply IH. exact (grown_related _ _ _ _ _ G7).
Qed.

Definition finish_setup (w : world) : world * res unit :=
  if s_feedidx (w_s w) >=? zlen (s_feeds (w_s w)) then (note (notify w StageReady) Started, Ok tt) else (w, Ok tt).
Lemma finish_sims o w w' : related o w w' -> sims o w w' (finish_setup w) (finish_setup w').
Proof.
  intros R. unfold finish_setup. destruct (related_eq o w w' R) as (_ & _ & _ & _ & _ & -> & -> & _).
  destruct (_ >=? _); apply sims_ret; [|apply grown_refl; exact R].
  pose proof (notify_grown o w w' StageReady R) as G. eapply grown_trans; [exact G|]. apply grown_note; [exact (grown_related _ _ _ _ _ G)|reflexivity].
Qed.
Lemma handle_setup_sims o w w' r : related o w w' -> sims o w w' (handle_setup w r) (handle_setup w' r).
Proof.
  intros R. unfold handle_setup. fold finish_setup. destruct (p_code r =? 200).
  - destruct (related_eq o w w' R) as (_ & _ & _ & _ & _ & -> & _).
    pose proof (setup_feeds_sims o (p_cseq r) (header_get (p_header r) (bs "Transport")) (s_feeds (w_s w)) w w' 0 R) as [E G].
    destruct (setup_feeds w _ _ _ _) as [w1 x], (setup_feeds w' _ _ _ _) as [w1' x']. cbn [fst snd] in *. subst x'.
    destruct x; try (apply sims_ret; exact G). eapply sims_step; [exact G|]. apply finish_sims. exact (grown_related _ _ _ _ _ G).
  - destruct (negb _); [|apply finish_sims; exact R].
    assert (G1 : grown o w w' (upd_s w (fun s => set_feedidx s (i64 (s_feedidx s + 1)))) (upd_s w' (fun s => set_feedidx s (i64 (s_feedidx s + 1))))) by upd_tac.
    eapply sims_step; [exact G1|]. apply finish_sims. exact (grown_related _ _ _ _ _ G1).
Qed.

Lemma react_sims o w w' req req' r : related o w w' -> q_verb req' = q_verb req -> sims o w w' (react w req r) (react w' req' r).
Proof.
  intros R V. unfold react. rewrite V. destruct (related_eq o w w' R) as (_ & -> & _ & -> & _).
  destruct (beq (q_verb req) (bs "OPTIONS")).
  { destruct (s_stage (w_s w) =? StageInit); [|apply sims_ret, grown_refl; exact R].
    assert (G1 : grown o w w' (upd_s w (fun s => set_verbs s (s_verbs s ++ split_commasp [] (header_get (p_header r) (bs "Public"))))) (upd_s w' (fun s => set_verbs s (s_verbs s ++ split_commasp [] (header_get (p_header r) (bs "Public")))))) by upd_tac.
    eapply sims_step; [exact G1|]. apply named_sims. exact (grown_related _ _ _ _ _ G1). }
  destruct (beq (q_verb req) (bs "DESCRIBE")).
  { destruct (p_body r) as [body|]; [|apply sims_ret, grown_refl; exact R].
    destruct (parse_feeds (s_proto (w_s w)) body) as [fs| | |]; try (apply sims_ret, grown_refl; exact R).
    assert (G1 : grown o w w' (upd_s w (fun s => set_feeds s fs)) (upd_s w' (fun s => set_feeds s fs))) by upd_tac.
    eapply sims_step; [exact G1|]. apply setup_sims. exact (grown_related _ _ _ _ _ G1). }
  destruct (beq (q_verb req) (bs "PAUSE")); [destruct (p_code r =? 200); apply sims_ret; [apply notify_grown|apply grown_refl]; exact R|].
  destruct (beq (q_verb req) (bs "PLAY")); [destruct (p_code r =? 200); apply sims_ret; [apply notify_grown|apply grown_refl]; exact R|].
  destruct (beq (q_verb req) (bs "TEARDOWN")); [destruct (p_code r =? 200); apply sims_ret; [apply notify_grown|apply grown_refl]; exact R|].
  destruct (beq (q_verb req) (bs "SETUP")); [apply handle_setup_sims; exact R|apply sims_ret, grown_refl; exact R].
Qed.

Lemma learn_cloak r s u au q : learn_session (cloak s u au q) r = cloak (learn_session s r) u au q.
Proof. unfold learn_session. destruct (beq _ []); reflexivity. Qed.
Lemma learn_frame r s : s_user (learn_session s r) = s_user s /\ s_auth (learn_session s r) = s_auth s /\ s_queue (learn_session s r) = s_queue s.
Proof. unfold learn_session. destruct (beq _ []); repeat split; reflexivity. Qed.

(* the request is taken from the queue *)
Lemma dequeue_grown o w w' k : related o w w' ->
  grown o w w' (upd_s w (fun s => set_queue s (qdel (s_queue s) k))) (upd_s w' (fun s => set_queue s (qdel (s_queue s) k))).
Proof.
  intros ((P1 & P2) & u & au & q & rnd & log & -> & S & Q). unfold grown. splits; try reflexivity.
  - split; [split; assumption|]. exists u, au, (qdel q k), rnd, log. splits; [reflexivity|exact S|apply same_del; exact Q].
  - exists []. cbn. rewrite !app_nil_r. split; reflexivity.
Qed.
Lemma dequeue_same o w w' k : related o w w' -> match qget (s_queue (w_s w)) k, qget (s_queue (w_s w')) k with
  | Some r, Some r' => strip r = strip r' | None, None => True | _, _ => False end.
Proof. intros (_ & u & au & q & rnd & log & -> & S & Q). apply same_get. exact Q. Qed.

(* a 401 ends the session without credentials *)
Lemma retry_plain w req r : s_user (w_s w) = None -> exists e, snd (retry w req r) = Err e /\ is_timeout e = false.
Proof.
  intros U. unfold retry, authorize. rewrite U.
  destruct (new_digest_total (s_uri (w_s w)) (header_get (p_header r) (bs "WWW-Authenticate"))) as [(d & ->)|[->| ->]]; eexists; split; reflexivity.
Qed.
Definition going (x : res unit) : Prop := match x with Ok _ => True | Err e => is_timeout e = true | _ => False end.
Lemma handle_sims o w w' r : related o w w' -> going (snd (handle_response w r)) -> sims o w w' (handle_response w r) (handle_response w' r).
Proof.
  intros R. unfold handle_response. pose proof (grown_note o w w' (Got r) R ltac:(reflexivity)) as G1. pose proof (grown_related _ _ _ _ _ G1) as R1.
  set (w1 := note w (Got r)) in *. set (w1' := note w' (Got r)) in *. clearbody w1 w1'.
  pose proof (dequeue_same o w1 w1' (p_cseq r) R1) as D.
  destruct (qget (s_queue (w_s w1)) (p_cseq r)) as [req|], (qget (s_queue (w_s w1')) (p_cseq r)) as [req'|]; try contradiction; [|intros _; apply sims_ret; exact G1].
  pose proof (dequeue_grown o w1 w1' (p_cseq r) R1) as G2. pose proof (grown_related _ _ _ _ _ G2) as R2.
  set (w2 := upd_s w1 _) in *. set (w2' := upd_s w1' _) in *. clearbody w2 w2'.
  destruct (p_code r =? 401).
  { intros X. destruct R2 as ((P & _) & _). destruct (retry_plain w2 req r P) as (e & Ee & Te). rewrite Ee in X. cbn in X. congruence. }
  intros _. assert (G3 : grown o w2 w2' (upd_s w2 (fun s => learn_session s r)) (upd_s w2' (fun s => learn_session s r))) by (apply grown_upd; [exact R2|intros; apply learn_cloak|intros; apply learn_frame]).
  eapply sims_step; [exact G1|]. eapply sims_step; [exact G2|]. eapply sims_step; [exact G3|]. apply react_sims; [exact (grown_related _ _ _ _ _ G3)|].
  unfold strip in D. congruence.
Qed.

Lemma receive_sims o w w' : related o w w' -> going (snd (receive w)) -> sims o w w' (receive w) (receive w').
Proof.
  intros R. unfold receive. destruct (related_eq o w w' R) as (_ & _ & _ & _ & _ & _ & _ & _ & _ & -> & _).
  destruct (M_conn.peek 1 (w_in w)) as [s0 x].
  assert (U : forall s, going (snd (match M_message.unpack_response s with (s1, Ok r) => handle_response (upd_in w s1) r | (s1, Err e) => (upd_in w s1, Err e) | (s1, Panic) => (upd_in w s1, Panic) | (s1, Fuel) => (upd_in w s1, Fuel) end)) ->
    sims o w w' (match M_message.unpack_response s with (s1, Ok r) => handle_response (upd_in w s1) r | (s1, Err e) => (upd_in w s1, Err e) | (s1, Panic) => (upd_in w s1, Panic) | (s1, Fuel) => (upd_in w s1, Fuel) end)
     (match M_message.unpack_response s with (s1, Ok r) => handle_response (upd_in w' s1) r | (s1, Err e) => (upd_in w' s1, Err e) | (s1, Panic) => (upd_in w' s1, Panic) | (s1, Fuel) => (upd_in w' s1, Fuel) end)).
  { intros s. destruct (M_message.unpack_response s) as [s1 [r|e| |]]; intros X; try (apply sims_ret; apply grown_in; exact R).
    pose proof (grown_in o w w' s1 R) as G. eapply sims_step; [exact G|]. apply handle_sims; [exact (grown_related _ _ _ _ _ G)|exact X]. }
  destruct x as [b|e| |]; try (intros _; apply sims_ret; apply grown_in; exact R).
  destruct b as [|c b]; [apply U|]. destruct (Z.eq_dec c 36) as [->|N].
  - destruct b as [|c' b]; [|apply U]. intros _. destruct (M_conn.read_byte _) as [s1 [ch|e| |]]; try (apply sims_ret; apply grown_in; exact R).
    destruct (M_conn.read_uint16 s1) as [s2 [len|e| |]]; try (apply sims_ret; apply grown_in; exact R).
    destruct (M_conn.read_bytes len s2) as [s3 [p|e| |]]; try (apply sims_ret; apply grown_in; exact R).
    apply sims_ret. pose proof (grown_in o w w' s3 R) as G. eapply grown_trans; [exact G|]. apply grown_note; [exact (grown_related _ _ _ _ _ G)|reflexivity].
  - destruct b as [|c' b]; (destruct c as [|p|p]; [apply U| |apply U]); repeat (destruct p as [p|p|]; try apply U); contradiction.
Qed.

(* ---- turns and runs ---- *)
Definition sims_t (o : bytes -> bytes) (w w' : world) (r r' : world * turn_end) : Prop := snd r' = snd r /\ grown o w w' (fst r) (fst r').
Lemma turn_sims o w w' t1 t2 : related o w w' -> snd (turn w t1 t2) = Again -> sims_t o w w' (turn w t1 t2) (turn w' t1 t2).
Proof.
  intros R. unfold turn. pose proof (keepalive_sims o w w' t1 t2 R) as [E G].
  destruct (keepalive w t1 t2) as [w1 x], (keepalive w' t1 t2) as [w1' x']. cbn [fst snd] in *. subst x'. pose proof (grown_related _ _ _ _ _ G) as R1.
  assert (V : forall X, X = match receive w1 with (w, Ok _) => (w, Again) | (w, Err e) => (w, if is_timeout e then Again else Stop) | (w, Panic) | (w, Fuel) => (w, Crash) end -> snd X = Again ->
    sims_t o w w' X (match receive w1' with (w, Ok _) => (w, Again) | (w, Err e) => (w, if is_timeout e then Again else Stop) | (w, Panic) | (w, Fuel) => (w, Crash) end)).
  { intros X -> A. pose proof (receive_sims o w1 w1' R1) as Rs. destruct (receive w1) as [w2 x2].
    assert (Go : going x2) by (destruct x2 as [|e| |]; cbn in *; try discriminate; [exact I|destruct (is_timeout e); [reflexivity|discriminate]]).
    destruct (Rs Go) as [E2 G2]. destruct (receive w1') as [w2' x2']. cbn [fst snd] in *. subst x2'. pose proof (grown_trans _ _ _ _ _ _ _ G G2) as G3.
    destruct x2 as [|e| |]; cbn in *; try discriminate; split; try reflexivity; exact G3. }
  destruct x as [[]|e| |]; try discriminate; [apply V; reflexivity|].
  destruct (related_eq o w1 w1' R1) as (_ & _ & _ & -> & _). destruct (s_stage (w_s w1) =? StageDone); [discriminate|apply V; reflexivity].
Qed.

Lemma not_live es : forall w l, l <> Live -> snd (run (w, l) es) <> Live.
Proof.
  induction es as [|e es IH]; intros w l N; cbn [run fold_left]; [exact N|]. destruct (step (w, l) e) as [w1 l1] eqn:E.
  fold (run (w1, l1) es). apply IH. intros ->. destruct l; [contradiction| |]; destruct e as [c|t1 t2]; cbn in E; try (injection E as _ E; discriminate).
  destruct (do_cmd w c) as [w2 [[]|e| |]]; injection E as _ E; discriminate.
Qed.
Lemma run_sims o es : forall w w' w1, related o w w' -> run (w, Live) es = (w1, Live) -> exists w1', run (w', Live) es = (w1', Live) /\ grown o w w' w1 w1'.
Proof.
  induction es as [|e es IH]; intros w w' w1 R E; cbn [run fold_left] in *.
  - injection E as <-. exists w'. split; [reflexivity|apply grown_refl; exact R].
  - destruct e as [c|t1 t2]; cbn [step] in *.
    + pose proof (do_cmd_sims o w w' c R) as [Ex G]. destruct (do_cmd w c) as [w2 x], (do_cmd w' c) as [w2' x']. cbn [fst snd] in *. subst x'.
      destruct x as [[]|er| |]; try (pose proof (not_live es w2 Dead ltac:(discriminate)) as X; unfold run in X; rewrite E in X; contradiction X; reflexivity).
      * destruct (IH w2 w2' w1 (grown_related _ _ _ _ _ G) E) as (w1' & E' & G'). exists w1'. split; [exact E'|eapply grown_trans; eassumption].
      * destruct (IH w2 w2' w1 (grown_related _ _ _ _ _ G) E) as (w1' & E' & G'). exists w1'. split; [exact E'|eapply grown_trans; eassumption].
    + pose proof (turn_sims o w w' t1 t2 R) as T. destruct (turn w t1 t2) as [w2 x]. destruct x.
      * destruct (T eq_refl) as [Ex G]. destruct (turn w' t1 t2) as [w2' x']. cbn [fst snd] in *. subst x'.
        destruct (IH w2 w2' w1 (grown_related _ _ _ _ _ G) E) as (w1' & E' & G'). exists w1'. split; [exact E'|eapply grown_trans; eassumption].
      * pose proof (not_live es w2 NoLoop ltac:(discriminate)) as X. unfold run in X. rewrite E in X. contradiction X. reflexivity.
      * pose proof (not_live es w2 Dead ltac:(discriminate)) as X. unfold run in X. rewrite E in X. contradiction X. reflexivity.
Qed.

(* ---- the answer to a challenge ---- *)
Lemma rfc_calls_same c uri user pass n cn vs :
  rfc_calls c uri user pass n cn (map (fun v => Call v []) vs) = map (fun v => rfc_header c uri user pass (hexfix 8 n) cn v []) vs.
Proof. induction vs as [|v vs IH]; [reflexivity|]. cbn [map rfc_calls]. rewrite IH. reflexivity. Qed.
Lemma no_renewals vs : renewals (map (fun v => Call v []) vs) = 0.
Proof. induction vs as [|v vs IH]; [reflexivity|exact IH]. Qed.
Lemma answers_steady uri ch user pass rnd c : trim_space ch = scheme (ch_basic c) ++ items_text (ch_attrs c) -> challenge_ok c ->
  exists d d' text, new_digest uri ch = Ok d /\ authenticate d user pass rnd = (d', text) /\ steady (Some (text, d')) (credentials uri user pass rnd c).
Proof.
  intros T (N & F & A). unfold attr in A.
  destruct (challenge_parsed (ch_basic c) uri ch (ch_attrs c) T N F) as (d & E & B & U & F1 & _ & F2 & F3 & _ & F4 & F5).
  { right. rewrite A. left. reflexivity. }
  destruct (authenticate d user pass rnd) as [d' text] eqn:Au. exists d, d', text. splits; [exact E|exact Au|].
  intros vs. unfold credentials. destruct (ch_basic c).
  - unfold authenticate in Au. rewrite B in Au. injection Au as <- <-. rewrite calls_basic by exact B. rewrite colonnade_colons. induction vs as [|v vs IH]; [reflexivity|]. cbn [map flat_map app]. rewrite IH. reflexivity.
  - pose proof (session_plain uri ch d user pass rnd (map (fun v => Call v []) vs) E B) as S. unfold session_calls in S. rewrite Au in S.
    rewrite S; [|rewrite F4, A; discriminate|rewrite no_renewals; reflexivity]. rewrite rfc_calls_same. unfold chal_of, attr. rewrite F1, F2, F3, F4, F5, A. reflexivity.
Qed.

Definition single (w : world) (n : Z) (req : request) : Prop :=
  s_queue (w_s w) = [(n, req)] /\ s_cseq (w_s w) = n /\ q_cseq req = n /\ q_session req = s_session (w_s w) /\ w_writes w = [] /\
  s_conn (w_s w) = true /\ s_proto (w_s w) = ProtoTCP.

Definition alone (w : world) (n : Z) (req : request) : Prop :=
  s_queue (w_s w) = [(n, req)] /\ s_cseq (w_s w) = n /\ w_writes w = [] /\ s_conn (w_s w) = true /\ s_proto (w_s w) = ProtoTCP.
(* the request comes again with the session of now and the latest number *)
Lemma challenge_answered o w w' n req c i rest t1 t2 user pass : related o w w' -> alone w n req -> s_user (w_s w') = Some (user, pass) ->
  0 <= n < 2 ^ 63 -> asks n c i -> item_ok i -> w_in w = item_stream i ++ rest ->
  let o2 := credentials (s_uri (w_s w)) user pass (hd [] (w_rand w')) c in
  exists w1' r, turn w' t1 t2 = (w1', Again) /\ related o2 (upd_in w rest) w1' /\ w_log w1' = w_log w' ++ [Got r; Sent true (mkReq (q_verb req) n (q_uri req) (o2 (q_verb req)) (s_session (w_s w)) (q_header req))] /\
    s_user (w_s w1') = Some (user, pass) /\ w_rand w1' = tl (w_rand w').
Proof.
  intros R (Sq & Sc & Sw & C & P) U B A K E o2. pose proof R as (Pl & u & au & q & rnd & log & -> & S & Q). cbn in U. subst u.
  destruct (any_turn (cloaked w (Some (user, pass)) au q rnd log) i rest C P K ltac:(destruct i; [destruct A|intros []|destruct A]) E) as (r & T & H).
  destruct i as [ch p|code reason fs body|]; [destruct A| |destruct A]. destruct A as (-> & A1 & A2 & A3). destruct T as (T1 & _ & T2 & T3).
  specialize (T3 n B A1). rewrite <- T2 in A2 by (vm_compute; repeat constructor; congruence).
  destruct (answers_steady (s_uri (w_s w)) _ user pass (hd [] rnd) c A2 A3) as (d & d' & text & D1 & D2 & D3). change (credentials (s_uri (w_s w)) user pass (hd [] rnd) c) with o2 in D3.
  rewrite Sq in Q. destruct q as [|[k rq] [|x q]]; try discriminate. injection Q as <- Q1 Q2 Q3.
  destruct (steady_call (w_s w) (Some (user, pass)) (Some (text, d')) [] o2 (q_verb req) D3) as (au' & D4 & D5).
  set (req' := mkReq (q_verb req) n (q_uri req) (o2 (q_verb req)) (s_session (w_s w)) (q_header req)).
  assert (HR : handle_response (upd_in (cloaked w (Some (user, pass)) au [(n, rq)] rnd log) rest) r =
    (cloaked (upd_in w rest) (Some (user, pass)) au' [(n, req')] (tl rnd) (log ++ [Got r; Sent true req']), Ok tt)).
  { unfold handle_response. change (qget (s_queue (w_s (note (upd_in (cloaked w (Some (user, pass)) au [(n, rq)] rnd log) rest) (Got r)))) (p_cseq r)) with (if n =? p_cseq r then Some rq else None).
    rewrite T3, Z.eqb_refl, T1. change (401 =? 401) with true. cbv iota zeta.
    replace (upd_s (note (upd_in (cloaked w (Some (user, pass)) au [(n, rq)] rnd log) rest) (Got r)) (fun s => set_queue s (qdel (s_queue s) n)))
      with (mkW (cloak (w_s w) (Some (user, pass)) au []) rest (w_writes w) (w_listens w) rnd (log ++ [Got r]))
      by (unfold upd_s, set_queue; cbn [note upd_in cloaked w_s cloak s_queue qdel filter fst]; rewrite Z.eqb_refl; reflexivity).
    unfold retry, authorize. cbn [w_s w_rand]. change (s_uri (cloak (w_s w) (Some (user, pass)) au [])) with (s_uri (w_s w)). change (s_user (cloak (w_s w) (Some (user, pass)) au [])) with (Some (user, pass)).
    rewrite D1, D2. cbn [w_s w_in w_writes w_listens w_rand w_log]. change (set_auth (cloak (w_s w) (Some (user, pass)) au []) (Some (text, d'))) with (cloak (w_s w) (Some (user, pass)) (Some (text, d')) []).
    rewrite <- Q1, D5. unfold enqueue, write, upd_s. cbn [cloak s_cseq s_session s_queue set_queue q_verb q_uri q_header q_auth w_s s_proto w_writes w_in w_listens w_rand w_log].
    rewrite P, Sw. change (ProtoTCP =? ProtoHTTP) with false. cbv iota. unfold cloaked, upd_in, cloak. cbn [w_s w_in w_writes w_listens w_rand w_log qset qdel filter tl s_conn s_proto s_user s_uri s_sinks s_stage s_auth s_queue s_session s_feeds s_feedidx s_verbs s_last s_cseq set_queue].
    rewrite <- app_assoc. cbn [app]. replace (mkReq (q_verb req) (s_cseq (w_s w)) (q_uri rq) (o2 (q_verb req)) (s_session (w_s w)) (q_header rq)) with req' by (unfold req'; congruence).
    rewrite Sc, P, Sw. reflexivity. }
  exists (cloaked (upd_in w rest) (Some (user, pass)) au' [(n, req')] (tl rnd) (log ++ [Got r; Sent true req'])), r. splits.
  - apply H. exact HR.
  - split; [exact Pl|]. exists (Some (user, pass)), au', [(n, req')], (tl rnd), (log ++ [Got r; Sent true req']). splits; [reflexivity|exact D4|]. cbn. rewrite Sq. reflexivity.
  - reflexivity.
  - reflexivity.
  - reflexivity.
Qed.

Lemma challenge_turn o w w' n req c i rest t1 t2 user pass : related o w w' -> single w n req -> s_user (w_s w') = Some (user, pass) ->
  0 <= n < 2 ^ 63 -> asks n c i -> item_ok i -> w_in w = item_stream i ++ rest ->
  let o2 := credentials (s_uri (w_s w)) user pass (hd [] (w_rand w')) c in
  exists w1' r, turn w' t1 t2 = (w1', Again) /\ related o2 (upd_in w rest) w1' /\ w_log w1' = w_log w' ++ [Got r; Sent true (dress o2 req)] /\
    s_user (w_s w1') = Some (user, pass) /\ w_rand w1' = tl (w_rand w').
Proof.
  intros R (Sq & Sc & Sn & Ss & Sw & C & P) U B A K E o2.
  destruct (challenge_answered o w w' n req c i rest t1 t2 user pass R ltac:(unfold alone; auto) U B A K E) as (w1' & r & T). exists w1', r.
  replace (dress o2 req) with (mkReq (q_verb req) n (q_uri req) (o2 (q_verb req)) (s_session (w_s w)) (q_header req)) by (unfold dress; congruence). exact T.
Qed.

Lemma upd_in_twice w a b : upd_in (upd_in w a) b = upd_in w b.
Proof. reflexivity. Qed.
Lemma challenged_run n req user pass l items : with_noise l items -> forall cs o w w' clocks rest, related o w w' -> single w n req -> s_user (w_s w') = Some (user, pass) ->
  0 <= n < 2 ^ 63 -> Forall2 (asks n) cs l -> Forall item_ok items -> length clocks = length items -> w_in w = flat_map item_stream items ++ rest ->
  let p := mkPurse o (w_rand w') in
  let p' := learns (s_uri (w_s w)) user pass p cs in
  exists w1' new, run (w', Live) (turns_at clocks) = (w1', Live) /\ related (pu_now p') (upd_in w rest) w1' /\ w_log w1' = w_log w' ++ new /\
    dress o req :: sent_requests new = tellings (s_uri (w_s w)) user pass p cs req /\ stages new = [] /\ packets new = frames items /\
    s_user (w_s w1') = Some (user, pass) /\ w_rand w1' = pu_rand p'.
Proof.
  induction 1 as [|i s t Ni W IH|i s t W IH]; intros cs o w w' clocks rest R S U B A K L E p p'; destruct clocks as [|[t1 t2] clocks]; cbn [length] in L; try discriminate.
  - inversion A; subst. exists w', []. cbn [turns_at map run fold_left]. splits; try reflexivity; [|rewrite app_nil_r; reflexivity|exact U].
    cbn [flat_map app] in E. rewrite <- E. destruct w. exact R.
  - apply Forall_cons_iff in K as [Ki K]. cbn [flat_map] in E. rewrite <- app_assoc in E.
    destruct (related_eq o w w' R) as (C1 & C2 & _ & _ & _ & _ & _ & _ & _ & C3 & _). pose proof S as (_ & _ & _ & _ & _ & S6 & S7).
    cbn [turns_at map run fold_left step fst snd]. rewrite (noise_turn w' t1 t2 i (flat_map item_stream t ++ rest)) by congruence.
    set (w2' := mkW _ _ _ _ _ _). assert (R2 : related o (upd_in w (flat_map item_stream t ++ rest)) w2').
    { destruct R as (Pl & u & au & q & rnd & log & -> & St & Q). split; [exact Pl|]. exists u, au, q, rnd, (log ++ noise_log i). splits; [reflexivity|exact St|exact Q]. }
    destruct (IH cs o (upd_in w (flat_map item_stream t ++ rest)) w2' clocks rest R2 S U B A K ltac:(lia) eq_refl) as (w1' & new & Rn & A1 & A2 & A3 & A4 & A5 & A6 & A7).
    exists w1', (noise_log i ++ new). unfold run, turns_at in Rn. rewrite Rn. splits; try assumption; try reflexivity.
    + rewrite A2. cbn [w2' w_log]. rewrite app_assoc. reflexivity.
    + rewrite sent_requests_app. replace (sent_requests (noise_log i)) with (@nil request) by (destruct i; reflexivity). exact A3.
    + rewrite stages_app, A4. destruct i; reflexivity.
    + rewrite packets_app, A5. destruct i; [reflexivity|destruct Ni|reflexivity].
  - apply Forall_cons_iff in K as [Ki K]. cbn [flat_map] in E. rewrite <- app_assoc in E. inversion A as [|c i' cs' s' Ac Acs]; subst.
    destruct (challenge_turn o w w' n req c i (flat_map item_stream t ++ rest) t1 t2 user pass R S U B Ac Ki E) as (w2' & r & T & R2 & L2 & U2 & N2).
    set (o2 := credentials (s_uri (w_s w)) user pass (hd [] (w_rand w')) c) in *.
    destruct (IH cs' o2 (upd_in w (flat_map item_stream t ++ rest)) w2' clocks rest R2 S U2 B Acs K ltac:(lia) eq_refl) as (w1' & new & Rn & A1 & A2 & A3 & A4 & A5 & A6 & A7).
    exists w1', ([Got r; Sent true (dress o2 req)] ++ new). cbn [turns_at map run fold_left step fst snd]. rewrite T. unfold run, turns_at in Rn. rewrite Rn. rewrite N2 in A1, A3, A7.
    splits; try assumption; try reflexivity.
    + rewrite A2, L2, app_assoc. reflexivity.
    + cbn [tellings]. f_equal. exact A3.
    + rewrite packets_app, A5. cbn [frames flat_map]. destruct i; [destruct Ac|reflexivity|destruct Ac].
Qed.

(* ---- what a dressed log shows ---- *)
Lemma sent_dress o l : sent_requests (map (dress_eff o) l) = map (dress o) (sent_requests l).
Proof. induction l as [|e l IH]; [reflexivity|]. destruct e; cbn [map dress_eff sent_requests flat_map app]; fold (sent_requests (map (dress_eff o) l)); fold (sent_requests l); rewrite IH; reflexivity. Qed.
Lemma stages_dress o l : stages (map (dress_eff o) l) = stages l.
Proof. induction l as [|e l IH]; [reflexivity|]. destruct e; cbn [map dress_eff stages flat_map app]; fold (stages (map (dress_eff o) l)); fold (stages l); rewrite IH; reflexivity. Qed.
Lemma packets_dress o l : packets (map (dress_eff o) l) = packets l.
Proof. induction l as [|e l IH]; [reflexivity|]. destruct e; cbn [map dress_eff packets flat_map app]; fold (packets (map (dress_eff o) l)); fold (packets l); rewrite IH; reflexivity. Qed.

(* a run of the plain session, made by the dressed one *)
Lemma phase o es w w' w1 new : related o w w' -> run (w, Live) es = (w1, Live) -> w_log w1 = w_log w ++ new ->
  exists w1' new', run (w', Live) es = (w1', Live) /\ related o w1 w1' /\ w_log w1' = w_log w' ++ new' /\
    sent_requests new' = map (dress o) (sent_requests new) /\ stages new' = stages new /\ packets new' = packets new /\
    s_user (w_s w1') = s_user (w_s w') /\ w_rand w1' = w_rand w'.
Proof.
  intros R E L. destruct (run_sims o es w w' w1 R E) as (w1' & E' & R1 & (n & N1 & N2) & U & V). rewrite L in N1. apply app_inv_head in N1. subst n.
  exists w1', (map (dress_eff o) new). splits; try assumption; [apply sent_dress|apply stages_dress|apply packets_dress].
Qed.
Lemma related_log o w w' log : related o w w' -> related o (mkW (w_s w) (w_in w) (w_writes w) (w_listens w) (w_rand w) log) w'.
Proof. intros (P & u & au & q & rnd & l & -> & S & Q). split; [exact P|]. exists u, au, q, rnd, l. splits; [reflexivity|exact S|exact Q]. Qed.

(* ---- rounds ---- *)
Lemma q_empty (q : list (Z * request)) : (forall k, qget q k = None) -> q = [].
Proof. destruct q as [|[k r] q]; [reflexivity|]. intros H. specialize (H k). cbn in H. rewrite Z.eqb_refl in H. discriminate. Qed.

Lemma around_run o uri sinks stage id fs idx verbs c rest log w' a user pass :
  related o (wor [] (ses None uri sinks stage [] id fs idx verbs c) (flat_map item_stream (around_items a) ++ rest) log) w' -> s_user (w_s w') = Some (user, pass) ->
  0 <= c < 2 ^ 63 - 1 -> arounds_ok (c + 1) [a] ->
  let p := mkPurse o (w_rand w') in
  let p' := learns uri user pass p (ar_chals a) in
  exists w1' new log', run (w', Live) (around_events a) = (w1', Live) /\
    related (pu_now p') (wor [] (ses None uri sinks (order_stage (r_order (ar_round a))) [] (next_id id (r_answer (ar_round a))) fs idx verbs (c + 1)) rest log') w1' /\
    w_log w1' = w_log w' ++ new /\ sent_requests new = tellings uri user pass p (ar_chals a) (mkReq (order_verb (r_order (ar_round a))) (c + 1) uri [] id []) /\
    stages new = [order_stage (r_order (ar_round a))] /\ packets new = frames (around_items a) /\ s_user (w_s w1') = Some (user, pass) /\ w_rand w1' = pu_rand p'.
Proof.
  destruct a as [cs asked ca [od an its cr]].
  intros R U B ((l & A1 & A2) & A3 & A4 & (G & W & K & L & _) & _) p p'. unfold around_items, around_events in *. cbn [ar_chals ar_asked ar_clocks ar_round r_order r_answer r_items r_clocks] in *.
  rewrite flat_map_app, <- app_assoc in R. cbn [r_answer r_items r_clocks] in *.
  change (App (order_cmd od) :: turns_at ca ++ turns_at cr) with ([App (order_cmd od)] ++ turns_at ca ++ turns_at cr). rewrite !run_app.
  set (rq := mkReq (order_verb od) (c + 1) uri [] id []).
  destruct (phase o [App (order_cmd od)] _ w' _ _ R (order_sent None uri [] sinks stage [] id fs idx verbs c _ log od B) eq_refl) as (w1 & n1 & -> & R1 & L1 & S1 & St1 & P1 & U1 & V1).
  rewrite U in U1. change (order_request od (c + 1) uri id) with rq in *.
  destruct (challenged_run (c + 1) rq user pass l asked A2 cs o _ w1 ca (flat_map item_stream its ++ rest) R1) as (w2 & n2 & -> & R2 & L2 & S2 & St2 & P2 & U2 & V2); try assumption; try reflexivity.
  { unfold single. splits; reflexivity. }
  { lia. }
  cbn [wor ses w_s s_uri] in R2, S2, V2. rewrite V1 in R2, S2, V2. fold p in R2, S2, V2. fold p' in R2, V2.
  destruct (order_answered None uri [] sinks stage [] id fs idx verbs c rest (log ++ [Sent false rq]) od an its cr ltac:(reflexivity) B G W K L) as (q' & n3 & E3 & Q3 & B1 & B2 & B3).
  apply q_empty in Q3. subst q'.
  destruct (phase (pu_now p') (turns_at cr) _ w2 _ n3 R2 E3 eq_refl) as (w3 & n3' & -> & R3 & L3 & S3 & St3 & P3 & U3 & V3).
  exists w3, (n1 ++ n2 ++ n3'). eexists. splits; [reflexivity|exact R3| | | | |congruence|congruence].
  - rewrite L3, L2, L1, <- !app_assoc. reflexivity.
  - rewrite !sent_requests_app, S1, S3, B1. cbn [map app sent_requests flat_map]. rewrite app_nil_r. exact S2.
  - rewrite !stages_app, St1, St2, St3, B2. reflexivity.
  - rewrite !packets_app, P1, P2, P3, B3, frames_app. reflexivity.
Qed.

Lemma arounds_run uri sinks fs idx verbs rest user pass l : forall o stage id c log w',
  related o (wor [] (ses None uri sinks stage [] id fs idx verbs c) (flat_map item_stream (flat_map around_items l) ++ rest) log) w' -> s_user (w_s w') = Some (user, pass) ->
  0 <= c -> c + zlen l < 2 ^ 63 -> arounds_ok (c + 1) l ->
  exists w1' new, run (w', Live) (flat_map around_events l) = (w1', Live) /\ w_in w1' = rest /\ s_feeds (w_s w1') = fs /\
    w_log w1' = w_log w' ++ new /\ sent_requests new = around_requests uri user pass id (mkPurse o (w_rand w')) (c + 1) l /\
    stages new = map (fun a => order_stage (r_order (ar_round a))) l /\ packets new = frames (flat_map around_items l).
Proof.
  induction l as [|a l IH]; intros o stage id c log w' R U C B K.
  { exists w', []. cbn [flat_map run fold_left]. destruct (related_eq o _ _ R) as (_ & _ & _ & _ & _ & F & _ & _ & _ & I & _). splits; try reflexivity; [exact I|exact F|rewrite app_nil_r; reflexivity]. }
  rewrite zlen_cons in B. pose proof (zlen_nonneg l) as Pl. cbn [flat_map] in *. rewrite flat_map_app, <- app_assoc in R. rewrite run_app. cbn [arounds_ok] in K. destruct K as (K1 & K2 & K3 & K4 & K5).
  destruct (around_run o uri sinks stage id fs idx verbs c _ log w' a user pass R U ltac:(lia)) as (w1 & n1 & log1 & -> & R1 & L1 & S1 & St1 & P1 & U1 & V1).
  { cbn [arounds_ok]. splits; try assumption. exact I. }
  destruct (IH _ _ _ _ _ w1 R1 U1 ltac:(lia) ltac:(lia) K5) as (w2 & n2 & E & I2 & F2 & L2 & S2 & St2 & P2).
  exists w2, (n1 ++ n2). splits; try assumption.
  - rewrite L2, L1, app_assoc. reflexivity.
  - rewrite sent_requests_app, S1, S2, V1. cbn [around_requests]. do 2 f_equal.
    destruct (learns uri user pass {| pu_now := o; pu_rand := w_rand w' |} (ar_chals a)). reflexivity.
  - rewrite stages_app, St1, St2. reflexivity.
  - rewrite packets_app, P1, P2, frames_app. reflexivity.
Qed.

(* ---- the opening, of the plain session ---- *)
Lemma split_list {A B} (a b : list A) (c : list B) : length c = length (a ++ b) -> exists c1 c2, c = c1 ++ c2 /\ length c1 = length a /\ length c2 = length b.
Proof.
  intros L. rewrite app_length in L. exists (firstn (length a) c), (skipn (length a) c). splits; [symmetry; apply firstn_skipn|rewrite firstn_length; lia|rewrite skipn_length; lia].
Qed.
Lemma options_items uri ropt items clocks rest log : grants 1 ropt -> with_noise [ropt] items -> Forall item_ok items -> length clocks = length items ->
  exists verbs new, run (wor [] (ses None uri [] 0 [(1, options_request uri)] [] [] 0 [] 1) (flat_map item_stream items ++ rest) log, Live) (turns_at clocks) =
    (wor [] (ses None uri [] 0 [(2, describe_request uri (next_id [] ropt))] (next_id [] ropt) [] 0 verbs 2) rest (log ++ new), Live) /\
    sent_requests new = [describe_request uri (next_id [] ropt)] /\ stages new = [] /\ packets new = frames items.
Proof.
  intros G W K L. destruct (noise_next _ _ _ W) as (pre & post & -> & Np & W1). destruct (split_clocks pre ropt post clocks L) as (c1 & cc & d & -> & L1 & L2).
  apply Forall_app in K as [K1 K]. apply Forall_cons_iff in K as [Ko K].
  rewrite turns_at_app, run_app, flat_map_app. cbn [flat_map]. rewrite <- !(app_assoc (A := option Z)).
  destruct (options_phase None uri [] ropt pre c1 cc (flat_map item_stream post ++ rest) log G Np
    ltac:(apply Forall_app; split; [exact K1|constructor; [exact Ko|constructor]]) L1) as (verbs & n1 & E & A1 & A2 & A3).
  change (qset [] 1 (options_request uri)) with [(1, options_request uri)] in E. rewrite E.
  edestruct (noise_run post) as (n2 & E2 & B1 & B2 & B3); [| |exact (noise_end _ W1)|exact K|exact L2| |rewrite E2]; [reflexivity|reflexivity|reflexivity|].
  exists verbs, (n1 ++ n2). splits.
  - unfold wor. cbn [w_s w_writes w_listens w_rand w_log]. rewrite <- app_assoc. reflexivity.
  - rewrite sent_requests_app, A1, B1. reflexivity.
  - rewrite stages_app, A2, B2. reflexivity.
  - rewrite packets_app, A3, B3, frames_app. destruct ropt; [destruct G| |destruct G]. reflexivity.
Qed.
Lemma described_items uri ms rdesc rsets items clocks rest id verbs log : grants 2 rdesc -> body_of_item rdesc <> [] -> sdp_parse (body_of_item rdesc) = Ok ms ->
  ms <> [] -> Forall sets_ok ms -> (exists ns, Permutation ns (map (fun i => 3 + Z.of_nat i) (seq 0 (length ms))) /\ Forall2 grants ns rsets) -> Forall names_transport rsets ->
  with_noise (rdesc :: rsets) items -> Forall item_ok items -> length clocks = length items ->
  exists sinks fs new, run (wor [] (ses None uri [] 0 [(2, describe_request uri id)] id [] 0 verbs 2) (flat_map item_stream items ++ rest) log, Live) (turns_at clocks) =
    (wor [] (ses None uri sinks 1 [] (fold_left next_id (rdesc :: rsets) id) fs (zlen ms) verbs (2 + zlen ms)) rest (log ++ new), Live) /\
    Forall configured fs /\ map fd_media fs = ms /\ zlen ms <= 2049 /\
    sent_requests new = setups uri (next_id id rdesc) 0 ms /\ stages new = [1] /\ packets new = frames items.
Proof.
  intros O2 O3 O4 O5 O6 O7 O8 W K L.
  destruct (described_from None uri [] ms rdesc rsets items clocks rest [(2, describe_request uri id)] id verbs log O2 O3 O4 eq_refl) as (q3 & n1 & pre2 & post2 & d2 & E & -> & W2 & K2 & L2 & BF & Qa & Qb & B1 & B2 & B3); try assumption.
  { intros k Hk. cbn [qget]. destruct (2 =? k) eqn:X; [lia|reflexivity]. }
  rewrite E. destruct (asked_run None uri [] ms rsets post2 d2 rest q3 (next_id id rdesc) verbs (log ++ n1) O5 O6 O7 O8 BF Qa Qb W2 K2 L2) as (sinks & q & fs & n2 & E2 & C1 & C2 & Q & D1 & D2 & D3).
  apply q_empty in Q. subst q. rewrite E2. exists sinks, fs, (n1 ++ n2). splits; try assumption.
  - rewrite <- app_assoc. reflexivity.
  - rewrite sent_requests_app, B1, D1, app_nil_r. reflexivity.
  - rewrite stages_app, B2, D2. reflexivity.
  - rewrite packets_app, B3, D3, frames_app. reflexivity.
Qed.

(* ---- the whole ---- *)
Lemma authorized_run user pass uri rnd ms ropt rdesc rsets cs1 asked1 items1 cs2 asked2 items2 clocks arounds rest : opening_ok ms ropt rdesc rsets ->
  challenged 1 cs1 asked1 -> with_noise [ropt] items1 -> challenged 2 cs2 asked2 -> with_noise (rdesc :: rsets) items2 ->
  let items := asked1 ++ items1 ++ asked2 ++ items2 in
  Forall item_ok items -> length clocks = length items -> arounds_ok (3 + zlen ms) arounds -> zlen arounds < 2 ^ 62 ->
  let id1 := next_id [] ropt in
  let p0 := mkPurse none rnd in
  let p1 := learns uri user pass p0 cs1 in
  let p2 := learns uri user pass p1 cs2 in
  exists w', run (mkW (dialled ProtoTCP (Some (user, pass)) uri) (flat_map item_stream (items ++ flat_map around_items arounds) ++ rest) [] [] rnd [], Live)
                 ((App COptions :: turns_at clocks) ++ flat_map around_events arounds) = (w', Live) /\
    w_in w' = rest /\
    sent_requests (w_log w') =
      tellings uri user pass p0 cs1 (options_request uri) ++
      tellings uri user pass p1 cs2 (describe_request uri id1) ++
      map (dress (pu_now p2)) (setups uri (next_id id1 rdesc) 0 ms) ++
      around_requests uri user pass (fold_left next_id (ropt :: rdesc :: rsets) []) p2 (3 + zlen ms) arounds /\
    stages (w_log w') = 1 :: map (fun a => order_stage (r_order (ar_round a))) arounds /\
    packets (w_log w') = frames (items ++ flat_map around_items arounds) /\
    map fd_media (s_feeds (w_s w')) = ms /\ Forall configured (s_feeds (w_s w')).
Proof.
  intros [O1 O2 O3 O4 O5 O6 O7 O8] (l1 & X1 & X2) W1 (l2 & Y1 & Y2) W2 items K L A B id1 p0 p1 p2. unfold items in *. clear items.
  apply Forall_app in K as [Ka1 K]. apply Forall_app in K as [Ki1 K]. apply Forall_app in K as [Ka2 Ki2].
  destruct (split_list _ _ _ L) as (c1 & cl & -> & Lc1 & L'). destruct (split_list _ _ _ L') as (d1 & cl' & -> & Ld1 & L''). destruct (split_list _ _ _ L'') as (c2 & d2 & -> & Lc2 & Ld2). clear L L' L''.
  rewrite <- !app_assoc, !flat_map_app, <- !app_assoc. change (App COptions :: ?x) with ([App COptions] ++ x). rewrite !turns_at_app, <- !app_assoc, !run_app.
  set (tail2 := flat_map item_stream (flat_map around_items arounds) ++ rest).
  set (inn := flat_map item_stream asked1 ++ flat_map item_stream items1 ++ flat_map item_stream asked2 ++ flat_map item_stream items2 ++ tail2).
  set (w0' := mkW (dialled ProtoTCP (Some (user, pass)) uri) inn [] [] rnd []). set (w0 := mkW (dialled ProtoTCP None uri) inn [] [] [] []).
  assert (R0 : related none w0 w0') by (split; [split; reflexivity|]; exists (Some (user, pass)), None, [], rnd, []; splits; [reflexivity|intros v; reflexivity|reflexivity]).
  assert (E0 : run (w0, Live) [App COptions] = (wor [] (ses None uri [] 0 [(1, options_request uri)] [] [] 0 [] 1) inn [Sent false (options_request uri)], Live)) by reflexivity.
  destruct (phase none _ w0 w0' _ [Sent false (options_request uri)] R0 E0 eq_refl) as (w1 & n1 & -> & R1 & L1 & S1 & St1 & P1 & U1 & V1).
  change (s_user (w_s w0')) with (Some (user, pass)) in U1. change (w_rand w0') with rnd in V1. change (w_log w0' ++ n1) with n1 in L1.
  destruct (challenged_run 1 (options_request uri) user pass l1 asked1 X2 cs1 none _ w1 c1 (flat_map item_stream items1 ++ flat_map item_stream asked2 ++ flat_map item_stream items2 ++ tail2) R1) as (w2 & n2 & -> & R2 & L2 & S2 & St2 & P2 & U2 & V2); try assumption; try reflexivity.
  { unfold single. splits; reflexivity. } { lia. }
  cbn [wor ses w_s s_uri] in R2, S2, V2. rewrite V1 in R2, S2, V2. fold p0 in R2, S2, V2. fold p1 in R2, V2.
  destruct (options_items uri ropt items1 d1 (flat_map item_stream asked2 ++ flat_map item_stream items2 ++ tail2) [Sent false (options_request uri)] O1 W1 Ki1 Ld1) as (verbs & n3 & E3 & A1 & A2 & A3).
  destruct (phase (pu_now p1) _ _ w2 _ n3 R2 E3 eq_refl) as (w3 & n3' & -> & R3 & L3 & S3 & St3 & P3 & U3 & V3). fold id1 in R3, A1.
  rewrite U2 in U3. rewrite V2 in V3.
  destruct (challenged_run 2 (describe_request uri id1) user pass l2 asked2 Y2 cs2 (pu_now p1) _ w3 c2 (flat_map item_stream items2 ++ tail2) R3) as (w4 & n4 & -> & R4 & L4 & S4 & St4 & P4 & U4 & V4); try assumption; try reflexivity.
  { unfold single. splits; reflexivity. } { lia. }
  cbn [wor ses w_s s_uri] in R4, S4, V4. rewrite V3 in R4, S4, V4. replace (mkPurse (pu_now p1) (pu_rand p1)) with p1 in R4, S4, V4 by (destruct p1; reflexivity). fold p2 in R4, V4.
  destruct (described_items uri ms rdesc rsets items2 d2 tail2 id1 verbs ([Sent false (options_request uri)] ++ n3) O2 O3 O4 O5 O6 O7 O8 W2 Ki2 Ld2) as (sinks & fs & n5 & E5 & C1 & C2 & BF & D1 & D2 & D3).
  destruct (phase (pu_now p2) _ _ w4 _ n5 R4 E5 eq_refl) as (w5 & n5' & -> & R5 & L5 & S5 & St5 & P5 & U5 & V5).
  rewrite U4 in U5. rewrite V4 in V5. pose proof (zlen_nonneg ms) as Pm.
  destruct (arounds_run uri sinks fs (zlen ms) verbs rest user pass arounds _ _ _ _ _ w5 R5 U5 ltac:(lia) ltac:(lia)) as (w6 & n6 & -> & I6 & F6 & L6 & S6 & St6 & P6).
  { replace (2 + zlen ms + 1) with (3 + zlen ms) by lia. exact A. }
  replace (2 + zlen ms + 1) with (3 + zlen ms) in S6 by lia. rewrite V5 in S6. replace (mkPurse (pu_now p2) (pu_rand p2)) with p2 in S6 by (destruct p2; reflexivity).
  exists w6. rewrite L6, L5, L4, L3, L2, L1. splits; [reflexivity|exact I6| | | |rewrite F6; exact C2|rewrite F6; exact C1].
  - rewrite !sent_requests_app, S1, S3, S5, S6, A1, D1. cbn [map sent_requests flat_map app]. rewrite <- S2, <- S4, <- !app_assoc. cbn [app]. reflexivity.
  - rewrite !stages_app, St1, St2, St3, St4, St5, St6, A2, D2. reflexivity.
  - rewrite !packets_app, P1, P2, P3, P4, P5, P6, A3, D3, !frames_app, <- !app_assoc. reflexivity.
Qed.
