(* Lemmas: the exchange of commands and responses. *)
From Coq Require Import String.
From Verif Require Import Base GoStrings M_conn S_message M_message M_transport M_sdp M_digest M_sps M_session S_session
  L_base L_strings L_rtp L_digest L_message L_session L_frames.
From Coq Require Import ZifyBool ZifyNat.

Local Opaque digest_response.

(* ---- 401 ---- *)
Lemma retry_exact w r req user pass d :
  qget (s_queue (w_s w)) (p_cseq r) = Some req -> p_code r = 401 -> s_proto (w_s w) <> ProtoHTTP ->
  s_user (w_s w) = Some (user, pass) -> new_digest (s_uri (w_s w)) (header_get (p_header r) (bs "WWW-Authenticate")) = Ok d ->
  exists rq w' o, handle_response w r = (w', o) /\ w_log w' = w_log w ++ [Got r; Sent true rq] /\
    o = (match w_writes w with Some e :: _ => Err e | _ => Ok tt end) /\
    q_verb rq = q_verb req /\ q_uri rq = q_uri req /\ q_header rq = q_header req /\ q_auth rq <> [] /\ q_cseq rq = s_cseq (w_s w) /\
    (forall k, qget (s_queue (w_s w')) k = if k =? s_cseq (w_s w) then Some rq else if k =? p_cseq r then None else qget (s_queue (w_s w)) k) /\
    s_cseq (w_s w') = s_cseq (w_s w) /\ s_user (w_s w') = s_user (w_s w) /\ s_uri (w_s w') = s_uri (w_s w) /\ s_proto (w_s w') = s_proto (w_s w) /\
    w_writes w' = tl (w_writes w) /\ w_in w' = w_in w.
Proof.
  intros Q C P U D. unfold handle_response. cbv zeta. cbn [note w_s]. rewrite Q. destruct (p_code r =? 401) eqn:E; [|lia].
  unfold retry, authorize. cbn [upd_s note w_s set_queue s_uri s_user w_rand]. rewrite D, U.
  destruct (authenticate d user pass (hd [] (w_rand w))) as [d' text] eqn:EA. pose proof (authenticate_nonempty _ _ _ _ _ _ EA) as T.
  unfold call_auth. cbn [w_s set_auth s_auth]. destruct (auth_call text d' (q_verb req) []) as [d2 out2] eqn:EC. pose proof (auth_call_nonempty _ _ _ _ _ T EC) as T2.
  unfold enqueue. cbv zeta. cbn [q_verb q_uri q_auth q_header set_auth s_cseq s_session s_queue set_queue].
  unfold write, upd_s. cbn [w_s w_in w_writes w_listens w_rand w_log note set_queue set_auth s_proto]. destruct (s_proto (w_s w) =? ProtoHTTP) eqn:EP; [lia|]. cbv zeta.
  destruct (w_writes w) as [|[e|] ?]; cbn iota; do 3 eexists; (split; [reflexivity|]);
    cbn [w_log w_s w_writes w_in s_queue set_queue set_auth s_cseq s_user s_uri s_proto tl]; (split; [rewrite <- app_assoc; reflexivity|]);
    cbn [q_verb q_uri q_header q_auth q_cseq];
    splits; try reflexivity; try exact T2; try exact U; intros k; rewrite qget_set, qget_del; reflexivity.
Qed.

(* ---- keep-alive ---- *)
Lemma keepalive_exact w t1 t2 : s_conn (w_s w) = true -> s_proto (w_s w) <> ProtoHTTP ->
  keepalive w t1 t2 =
  (if negb (s_proto (w_s w) =? ProtoTCP) && (1 <=? s_stage (w_s w)) && (s_stage (w_s w) <=? 3) &&
      match s_last (w_s w) with None => true | Some l => 2000000000 <=? t1 - l end
   then command (note (upd_s w (fun s => set_last s (Some t2))) (Alive t1 t2)) (bs "OPTIONS") (s_uri (w_s w)) [(bs "Session", s_session (w_s w))]
   else (w, Ok tt)).
Proof.
  intros C P. unfold keepalive, with_conn. rewrite C.
  assert (E1 : negb (s_proto (w_s w) =? ProtoHTTP) && negb (s_proto (w_s w) =? ProtoTCP) && (s_stage (w_s w) >? StageInit) && (s_stage (w_s w) <? StageDone) =
    negb (s_proto (w_s w) =? ProtoTCP) && (1 <=? s_stage (w_s w)) && (s_stage (w_s w) <=? 3)).
  { unfold StageInit, StageDone. unfold ProtoHTTP, ProtoTCP in *. lia. }
  rewrite E1. destruct (_ && (s_stage (w_s w) <=? 3)); cbn [andb]; [|reflexivity].
  assert (E2 : match s_last (w_s w) with None => true | Some l => t1 - l >=? keepAliveTimeout end = match s_last (w_s w) with None => true | Some l => 2000000000 <=? t1 - l end).
  { destruct (s_last (w_s w)); [|reflexivity]. unfold keepAliveTimeout. lia. }
  rewrite E2. reflexivity.
Qed.

Lemma command_exact w verb uri hs : s_conn (w_s w) = true -> s_proto (w_s w) <> ProtoHTTP ->
  exists rq w' o, command w verb uri hs = (w', o) /\ w_log w' = w_log w ++ [Sent false rq] /\ q_verb rq = verb /\ q_uri rq = uri /\
    q_header rq = fold_left (fun h e => header_set h (fst e) (snd e)) hs [] /\
    q_cseq rq = i64 (s_cseq (w_s w) + 1) /\ q_session rq = s_session (w_s w) /\
    (forall k, qget (s_queue (w_s w')) k = if k =? q_cseq rq then Some rq else qget (s_queue (w_s w)) k) /\
    s_cseq (w_s w') = q_cseq rq /\ s_feeds (w_s w') = s_feeds (w_s w) /\ s_feedidx (w_s w') = s_feedidx (w_s w) /\
    s_conn (w_s w') = s_conn (w_s w) /\ s_proto (w_s w') = s_proto (w_s w) /\ s_uri (w_s w') = s_uri (w_s w) /\ s_stage (w_s w') = s_stage (w_s w) /\ s_session (w_s w') = s_session (w_s w) /\
    o = (match w_writes w with Some e :: _ => Err e | _ => Ok tt end) /\ w_writes w' = tl (w_writes w) /\ w_in w' = w_in w /\ (s_auth (w_s w) = None -> q_auth rq = []) /\
    s_user (w_s w') = s_user (w_s w) /\ s_last (w_s w') = s_last (w_s w).
Proof.
  intros C P. unfold command. rewrite C. cbn [negb]. cbv zeta. destruct (call_auth (w_s w) verb) as [s1 auth] eqn:A. destruct (call_auth_frame _ _ _ _ A) as (a & -> & N).
  unfold enqueue. cbv zeta beta iota. unfold write, upd_s. cbn [w_s w_in w_writes w_listens w_rand w_log set_queue set_cseq set_auth s_proto q_verb q_uri q_auth q_header].
  destruct (s_proto (w_s w) =? ProtoHTTP) eqn:EP; [lia|]. cbv zeta.
  destruct (w_writes w) as [|[e|] ?]; cbn iota; do 3 eexists; (split; [reflexivity|]); cbn [w_log w_s w_writes w_in s_queue set_queue set_auth set_cseq s_cseq s_user s_uri s_proto s_feeds s_feedidx s_conn s_stage s_session s_last q_verb q_uri q_header q_auth q_cseq q_session tl];
    splits; try reflexivity; try (intros k; rewrite qget_set; reflexivity); try exact C; intros X; apply N; exact X.
Qed.

(* ---- SETUP ---- *)
Lemma upd_map_cseq fs i f f' : nth_error fs i = Some f -> fd_cseq f' = fd_cseq f -> map fd_cseq (upd fs i f') = map fd_cseq fs.
Proof.
  revert i. induction fs as [|x fs IH]; intros [|i] N E; cbn [nth_error upd map] in *; try discriminate; [congruence|]. rewrite IH; auto.
Qed.
Lemma upd_length {A} (l : list A) i x : length (upd l i x) = length l.
Proof. revert i. induction l as [|y l IH]; intros [|i]; cbn [upd length]; auto. Qed.
Lemma nth_upd_other {A} (l : list A) i j x : i <> j -> nth_error (upd l i x) j = nth_error l j.
Proof. revert i j. induction l as [|y l IH]; intros [|i] [|j] N; cbn [upd nth_error]; try reflexivity; [contradiction|]. apply IH. lia. Qed.
Lemma nth_upd_same {A} (l : list A) i x : (i < length l)%nat -> nth_error (upd l i x) i = Some x.
Proof. revert i. induction l as [|y l IH]; intros [|i] H; cbn [upd nth_error length] in *; try lia; [reflexivity|]. apply IH. lia. Qed.

Lemma transport_setup_cseq f v f' o : transport_setup f v = (f', o) -> fd_cseq f' = fd_cseq f /\ fd_media f' = fd_media f.
Proof.
  unfold transport_setup. destruct (transport_parse (fd_transp f) v) as [t [e|]]; [intros E; inversion E; split; reflexivity|].
  destruct (parse_sprops (fd_sets f) (m_sprops (fd_media f))) as [st [u|e| |]]; intros E; inversion E; split; reflexivity.
Qed.

Lemma readies_app a b : readies (a ++ b) = readies a ++ readies b.
Proof. apply filter_app. Qed.

(* what adding a listener leaves alone *)
Lemma add_sink_frame w ch port w' o : add_sink w ch port = (w', o) ->
  s_feeds (w_s w') = s_feeds (w_s w) /\ s_feedidx (w_s w') = s_feedidx (w_s w) /\ s_queue (w_s w') = s_queue (w_s w) /\ s_stage (w_s w') = s_stage (w_s w) /\
  exists new, w_log w' = w_log w ++ new /\ readies new = [].
Proof.
  unfold add_sink. destruct (w_listens w) as [|[e|] l]; intros E; inversion E; subst; splits; try reflexivity;
    first [exists [Listening ch port]; split; reflexivity|exists []; rewrite app_nil_r; split; reflexivity].
Qed.

Definition matching (cseq : Z) (l : list Z) : Z := zlen (filter (fun c => c =? cseq) l).

Lemma i64_add a b : i64 (i64 a + b) = i64 (a + b).
Proof. unfold i64. replace ((a + 2 ^ 63) mod 2 ^ 64 - 2 ^ 63 + b + 2 ^ 63) with ((a + 2 ^ 63) mod 2 ^ 64 + b) by lia. rewrite Z.add_mod_idemp_l by lia. f_equal. f_equal. lia. Qed.

Lemma setup_feeds_frame todo : forall w cseq v i w',
  (forall n f, nth_error todo n = Some f -> nth_error (s_feeds (w_s w)) (i + n) = Some f) ->
  - 2 ^ 63 <= s_feedidx (w_s w) < 2 ^ 63 ->
  setup_feeds w cseq v i todo = (w', Ok tt) ->
  map fd_cseq (s_feeds (w_s w')) = map fd_cseq (s_feeds (w_s w)) /\
  s_feedidx (w_s w') = i64 (s_feedidx (w_s w) + matching cseq (map fd_cseq todo)) /\
  s_queue (w_s w') = s_queue (w_s w) /\ s_stage (w_s w') = s_stage (w_s w) /\
  exists new, w_log w' = w_log w ++ new /\ readies new = [].
Proof.
  induction todo as [|f todo IH]; intros w cseq v i w' N B E; cbn [setup_feeds] in E.
  { inversion E; subst. splits; try reflexivity; [cbn; rewrite Z.add_0_r, i64_small by lia; reflexivity|]. exists []. rewrite app_nil_r. split; reflexivity. }
  unfold matching in *. cbn [map filter].
  destruct (fd_cseq f =? cseq) eqn:EC.
  2:{ apply IH in E; [exact E| |exact B]. intros n g H. rewrite Nat.add_succ_l, <- Nat.add_succ_r. apply N. exact H. }
  cbv zeta in E. rewrite zlen_cons. destruct (transport_setup f v) as [f' [u|e| |]] eqn:TS; try discriminate. destruct u.
  apply transport_setup_cseq in TS as [TS _].
  set (w1 := upd_s (upd_s w (fun s => set_feedidx s (i64 (s_feedidx s + 1)))) (put_feed i f')) in *.
  assert (F1 : s_feeds (w_s w1) = upd (s_feeds (w_s w)) i f') by reflexivity.
  assert (F2 : s_feedidx (w_s w1) = i64 (s_feedidx (w_s w) + 1)) by reflexivity.
  assert (F3 : s_queue (w_s w1) = s_queue (w_s w)) by reflexivity. assert (F4 : s_stage (w_s w1) = s_stage (w_s w)) by reflexivity. assert (F5 : w_log w1 = w_log w) by reflexivity.
  clearbody w1. pose proof (N 0%nat f eq_refl) as Nf. rewrite Nat.add_0_r in Nf.
  assert (Go : forall w2, s_feeds (w_s w2) = s_feeds (w_s w1) -> s_feedidx (w_s w2) = s_feedidx (w_s w1) -> s_queue (w_s w2) = s_queue (w_s w1) -> s_stage (w_s w2) = s_stage (w_s w1) ->
     (exists new, w_log w2 = w_log w1 ++ new /\ readies new = []) -> setup_feeds w2 cseq v (S i) todo = (w', Ok tt) ->
     map fd_cseq (s_feeds (w_s w')) = map fd_cseq (s_feeds (w_s w)) /\
     s_feedidx (w_s w') = i64 (s_feedidx (w_s w) + (zlen (filter (fun c => c =? cseq) (map fd_cseq todo)) + 1)) /\
     s_queue (w_s w') = s_queue (w_s w) /\ s_stage (w_s w') = s_stage (w_s w) /\ exists new, w_log w' = w_log w ++ new /\ readies new = []).
  { intros w2 H1 H2 H3 H4 (n1 & L1 & R1) E2. apply IH in E2.
    - destruct E2 as (G1 & G2 & G3 & G4 & n2 & L2 & R2). rewrite H1, F1, (upd_map_cseq _ _ f f' Nf TS) in G1. splits; [exact G1| |congruence|congruence|].
      + rewrite G2, H2, F2. rewrite i64_add. f_equal. lia.
      + exists (n1 ++ n2). split; [rewrite L2, L1, F5, app_assoc; reflexivity|]. rewrite readies_app, R1, R2. reflexivity.
    - intros n g H. rewrite H1, F1, nth_upd_other by lia. rewrite Nat.add_succ_l, <- Nat.add_succ_r. apply N. exact H.
    - rewrite H2, F2. unfold i64. pose proof (Z.mod_pos_bound (s_feedidx (w_s w) + 1 + 2 ^ 63) (2 ^ 64)). lia. }
  rewrite ?(Z.add_comm 1). destruct (t_tcp (fd_transp f')).
  { apply (Go w1); try reflexivity; [|exact E]. exists []. rewrite app_nil_r. split; reflexivity. }
  match type of E with context [add_sink ?a ?b ?p] => destruct (add_sink a b p) as [w2 [u2|e2| |]] eqn:E2 end; try discriminate.
  match type of E with context [add_sink ?a ?b ?p] => destruct (add_sink a b p) as [w3 [u3|e3| |]] eqn:E3 end; try discriminate.
  apply add_sink_frame in E2 as (X1 & X2 & X3 & X4 & n2 & L2 & R2). apply add_sink_frame in E3 as (Y1 & Y2 & Y3 & Y4 & n3 & L3 & R3).
  apply (Go w3); try congruence. exists (n2 ++ n3). split; [rewrite L3, L2, app_assoc; reflexivity|]. rewrite readies_app, R2, R3. reflexivity.
Qed.

Lemma matching_one c l : NoDup l -> In c l -> matching c l = 1.
Proof.
  unfold matching. induction l as [|x l IH]; intros N I; [destruct I|]. inversion N; subst. cbn [filter]. destruct (x =? c) eqn:E.
  - rewrite zlen_cons. assert (x = c) by lia. subst. replace (filter (fun c0 => c0 =? c) l) with (@nil Z); [reflexivity|]. clear - H1. induction l as [|y l IH]; [reflexivity|]. cbn [filter].
    destruct (y =? c) eqn:E; [exfalso; apply H1; left; lia|]. apply IH. intros X. apply H1. right. exact X.
  - destruct I as [I|I]; [lia|]. apply IH; assumption.
Qed.

(* answered responses so far: done *)
Definition awaiting (w : world) (cs done : list Z) : Prop :=
  map fd_cseq (s_feeds (w_s w)) = cs /\ s_feedidx (w_s w) = zlen done /\
  (forall c, In c cs -> ~ In c done -> exists req, qget (s_queue (w_s w)) c = Some req /\ q_verb req = bs "SETUP").

Lemma learn_frame s r : s_feeds (learn_session s r) = s_feeds s /\ s_feedidx (learn_session s r) = s_feedidx s /\ s_queue (learn_session s r) = s_queue s /\ s_stage (learn_session s r) = s_stage s.
Proof. unfold learn_session. destruct (beq _ _); splits; reflexivity. Qed.

Lemma setup_answer w cs done r w' :
  NoDup cs -> zlen cs < 2 ^ 63 -> NoDup (p_cseq r :: done) -> incl (p_cseq r :: done) cs -> awaiting w cs done -> p_code r <> 401 ->
  handle_response w r = (w', Ok tt) ->
  awaiting w' cs (p_cseq r :: done) /\
  readies (w_log w') = readies (w_log w) ++ (if zlen done + 1 >=? zlen cs then [Notified 1] else []) /\
  s_stage (w_s w') = (if zlen done + 1 >=? zlen cs then 1 else s_stage (w_s w)).
Proof.
  intros N B ND I (A1 & A2 & A3) C. inversion ND as [|? ? NI ND']; subst.
  assert (IC : In (p_cseq r) (map fd_cseq (s_feeds (w_s w)))) by (apply I; left; reflexivity).
  destruct (A3 _ IC NI) as (req & Q & V). unfold handle_response. cbv zeta. cbn [note w_s]. rewrite Q.
  destruct (p_code r =? 401) eqn:E4; [lia|].
  set (w0 := upd_s (upd_s (note w (Got r)) (fun s => set_queue s (qdel (s_queue s) (p_cseq r)))) (fun s => learn_session s r)).
  assert (F : s_feeds (w_s w0) = s_feeds (w_s w) /\ s_feedidx (w_s w0) = s_feedidx (w_s w) /\ s_queue (w_s w0) = qdel (s_queue (w_s w)) (p_cseq r) /\ s_stage (w_s w0) = s_stage (w_s w)) by exact (learn_frame (set_queue (w_s w) (qdel (s_queue (w_s w)) (p_cseq r))) r).
  assert (L0 : w_log w0 = w_log w ++ [Got r]) by reflexivity.
  clearbody w0. destruct F as (F1 & F2 & F3 & F4).
  unfold react. rewrite V. change (beq (bs "SETUP") (bs "OPTIONS")) with false. change (beq (bs "SETUP") (bs "DESCRIBE")) with false. change (beq (bs "SETUP") (bs "PAUSE")) with false.
  change (beq (bs "SETUP") (bs "PLAY")) with false. change (beq (bs "SETUP") (bs "TEARDOWN")) with false. change (beq (bs "SETUP") (bs "SETUP")) with true. cbv iota.
  assert (LD : zlen done + 1 <= zlen (map fd_cseq (s_feeds (w_s w)))).
  { pose proof (NoDup_incl_length ND I) as X. cbn [length] in X. unfold zlen. lia. }
  pose proof (zlen_nonneg done) as PD.
  assert (Fin : forall w1, map fd_cseq (s_feeds (w_s w1)) = map fd_cseq (s_feeds (w_s w)) -> s_feedidx (w_s w1) = zlen done + 1 -> s_queue (w_s w1) = s_queue (w_s w0) -> s_stage (w_s w1) = s_stage (w_s w) ->
    (exists new, w_log w1 = w_log w0 ++ new /\ readies new = []) ->
    (if s_feedidx (w_s w1) >=? zlen (s_feeds (w_s w1)) then (note (notify w1 StageReady) Started, Ok tt) else (w1, Ok tt)) = (w', Ok tt) ->
    awaiting w' (map fd_cseq (s_feeds (w_s w))) (p_cseq r :: done) /\
    readies (w_log w') = readies (w_log w) ++ (if zlen done + 1 >=? zlen (map fd_cseq (s_feeds (w_s w))) then [Notified 1] else []) /\
    s_stage (w_s w') = (if zlen done + 1 >=? zlen (map fd_cseq (s_feeds (w_s w))) then 1 else s_stage (w_s w))).
  { intros w1 M1 M2 M3 M4 (new & LN & RN) E.
    assert (ZL : zlen (s_feeds (w_s w1)) = zlen (map fd_cseq (s_feeds (w_s w)))) by (rewrite <- M1; unfold zlen; rewrite map_length; reflexivity).
    rewrite M2, ZL in E.
    assert (AW : awaiting w1 (map fd_cseq (s_feeds (w_s w))) (p_cseq r :: done)).
    { unfold awaiting. rewrite zlen_cons. splits; [exact M1|lia|]. intros c Ic Nc. rewrite M3, F3, qget_del. destruct (c =? p_cseq r) eqn:Ec; [exfalso; apply Nc; left; lia|]. apply A3; [exact Ic|]. intros X. apply Nc. right. exact X. }
    assert (RL : readies (w_log w1) = readies (w_log w)) by (rewrite LN, readies_app, RN, app_nil_r, L0, readies_app; cbn; apply app_nil_r).
    destruct (zlen done + 1 >=? zlen (map fd_cseq (s_feeds (w_s w)))); inversion E; subst; clear E.
    - splits; [exact AW| |reflexivity]. cbn [note notify upd_s w_log]. rewrite !readies_app, RL. cbn. rewrite ?app_nil_r. reflexivity.
    - splits; [exact AW| |exact M4]. rewrite RL, app_nil_r. reflexivity. }
  unfold handle_setup. destruct (p_code r =? 200) eqn:E2.
  - destruct (setup_feeds w0 (p_cseq r) (header_get (p_header r) (bs "Transport")) 0 (s_feeds (w_s w0))) as [w1 [u|e| |]] eqn:SF; intros E; try discriminate. destruct u.
    apply setup_feeds_frame in SF; [|intros n f X; exact X|rewrite F2, A2; lia].
    destruct SF as (S1 & S2 & S3 & S4 & S5). apply (Fin w1); [congruence| |congruence|congruence|exact S5|exact E].
    rewrite S2, F1, F2, A2, (matching_one _ _ N IC). apply i64_small. lia.
  - rewrite E4. cbn [negb]. intros E. apply (Fin (upd_s w0 (fun s => set_feedidx s (i64 (s_feedidx s + 1))))); try reflexivity; try exact E.
    + cbn [upd_s w_s set_feedidx s_feeds]. rewrite F1. reflexivity.
    + cbn [upd_s w_s set_feedidx s_feedidx]. rewrite F2, A2. apply i64_small. lia.
    + cbn [upd_s w_s set_feedidx s_stage]. exact F4.
    + exists []. rewrite app_nil_r. split; reflexivity.
Qed.

Lemma setup_answers rs : forall w cs done w',
  NoDup cs -> zlen cs < 2 ^ 63 -> NoDup (rev (map p_cseq rs) ++ done) -> incl (map p_cseq rs) cs -> incl done cs -> awaiting w cs done -> Forall (fun r => p_code r <> 401) rs ->
  zlen done < zlen cs -> handled w rs w' ->
  awaiting w' cs (rev (map p_cseq rs) ++ done) /\
  readies (w_log w') = readies (w_log w) ++ (if zlen rs + zlen done >=? zlen cs then [Notified 1] else []) /\
  s_stage (w_s w') = (if zlen rs + zlen done >=? zlen cs then 1 else s_stage (w_s w)).
Proof.
  induction rs as [|r rs IH]; intros w cs done w' N B ND I ID A C L H; inversion H; subst.
  { cbn [map rev app]. splits; [exact A| |]; change (zlen (@nil response)) with 0; destruct (0 + zlen done >=? zlen cs) eqn:E; try lia; rewrite ?app_nil_r; reflexivity. }
  cbn [map rev] in *. rewrite <- app_assoc in *. cbn [app] in *. inversion C; subst.
  assert (ND2 : NoDup (p_cseq r :: done)). { clear - ND. induction (rev (map p_cseq rs)) as [|x l IH]; [exact ND|]. inversion ND; subst. auto. }
  assert (I2 : incl (p_cseq r :: done) cs). { intros x [<-|X]; [apply I; left; reflexivity|apply ID; exact X]. }
  destruct (setup_answer w cs done r w1 N B ND2 I2 A) as (A1 & R1 & S1); [assumption|assumption|].
  assert (LL : zlen (rev (map p_cseq rs) ++ p_cseq r :: done) <= zlen cs).
  { unfold zlen. assert (Y : incl (rev (map p_cseq rs) ++ p_cseq r :: done) cs).
    { intros x X1. apply in_app_or in X1 as [X1|X1]; [apply in_rev in X1; apply I; right; exact X1|apply I2; exact X1]. }
    pose proof (NoDup_incl_length ND Y). lia. }
  assert (LE : zlen (rev (map p_cseq rs) ++ p_cseq r :: done) = zlen rs + zlen done + 1).
  { unfold zlen. rewrite app_length, rev_length, map_length. cbn [length]. lia. }
  destruct rs as [|r2 rs'].
  { match goal with H : handled _ [] _ |- _ => inversion H; subst end. cbn [map rev app]. rewrite zlen_cons. change (zlen []) with 0. replace (1 + 0 + zlen done) with (zlen done + 1) by lia. replace (0 + 1 + zlen done) with (zlen done + 1) by lia. auto. }
  assert (P2 : zlen done + 1 < zlen cs). { rewrite LE, zlen_cons in LL. pose proof (zlen_nonneg rs'). lia. }
  destruct (IH w1 cs (p_cseq r :: done) w') as (A3 & R3 & S3); try assumption.
  - intros x X. apply I. right. exact X.
  - rewrite zlen_cons. lia.
  - splits; [exact A3| |].
    + rewrite R3, R1. destruct (zlen done + 1 >=? zlen cs) eqn:E; [lia|]. rewrite app_nil_r. rewrite !zlen_cons. match goal with |- _ ++ (if ?a then _ else _) = _ ++ (if ?b then _ else _) => replace a with b; [reflexivity|lia] end.
    + rewrite S3, S1. destruct (zlen done + 1 >=? zlen cs) eqn:E; [lia|]. rewrite !zlen_cons. match goal with |- (if ?a then _ else _) = (if ?b then _ else _) => replace a with b; [reflexivity|lia] end.
Qed.

(* numbers n+1 .. n+k *)
Fixpoint from_z (n : Z) (k : nat) : list Z := match k with O => [] | S k => (n + 1) :: from_z (n + 1) k end.
Lemma from_z_in k : forall n x, In x (from_z n k) <-> n < x <= n + Z.of_nat k.
Proof. induction k as [|k IH]; intros n x; cbn [from_z In]; [lia|]. rewrite IH. lia. Qed.
Lemma from_z_nodup k : forall n, NoDup (from_z n k).
Proof. induction k as [|k IH]; intros n; cbn [from_z]; constructor; [rewrite from_z_in; lia|apply IH]. Qed.
Lemma from_z_len k : forall n, length (from_z n k) = k.
Proof. induction k as [|k IH]; intros n; cbn [from_z length]; [reflexivity|]. rewrite IH. reflexivity. Qed.

Lemma mark_cseq fs i x f : nth_error fs i = Some f -> fd_cseq (mkFeed (fd_media f) (fd_transp f) x (fd_set f) (fd_sets f)) = x ->
  map fd_cseq (upd fs i (mkFeed (fd_media f) (fd_transp f) x (fd_set f) (fd_sets f))) = firstn i (map fd_cseq fs) ++ x :: skipn (S i) (map fd_cseq fs).
Proof.
  intros N _. revert i N. induction fs as [|g fs IH]; intros [|i] N; cbn [nth_error] in N; try discriminate; cbn [upd map firstn skipn app].
  - reflexivity.
  - rewrite IH by exact N. reflexivity.
Qed.

Lemma setup_from_exact todo : forall w i w',
  s_conn (w_s w) = true -> s_proto (w_s w) <> ProtoHTTP -> 0 <= s_cseq (w_s w) -> s_cseq (w_s w) + zlen todo < 2 ^ 63 ->
  length (s_feeds (w_s w)) = (i + length todo)%nat ->
  setup_from w i todo = (w', Ok tt) ->
  map fd_cseq (s_feeds (w_s w')) = firstn i (map fd_cseq (s_feeds (w_s w))) ++ from_z (s_cseq (w_s w)) (length todo) /\
  s_feedidx (w_s w') = s_feedidx (w_s w) /\ s_stage (w_s w') = s_stage (w_s w) /\
  (forall c, s_cseq (w_s w) < c <= s_cseq (w_s w) + zlen todo -> exists req, qget (s_queue (w_s w')) c = Some req /\ q_verb req = bs "SETUP") /\
  (forall c, c <= s_cseq (w_s w) -> qget (s_queue (w_s w')) c = qget (s_queue (w_s w)) c) /\
  readies (w_log w') = readies (w_log w).
Proof.
  induction todo as [|f todo IH]; intros w i w' C P C0 B L E; cbn [setup_from] in E.
  { inversion E; subst. cbn [length from_z]. rewrite app_nil_r, firstn_all2 by (rewrite map_length; cbn [length] in L; lia). change (zlen (@nil feed)) with 0. splits; try reflexivity. intros c H. lia. }
  destruct (setup_uri (w_s w) (m_control (fd_media f))) as [uri|e| |]; try discriminate.
  destruct (command_exact w (bs "SETUP") uri [(bs "Transport", transport_string (fd_transp f))] C P) as (rq & w1 & o & EC & L1 & V & _ & _ & Q1 & _ & Q2 & Q3 & Q4 & Q5 & Q6 & Q7 & _ & Q9 & _).
  rewrite EC in E. destruct o as [u|e| |]; try discriminate.
  rewrite zlen_cons in *. pose proof (zlen_nonneg todo) as PT.
  assert (K : s_cseq (w_s w1) = s_cseq (w_s w) + 1) by (rewrite Q3, Q1; apply i64_small; lia).
  set (w2 := upd_s w1 (mark_feed i)) in *.
  assert (NF : exists g, nth_error (s_feeds (w_s w1)) i = Some g).
  { destruct (nth_error (s_feeds (w_s w1)) i) as [g|] eqn:G; [eexists; reflexivity|]. exfalso. apply nth_error_None in G. rewrite Q4, L in G. cbn [length] in G. lia. }
  destruct NF as (g & NG).
  assert (M : w_s w2 = set_feeds (w_s w1) (upd (s_feeds (w_s w1)) i (mkFeed (fd_media g) (fd_transp g) (s_cseq (w_s w1)) (fd_set g) (fd_sets g)))).
  { unfold w2, upd_s, mark_feed. cbn [w_s]. rewrite NG. reflexivity. }
  assert (ML : w_log w2 = w_log w1) by reflexivity.
  assert (MF : map fd_cseq (s_feeds (w_s w2)) = firstn i (map fd_cseq (s_feeds (w_s w))) ++ (s_cseq (w_s w) + 1) :: skipn (S i) (map fd_cseq (s_feeds (w_s w)))).
  { rewrite M. cbn [set_feeds s_feeds]. rewrite (mark_cseq _ _ _ _ NG eq_refl), Q4, K. reflexivity. }
  assert (Li : length (firstn i (map fd_cseq (s_feeds (w_s w)))) = i).
  { rewrite firstn_length, map_length, L. cbn [length]. lia. }
  clearbody w2.
  assert (X : s_conn (w_s w2) = true /\ s_proto (w_s w2) = s_proto (w_s w) /\ s_cseq (w_s w2) = s_cseq (w_s w) + 1 /\ s_feedidx (w_s w2) = s_feedidx (w_s w) /\ s_stage (w_s w2) = s_stage (w_s w) /\ s_queue (w_s w2) = s_queue (w_s w1) /\ length (s_feeds (w_s w2)) = length (s_feeds (w_s w1))).
  { rewrite M. cbn [set_feeds s_conn s_proto s_cseq s_feedidx s_stage s_queue s_feeds]. rewrite upd_length. splits; congruence. }
  destruct X as (X1 & X2 & X3 & X4 & X5 & X6 & X7).
  apply IH in E; [|exact X1|congruence|lia|lia|rewrite X7, Q4, L; cbn [length]; lia].
  destruct E as (E1 & E2 & E3 & E4 & E5 & E6). splits.
  - rewrite E1, MF, X3. cbn [length from_z]. replace (S i) with (i + 1)%nat by lia. rewrite <- Li at 1. rewrite firstn_app_2. cbn [firstn]. rewrite <- app_assoc. reflexivity.
  - congruence.
  - congruence.
  - intros c H. destruct (Z.eq_dec c (s_cseq (w_s w) + 1)) as [->|N].
    + exists rq. split; [|exact V]. rewrite E5 by lia. rewrite X6, Q2. replace (q_cseq rq) with (s_cseq (w_s w) + 1) by (rewrite Q1; symmetry; apply i64_small; lia). rewrite Z.eqb_refl. reflexivity.
    + apply E4. lia.
  - intros c H. rewrite E5 by lia. rewrite X6, Q2. destruct (c =? q_cseq rq) eqn:Ec; [|reflexivity]. exfalso. rewrite Q1, i64_small in Ec; lia.
  - rewrite E6, ML, L1, readies_app. cbn. apply app_nil_r.
Qed.

Lemma setup_ready w w1 rs w2 :
  s_conn (w_s w) = true -> s_proto (w_s w) <> ProtoHTTP -> s_feedidx (w_s w) = 0 -> s_feeds (w_s w) <> [] ->
  0 <= s_cseq (w_s w) -> s_cseq (w_s w) + zlen (s_feeds (w_s w)) < 2 ^ 63 ->
  setup w = (w1, Ok tt) ->
  NoDup (map p_cseq rs) ->
  Forall (fun r => s_cseq (w_s w) < p_cseq r <= s_cseq (w_s w) + zlen (s_feeds (w_s w)) /\ p_code r <> 401) rs ->
  handled w1 rs w2 ->
  readies (w_log w2) = readies (w_log w) ++ (if zlen rs =? zlen (s_feeds (w_s w)) then [Notified 1] else []) /\
  s_stage (w_s w2) = (if zlen rs =? zlen (s_feeds (w_s w)) then 1 else s_stage (w_s w)).
Proof.
  intros C P F0 NE C0 B E ND FA H. unfold setup in E.
  apply setup_from_exact in E; [|assumption..|reflexivity]. destruct E as (E1 & E2 & E3 & E4 & _ & E6). cbn [firstn app] in E1.
  set (cs := from_z (s_cseq (w_s w)) (length (s_feeds (w_s w)))) in *.
  assert (LC : zlen cs = zlen (s_feeds (w_s w))) by (unfold zlen, cs; rewrite from_z_len; reflexivity).
  assert (PF : 0 < zlen (s_feeds (w_s w))) by (destruct (s_feeds (w_s w)); [contradiction|rewrite zlen_cons; pose proof (zlen_nonneg l); lia]).
  assert (IR : incl (map p_cseq rs) cs).
  { intros x X. apply in_map_iff in X as (r & <- & X). apply from_z_in. pose proof (proj1 (Forall_forall _ _) FA _ X) as Y. cbv beta in Y. unfold zlen in Y. lia. }
  destruct (setup_answers rs w1 cs [] w2) as (_ & R & S); try assumption.
  - apply from_z_nodup.
  - lia.
  - rewrite app_nil_r. apply NoDup_rev. exact ND.
  - intros x [].
  - unfold awaiting. splits; [exact E1|rewrite E2, F0; reflexivity|]. intros c Ic _. apply from_z_in in Ic. apply E4. unfold zlen. lia.
  - eapply Forall_impl; [|exact FA]. cbv beta. tauto.
  - change (zlen []) with 0. lia.
  - assert (LR : zlen rs <= zlen cs). { unfold zlen. rewrite <- (map_length p_cseq rs). apply inj_le. apply NoDup_incl_length; assumption. }
    change (zlen (@nil Z)) with 0 in *. rewrite R, S, E3, E6, LC. replace (zlen rs + 0 >=? zlen (s_feeds (w_s w))) with (zlen rs =? zlen (s_feeds (w_s w))) by lia. split; reflexivity.
Qed.

(* ---- listeners ---- *)
Lemma setup_feeds_skip todo : forall w c v i, Forall (fun f => fd_cseq f <> c) todo -> setup_feeds w c v i todo = (w, Ok tt).
Proof. induction todo as [|f todo IH]; intros w c v i F; [reflexivity|]. inversion F; subst. cbn [setup_feeds]. destruct (fd_cseq f =? c) eqn:E; [lia|]. apply IH. assumption. Qed.
Lemma setup_feeds_skip_app pre : forall w c v i l, Forall (fun f => fd_cseq f <> c) pre -> setup_feeds w c v i (pre ++ l) = setup_feeds w c v (i + length pre) l.
Proof.
  induction pre as [|f pre IH]; intros w c v i l F; cbn [app length]; [rewrite Nat.add_0_r; reflexivity|]. inversion F; subst. cbn [setup_feeds]. destruct (fd_cseq f =? c) eqn:E; [lia|].
  rewrite IH by assumption. f_equal. lia.
Qed.
Lemma listenings_app a b : listenings (a ++ b) = listenings a ++ listenings b.
Proof. apply flat_map_app. Qed.

Lemma listen_one w r req pre f post tr tf :
  s_feeds (w_s w) = pre ++ f :: post -> fd_cseq f = p_cseq r -> Forall (fun g => fd_cseq g <> p_cseq r) (pre ++ post) ->
  qget (s_queue (w_s w)) (p_cseq r) = Some req -> q_verb req = bs "SETUP" -> p_code r = 200 ->
  transport_parse (fd_transp f) (header_get (p_header r) (bs "Transport")) = (tr, None) -> t_tcp tr = false ->
  parse_sprops (fd_sets f) (m_sprops (fd_media f)) = (tf, Ok tt) -> w_listens w = [] ->
  exists w', handle_response w r = (w', Ok tt) /\
    let ch := u8 (u8 (i64 (s_feedidx (w_s w) + 1)) * 2) in
    listenings (w_log w') = listenings (w_log w) ++ [(ch, p_one (t_port tr)); (u8 (ch + 1), p_two (t_port tr))] /\
    s_feedidx (w_s w') = i64 (s_feedidx (w_s w) + 1).
Proof.
  intros F C FA Q V K T TC SP WL. unfold handle_response. cbv zeta. cbn [note w_s]. rewrite Q. destruct (p_code r =? 401) eqn:E4; [lia|].
  set (w0 := upd_s (upd_s (note w (Got r)) (fun s => set_queue s (qdel (s_queue s) (p_cseq r)))) (fun s => learn_session s r)).
  assert (G : s_feeds (w_s w0) = s_feeds (w_s w) /\ s_feedidx (w_s w0) = s_feedidx (w_s w) /\ s_queue (w_s w0) = qdel (s_queue (w_s w)) (p_cseq r) /\ s_stage (w_s w0) = s_stage (w_s w))
    by exact (learn_frame (set_queue (w_s w) (qdel (s_queue (w_s w)) (p_cseq r))) r).
  assert (L0 : w_log w0 = w_log w ++ [Got r]) by reflexivity. assert (WL0 : w_listens w0 = []) by exact WL.
  clearbody w0. destruct G as (F1 & F2 & _ & _).
  unfold react. rewrite V. change (beq (bs "SETUP") (bs "OPTIONS")) with false. change (beq (bs "SETUP") (bs "DESCRIBE")) with false. change (beq (bs "SETUP") (bs "PAUSE")) with false.
  change (beq (bs "SETUP") (bs "PLAY")) with false. change (beq (bs "SETUP") (bs "TEARDOWN")) with false. change (beq (bs "SETUP") (bs "SETUP")) with true. cbv iota.
  unfold handle_setup. destruct (p_code r =? 200) eqn:E2; [|lia].
  apply Forall_app in FA as [FA1 FA2]. rewrite F1, F, setup_feeds_skip_app by exact FA1. cbn [setup_feeds]. rewrite C, Z.eqb_refl. cbv zeta.
  unfold transport_setup. rewrite T, SP. cbn [fd_transp]. rewrite TC.
  unfold add_sink. cbn [upd_s w_listens w_s w_in w_writes w_rand w_log note]. rewrite WL0. cbn [tl note w_s w_in w_writes w_listens w_rand w_log]. cbv iota beta.
  rewrite setup_feeds_skip by exact FA2.
  destruct (_ >=? _); eexists; (split; [reflexivity|]); cbn [note notify upd_s w_log w_s set_stage set_sinks put_feed set_feeds set_feedidx s_feedidx];
    rewrite !listenings_app, L0, listenings_app, F2; cbn [listenings flat_map app]; rewrite ?app_nil_r, <- ?app_assoc; split; reflexivity.
Qed.

(* ---- a server that never accepts the credentials ---- *)
Lemma retransmissions_app a b : retransmissions (a ++ b) = retransmissions a ++ retransmissions b.
Proof. apply flat_map_app. Qed.
Lemma endless n : forall w r req up d,
  qget (s_queue (w_s w)) (p_cseq r) = Some req -> p_cseq r = s_cseq (w_s w) -> p_code r = 401 -> s_proto (w_s w) <> ProtoHTTP ->
  s_user (w_s w) = Some up -> new_digest (s_uri (w_s w)) (header_get (p_header r) (bs "WWW-Authenticate")) = Ok d -> w_writes w = [] ->
  exists w' new, handled w (repeat r n) w' /\ retransmissions (w_log w') = retransmissions (w_log w) ++ new /\ length new = n /\
    Forall (fun rq => q_verb rq = q_verb req /\ q_cseq rq = p_cseq r /\ q_auth rq <> []) new.
Proof.
  induction n as [|n IH]; intros w r req [user pass] d Q C K P U D W.
  { exists w, []. splits; [constructor|rewrite app_nil_r; reflexivity|reflexivity|constructor]. }
  destruct (retry_exact w r req user pass d Q K P U D) as (rq & w1 & o & E & L & O & V & _ & _ & A & CQ & QQ & SC & SU & SR & SP & WW & _).
  rewrite W in O. subst o.
  destruct (IH w1 r rq (user, pass) d) as (w2 & new & H & R & LN & F).
  - rewrite QQ. rewrite C, Z.eqb_refl. reflexivity.
  - congruence.
  - exact K.
  - congruence.
  - congruence.
  - rewrite SR. exact D.
  - rewrite WW, W. reflexivity.
  - exists w2, (rq :: new). cbn [repeat length]. splits.
    + econstructor; eassumption.
    + rewrite R, L, retransmissions_app, <- app_assoc. reflexivity.
    + congruence.
    + constructor; [splits; congruence|]. rewrite V in F. exact F.
Qed.

(* ---- the URI in the authorization ---- *)
Lemma authenticate_uri d user pass rnd d' text : d_basic d = false -> authenticate d user pass rnd = (d', text) ->
  d_basic d' = false /\ exists a b, text = a ++ bs "uri=""" ++ d_uri d ++ bs """" ++ b.
Proof.
  intros B. pose proof (authenticate_frame d user pass rnd B) as F. intros E. rewrite E in F. destruct F as (_ & FB & _). split; [exact FB|].
  revert E. unfold authenticate. rewrite B. destruct d as [ba us re dm no op st al cn qo ur h1 h2 nc ct]. cbn [d_uri]. intros E. apply (f_equal snd) in E. cbn [snd] in E. subst text.
  exists (bs "Digest username=""" ++ user ++ bs """, realm=""" ++ re ++ bs """, nonce=""" ++ no ++ bs """, ").
  exists (bs ", algorithm=""" ++ al ++ (if beq op [] then [] else bs """, opaque=""" ++ op) ++ bs """").
  change (bs """, uri=""") with (bs """, " ++ bs "uri="""). change (bs """, algorithm=""") with (bs """" ++ bs ", algorithm=""").
  rewrite <- !app_assoc. reflexivity.
Qed.

Lemma retry_uri w r req user pass d :
  qget (s_queue (w_s w)) (p_cseq r) = Some req -> p_code r = 401 -> s_proto (w_s w) <> ProtoHTTP ->
  s_user (w_s w) = Some (user, pass) -> new_digest (s_uri (w_s w)) (header_get (p_header r) (bs "WWW-Authenticate")) = Ok d -> d_basic d = false ->
  exists rq w' o a b, handle_response w r = (w', o) /\ w_log w' = w_log w ++ [Got r; Sent true rq] /\ q_uri rq = q_uri req /\
    q_auth rq = a ++ bs "uri=""" ++ s_uri (w_s w) ++ bs """" ++ b.
Proof.
  intros Q C P U D B. unfold handle_response. cbv zeta. cbn [note w_s]. rewrite Q. destruct (p_code r =? 401) eqn:E; [|lia].
  unfold retry, authorize. cbn [upd_s note w_s set_queue s_uri s_user w_rand]. rewrite D, U. destruct (new_digest_fresh _ _ _ D) as [_ DU].
  destruct (authenticate d user pass (hd [] (w_rand w))) as [d' text] eqn:EA. destruct (authenticate_uri _ _ _ _ _ _ B EA) as (B' & a & b & ->).
  unfold call_auth. cbn [w_s set_auth s_auth]. unfold auth_call. rewrite B'. destruct (digest_response d' (q_verb req) []) as [d2 out2].
  unfold enqueue. cbv zeta. cbn [q_verb q_uri q_auth q_header set_auth s_cseq s_session s_queue set_queue].
  unfold write, upd_s. cbn [w_s w_in w_writes w_listens w_rand w_log note set_queue set_auth s_proto]. destruct (s_proto (w_s w) =? ProtoHTTP) eqn:EP; [lia|]. cbv zeta.
  destruct (w_writes w) as [|[e|] ?]; cbn iota; do 3 eexists; exists a, (b ++ out2); (split; [reflexivity|]);
    cbn [w_log]; (split; [rewrite <- app_assoc; reflexivity|]); cbn [q_uri q_auth]; (split; [reflexivity|]); rewrite DU, <- !app_assoc; reflexivity.
Qed.

(* ---- RTSP over HTTP: nothing is ever sent ---- *)
Definition arrived (log : list effect) : Prop := Forall (fun e => match e with Got _ | Delivered _ _ => True | _ => False end) log.
Definition http_idle (w : world) : Prop :=
  s_conn (w_s w) = true /\ s_proto (w_s w) = ProtoHTTP /\ s_queue (w_s w) = [] /\ s_feeds (w_s w) = [] /\ s_stage (w_s w) = 0 /\ arrived (w_log w).

Lemma command_http w verb uri hs : s_conn (w_s w) = true -> s_proto (w_s w) = ProtoHTTP ->
  exists w', command w verb uri hs = (w', Panic) /\ w_log w' = w_log w.
Proof.
  intros C P. unfold command. rewrite C. cbn [negb]. cbv zeta. destruct (call_auth (w_s w) verb) as [s1 auth] eqn:A. destruct (call_auth_frame _ _ _ _ A) as (a & -> & _).
  unfold enqueue. cbv zeta beta iota. unfold write, upd_s. cbn [w_s w_log set_queue set_cseq set_auth s_proto]. rewrite P, Z.eqb_refl. eexists. split; reflexivity.
Qed.

Lemma arrived_snoc l e : arrived l -> match e with Got _ | Delivered _ _ => True | _ => False end -> arrived (l ++ [e]).
Proof. intros A E. apply Forall_app. split; [exact A|]. constructor; [exact E|constructor]. Qed.

Lemma receive_http_idle w w' o : http_idle w -> receive w = (w', o) -> http_idle w'.
Proof.
  intros H. unfold receive.
  assert (Z : forall s x, (upd_in w s, x) = (w', o) -> http_idle w') by (intros s x E; inversion E; subst; exact H).
  assert (HU : forall s1, (let '(s1, x) := (s1 : stream * res response) in match x with Ok r => handle_response (upd_in w s1) r | Err e => (upd_in w s1, Err e) | Panic => (upd_in w s1, Panic) | Fuel => (upd_in w s1, Fuel) end) = (w', o) -> http_idle w').
  { intros [s1 [r|e| |]]; try apply Z. unfold handle_response. cbv zeta. destruct H as (H1 & H2 & H3 & H4 & H5 & H6). cbn [note upd_in w_s]. rewrite H3. cbn [qget]. intros E. inversion E; subst.
    unfold http_idle. cbn [w_s w_log]. splits; try assumption. apply arrived_snoc; [exact H6|exact I]. }
  assert (HF : forall s0, match read_byte s0 with
      | (s1, Ok ch) => match read_uint16 s1 with
          | (s2, Ok len) => match read_bytes len s2 with (s3, Ok p) => (note (upd_in w s3) (Delivered ch p), Ok tt) | (s3, Err e) => (upd_in w s3, Err e) | (s3, Panic) => (upd_in w s3, Panic) | (s3, Fuel) => (upd_in w s3, Fuel) end
          | (s2, Err e) => (upd_in w s2, Err e) | (s2, Panic) => (upd_in w s2, Panic) | (s2, Fuel) => (upd_in w s2, Fuel) end
      | (s1, Err e) => (upd_in w s1, Err e) | (s1, Panic) => (upd_in w s1, Panic) | (s1, Fuel) => (upd_in w s1, Fuel) end = (w', o) -> http_idle w').
  { intros s0. destruct (read_byte s0) as [s1 [ch|e| |]]; try apply Z. destruct (read_uint16 s1) as [s2 [len|e| |]]; try apply Z. destruct (read_bytes len s2) as [s3 [p|e| |]]; try apply Z.
    intros E. inversion E; subst. destruct H as (H1 & H2 & H3 & H4 & H5 & H6). unfold http_idle. cbn [note upd_in w_s w_log]. splits; try assumption. apply arrived_snoc; [exact H6|exact I]. }
  destruct (peek 1 (w_in w)) as [s0 [b|e| |]]; try apply Z.
  destruct b as [|x b]; [apply (HU (unpack_response s0))|].
  destruct (Z.eq_dec x 36) as [->|N]; [destruct b; [apply HF|apply (HU (unpack_response s0))]|].
  intros E. apply (HU (unpack_response s0)). revert E.
  destruct x as [|p|p]; try (intros E; exact E). repeat (destruct p as [p|p|]; try (intros E; exact E)). exfalso. apply N. reflexivity.
Qed.

Lemma run_http es : forall w l w' l', (l <> Dead -> http_idle w) -> arrived (w_log w) -> run (w, l) es = (w', l') -> arrived (w_log w').
Proof.
  induction es as [|e es IH]; intros w l w' l' H A E; cbn [run fold_left] in E; [inversion E; subst; exact A|].
  destruct (step (w, l) e) as [w1 l1] eqn:S. apply (IH w1 l1 w' l'); [| |exact E]; clear IH E.
  all: destruct l; [| |cbn [step] in S; inversion S; subst; auto].
  all: specialize (H ltac:(discriminate)); assert (HH := H); destruct HH as (H1 & H2 & H3 & H4 & H5 & H6).
  all: assert (DC : forall c w2 o2, do_cmd w c = (w2, o2) -> (o2 = Panic /\ w_log w2 = w_log w) \/ (w2 = w /\ o2 = Ok tt)).
  1,3,5,7: intros c w2 o2 D; destruct c; cbn [do_cmd] in D; unfold options, describe, play, pause, teardown, with_conn in D; rewrite ?H1 in D;
    try (match type of D with command ?w ?v ?u ?h = _ => destruct (command_http w v u h H1 H2) as (w3 & E3 & L3); rewrite E3 in D; inversion D; subst; left; split; [reflexivity|exact L3] end);
    [unfold setup in D; rewrite H4 in D; cbn [setup_from] in D; inversion D; right; split; reflexivity
    |unfold keepalive, with_conn in D; rewrite H1, H2 in D; cbn [negb andb] in D; inversion D; right; split; reflexivity].
  all: destruct e as [c|t1 t2]; cbn [step] in S.
  all: try (destruct (do_cmd w c) as [w2 o2] eqn:D; destruct (DC _ _ _ D) as [[-> L2]|[-> ->]]; inversion S; subst; [try (intros N; contradiction); rewrite ?L2; exact H6|try intros _; assumption]).
  all: try (inversion S; subst; try intros _; assumption).
  all: unfold turn, keepalive, with_conn in S; rewrite H1, H2 in S; change (ProtoHTTP =? ProtoHTTP) with true in S; cbn [negb andb] in S;
    destruct (receive w) as [w2 o2] eqn:R; apply receive_http_idle in R; [|exact H]; destruct o2 as [u|er| |]; try (destruct (is_timeout er)); inversion S; subst;
    try intros _; try exact R; apply R.
Qed.

Lemma run_all_legal proto w es w' l' : opened w proto -> run (w, Live) es = (w', l') -> all_legal proto (w_log w').
Proof.
  intros O E. destruct (Z.eq_dec proto ProtoHTTP) as [->|P].
  - assert (A : arrived (w_log w')).
    { destruct O as (user & uri & Es & El). apply (run_http es w Live w' l'); [|rewrite El; constructor|exact E]. intros _. unfold http_idle. rewrite Es, El. splits; try reflexivity. constructor. }
    intros l1 e l2 X. rewrite X in A. apply Forall_elt in A.
    split; [|intros t1 t2 ->; destruct A]. destruct e; try destruct A; repeat split; exact I.
  - destruct (run_legal _ _ _ _ _ P O E) as (c & _ & L). exact L.
Qed.

(* ---- reading the log ---- *)
Lemma last_stage_app a b : last_stage (a ++ b) = fold_left (fun st e => match e with Notified st' => st' | _ => st end) b (last_stage a).
Proof. unfold last_stage. apply fold_left_app. Qed.

Lemma alive_dec e : (exists x y, e = Alive x y) \/ (forall x y, e <> Alive x y).
Proof. destruct e; try (right; discriminate). left. eauto. Qed.
Lemma observe_last l t : o_last (observe l) = Some t <-> exists a t1 b, l = a ++ Alive t1 t :: b /\ forall x y, ~ In (Alive x y) b.
Proof.
  revert t. induction l as [|e l IH] using rev_ind; intros t.
  { split; [discriminate|]. intros (a & t1 & b & X & _). destruct a; discriminate. }
  rewrite observe_snoc.
  assert (K : (forall x y, e <> Alive x y) -> o_last (observe1 (observe l) e) = o_last (observe l)).
  { intros N. destruct e; try reflexivity; [|exfalso; eapply N; reflexivity]. cbn [observe1]. destruct (o_pending (observe l) (p_cseq r)); reflexivity. }
  destruct (alive_dec e) as [(x & y & ->)|N].
  - cbn [observe1 o_last]. split.
    + intros X. inversion X; subst. exists l, x, []. split; [reflexivity|intros ? ? []].
    + intros (a & t1 & b & X & NB). destruct (list_last_dec b) as [->|(b' & z & ->)].
      * apply app_inj_tail in X as [-> X]. inversion X; subst. reflexivity.
      * rewrite app_comm_cons, app_assoc in X. apply app_inj_tail in X as [-> <-]. exfalso. apply (NB x y). apply in_or_app. right. left. reflexivity.
  - rewrite (K N), IH. split.
    + intros (a & t1 & b & -> & NB). exists a, t1, (b ++ [e]). rewrite <- app_assoc. split; [reflexivity|]. intros x y X. apply in_app_or in X as [X|[X|[]]]; [eapply NB; exact X|eapply N; exact X].
    + intros (a & t1 & b & X & NB). destruct (list_last_dec b) as [->|(b' & z & ->)].
      * apply app_inj_tail in X as [-> X]. exfalso. eapply N. exact X.
      * rewrite app_comm_cons, app_assoc in X. apply app_inj_tail in X as [-> <-]. exists a, t1, b'. split; [reflexivity|]. intros x y X. apply (NB x y). apply in_or_app. left. exact X.
Qed.

Definition brings_no_id (r : response) : Prop := p_code r = 401 \/ header_get (p_header r) (bs "Session") = [].
Lemma observe_id_keep b : forall a, (forall r, In (Got r) b -> brings_no_id r) -> o_id (observe (a ++ b)) = o_id (observe a).
Proof.
  induction b as [|e b IH]; intros a N; [rewrite app_nil_r; reflexivity|]. change (e :: b) with ([e] ++ b). rewrite app_assoc, IH.
  - rewrite observe_snoc. destruct e; try reflexivity. cbn [observe1]. destruct (o_pending (observe a) (p_cseq r)); [|reflexivity]. cbv zeta. cbn [o_id].
    destruct (N r (or_introl eq_refl)) as [C|C]; rewrite C; [reflexivity|]. rewrite orb_true_r. reflexivity.
  - intros r X. apply (N r). right. exact X.
Qed.

Lemma id_after a r b : outstanding a (p_cseq r) -> p_code r <> 401 -> header_get (p_header r) (bs "Session") <> [] -> (forall r', In (Got r') b -> brings_no_id r') ->
  o_id (observe (a ++ Got r :: b)) = id_of (header_get (p_header r) (bs "Session")).
Proof.
  intros O C S N. change (Got r :: b) with ([Got r] ++ b). rewrite app_assoc, observe_id_keep by exact N. rewrite observe_snoc. cbn [observe1].
  apply observe_outstanding in O. destruct (o_pending (observe a) (p_cseq r)); [|contradiction]. cbv zeta. cbn [o_id].
  destruct (p_code r =? 401) eqn:E; [lia|]. destruct (header_get (p_header r) (bs "Session")) as [|x v] eqn:E2; [contradiction|]. reflexivity.
Qed.

Lemma not_outstanding_after a r b k : p_cseq r = k -> (forall again rq, In (Sent again rq) b -> q_cseq rq <> k) -> ~ outstanding (a ++ Got r :: b) k.
Proof.
  intros K N (a' & ag & rq & b' & E & Q & NG).
  assert (X : forall (l1 l2 : list effect) m1 m2 x y, l1 ++ x :: l2 = m1 ++ y :: m2 -> (exists t, m1 = l1 ++ t /\ x :: l2 = t ++ y :: m2) \/ (exists t, l1 = m1 ++ y :: t)).
  { induction l1 as [|z l1 IH]; intros l2 m1 m2 x y H.
    - left. exists m1. split; [reflexivity|exact H].
    - destruct m1 as [|u m1]; cbn [app] in H.
      + injection H as -> _. right. exists l1. reflexivity.
      + injection H as -> H. destruct (IH _ _ _ _ _ H) as [(t & -> & T)|(t & ->)]; [left; exists t; split; [reflexivity|exact T]|right; exists t; reflexivity]. }
  destruct (X _ _ _ _ _ _ E) as [(t & -> & T)|(t & ->)].
  - destruct t as [|u t]; [discriminate T|]. cbn [app] in T. injection T as _ T. apply (N ag rq); [|exact Q]. rewrite T. apply in_or_app. right. left. reflexivity.
  - rewrite <- app_assoc in E. apply app_inv_head in E. cbn [app] in E. injection E as E. apply (NG r); [|exact K]. rewrite <- E. apply in_or_app. right. left. reflexivity.
Qed.

Lemma unsolicited proto w es w' l' r : proto <> ProtoHTTP -> opened w proto -> run (w, Live) es = (w', l') -> ~ outstanding (w_log w') (p_cseq r) ->
  handle_response w' r = (note w' (Got r), Err ErrBadResponse).
Proof.
  intros P O E N. destruct (run_legal _ _ _ _ _ P O E) as (c & (A & _) & _). unfold handle_response. cbv zeta. cbn [note w_s]. cbn [fst] in A.
  rewrite <- A. destruct (o_pending (observe (w_log w')) (p_cseq r)) eqn:X; [|reflexivity]. exfalso. apply N. apply observe_outstanding. congruence.
Qed.

Lemma handled_two w a b : snd (handle_response w a) = Ok tt -> snd (handle_response (fst (handle_response w a)) b) = Ok tt ->
  handled w [a; b] (fst (handle_response (fst (handle_response w a)) b)).
Proof.
  intros A B. destruct (handle_response w a) as [w1 o1] eqn:E1. cbn [fst snd] in *. subst. destruct (handle_response w1 b) as [w2 o2] eqn:E2. cbn [fst snd] in *. subst.
  econstructor; [exact E1|]. econstructor; [exact E2|]. constructor.
Qed.
