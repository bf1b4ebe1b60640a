(* What the SETUP requests of a session ask for. *)
From Coq Require Import String.
From Verif Require Import Base GoStrings S_message M_message S_transport M_transport M_sdp M_sps M_session S_session L_base L_strings L_transport L_message L_session L_flow S_ports.

Lemma asks_app a b : asks (a ++ b) = asks a ++ asks b.
Proof. apply flat_map_app. Qed.

Lemma setup_asks todo : forall w i w' o, s_conn (w_s w) = true -> s_proto (w_s w) <> ProtoHTTP -> setup_from w i todo = (w', o) ->
  exists k, (k <= length todo)%nat /\ asks (w_log w') = asks (w_log w) ++ firstn k (map (fun f => transport_string (fd_transp f)) todo) /\ (o = Ok tt -> k = length todo).
Proof.
  induction todo as [|f todo IH]; intros w i w' o C P E; cbn [setup_from] in E.
  { inversion E; subst. exists 0%nat. cbn [firstn map length]. rewrite app_nil_r. splits; [lia|reflexivity|reflexivity]. }
  destruct (setup_uri (w_s w) (m_control (fd_media f))) as [uri|e| |];
    try (inversion E; subst; exists 0%nat; cbn [firstn]; rewrite app_nil_r; splits; [cbn [length]; lia|reflexivity|discriminate]).
  destruct (command_exact w (bs "SETUP") uri [(bs "Transport", transport_string (fd_transp f))] C P) as (rq & w1 & o1 & EC & L1 & V & _ & H & _ & _ & _ & _ & Q4 & Q5 & Q6 & Q7 & _).
  assert (A : asks (w_log w1) = asks (w_log w) ++ [transport_string (fd_transp f)]).
  { rewrite L1, asks_app. cbn [asks flat_map app]. rewrite V, H. reflexivity. }
  rewrite EC in E. destruct o1 as [u|e| |];
    try (inversion E; subst; exists 1%nat; rewrite A; splits; [cbn [length]; lia|reflexivity|discriminate]).
  apply IH in E.
  - destruct E as (k & K & A' & O). exists (S k). cbn [length map firstn]. splits; [lia| |intros X; rewrite (O X); reflexivity].
    rewrite A'. replace (w_log (upd_s w1 (mark_feed i))) with (w_log w1) by reflexivity. rewrite A, <- app_assoc. reflexivity.
  - unfold upd_s, mark_feed. cbn [w_s]. destruct (nth_error _ _); cbn [set_feeds s_conn]; rewrite Q6; exact C.
  - unfold upd_s, mark_feed. cbn [w_s]. destruct (nth_error _ _); cbn [set_feeds s_proto]; rewrite Q7; exact P.
Qed.

Lemma make_feeds_length proto ms : forall i, length (make_feeds proto i ms) = length ms.
Proof. induction ms as [|m ms IH]; intros i; [reflexivity|]. cbn [make_feeds length]. rewrite IH. reflexivity. Qed.
Lemma make_feeds_texts proto l : In proto [ProtoTCP; ProtoUnicast; ProtoMulticast] -> forall i n, Z.of_nat n < 2 ^ 61 -> (i + length l)%nat = n ->
  map (fun f => transport_string (fd_transp f)) (make_feeds proto (Z.of_nat i) l) = map (fun k => request_text proto (Z.of_nat k)) (seq i (length l)).
Proof.
  intros P. induction l as [|m l IH]; intros i n N L; [reflexivity|]. cbn [make_feeds map length seq fd_transp].
  replace (Z.of_nat i + 1) with (Z.of_nat (S i)) by lia. cbn [length] in L. rewrite (IH (S i) n N) by lia. f_equal.
  assert (T : nth_error (feed_transports proto n) i = Some (new_transport proto (Z.of_nat i * 2))).
  { unfold feed_transports. rewrite nth_error_map, (nth_error_nth' (seq 0 n) 0%nat) by (rewrite seq_length; lia). rewrite seq_nth by lia. reflexivity. }
  destruct (offer_texts proto n i _ N T) as (T1 & T2 & T3). unfold request_text.
  destruct P as [<-|[<-|[<-|[]]]].
  - apply T1. left. reflexivity.
  - apply T2. reflexivity.
  - apply T3. reflexivity.
Qed.

Lemma describe_asks w r body ms w' o : described w r body -> In (s_proto (w_s w)) [ProtoTCP; ProtoUnicast; ProtoMulticast] ->
  sdp_parse body = Ok ms -> zlen ms < 2 ^ 61 -> handle_response w r = (w', o) ->
  exists k, (k <= length ms)%nat /\ asks (w_log w') = asks (w_log w) ++ map (fun i => request_text (s_proto (w_s w)) (Z.of_nat i)) (seq 0 k) /\ (o = Ok tt -> k = length ms).
Proof.
  intros (C & N4 & B & rq & Q & V) P D L E. unfold handle_response in E. cbv zeta in E. cbn [note w_s] in E. rewrite Q in E. destruct (p_code r =? 401) eqn:E4; [lia|].
  set (w0 := upd_s (upd_s (note w (Got r)) (fun s => set_queue s (qdel (s_queue s) (p_cseq r)))) (fun s => learn_session s r)) in E.
  assert (G : s_conn (w_s w0) = s_conn (w_s w) /\ s_proto (w_s w0) = s_proto (w_s w)).
  { unfold w0, upd_s. cbn [w_s note]. unfold learn_session. destruct (beq _ _); split; reflexivity. }
  assert (A : asks (w_log w0) = asks (w_log w)). { unfold w0, upd_s, note. cbn [w_log]. rewrite asks_app. cbn [asks flat_map]. apply app_nil_r. }
  clearbody w0. destruct G as [G1 G2]. unfold react in E. rewrite V in E. change (beq (bs "DESCRIBE") (bs "OPTIONS")) with false in E. change (beq (bs "DESCRIBE") (bs "DESCRIBE")) with true in E. cbv iota in E.
  rewrite B in E. unfold parse_feeds in E. rewrite D in E. cbn [bind] in E. unfold setup in E.
  apply setup_asks in E.
  - destruct E as (k & K & AA & O). cbn [upd_s w_s set_feeds s_feeds] in K, AA, O. rewrite G2 in K, AA, O.
    assert (LF : length (make_feeds (s_proto (w_s w)) 0 ms) = length ms) by apply make_feeds_length.
    rewrite LF in K, O. exists k. splits; [exact K| |exact O]. rewrite AA. change (w_log (upd_s w0 (fun s => set_feeds s (make_feeds (s_proto (w_s w)) 0 ms)))) with (w_log w0). rewrite A. f_equal.
    change 0 with (Z.of_nat 0). rewrite (make_feeds_texts _ ms P 0 (length ms)) by (unfold zlen in L; lia). rewrite firstn_map. f_equal.
    clear - K. revert K. generalize 0%nat. generalize (length ms) as n. revert k. induction k as [|k IH]; intros n i K; [reflexivity|]. destruct n as [|n]; [lia|]. cbn [seq firstn]. f_equal. apply IH. lia.
  - cbn [upd_s w_s set_feeds s_conn]. rewrite G1. exact C.
  - cbn [upd_s w_s set_feeds s_proto]. rewrite G2. destruct P as [<-|[<-|[<-|[]]]]; discriminate.
Qed.

(* ---- whether an answer is accepted does not depend on the question ---- *)
Lemma parse_field_blind u v f : snd (parse_field u f) = snd (parse_field v f).
Proof.
  unfold parse_field. cbv zeta.
  repeat match goal with |- snd (if ?b then _ else _) = _ => destruct b; [try reflexivity|] end; try reflexivity;
  destruct (split2 61 f) as [|a [|x l]]; try reflexivity; try (destruct (parse_pair x); reflexivity); destruct (atoi x); reflexivity.
Qed.
Lemma parse_fields_blind l : forall u v, snd (parse_fields u l) = snd (parse_fields v l).
Proof.
  induction l as [|f l IH]; intros u v; [reflexivity|]. cbn [parse_fields]. pose proof (parse_field_blind u v f) as B.
  destruct (parse_field u f) as [u' e], (parse_field v f) as [v' e']. cbn [snd] in B. subst e'. destruct e; [reflexivity|apply IH].
Qed.

(* a SETUP answered with a transport that leaves the stream on the connection *)
Lemma accept_one w r req pre f post tr tf :
  s_feeds (w_s w) = pre ++ f :: post -> fd_cseq f = p_cseq r -> Forall (fun g => fd_cseq g <> p_cseq r) (pre ++ post) ->
  qget (s_queue (w_s w)) (p_cseq r) = Some req -> q_verb req = bs "SETUP" -> p_code r = 200 ->
  transport_parse (fd_transp f) (header_get (p_header r) (bs "Transport")) = (tr, None) -> t_tcp tr = true ->
  parse_sprops (fd_sets f) (m_sprops (fd_media f)) = (tf, Ok tt) ->
  exists w', handle_response w r = (w', Ok tt) /\ s_sinks (w_s w') = s_sinks (w_s w) /\
    s_feeds (w_s w') = pre ++ mkFeed (fd_media f) tr (fd_cseq f) true tf :: post /\
    w_log w' = w_log w ++ [Got r] ++ (if i64 (s_feedidx (w_s w) + 1) >=? zlen (s_feeds (w_s w)) then [Notified 1; Started] else []).
Proof.
  intros F C FA Q V K T TC SP. unfold handle_response. cbv zeta. cbn [note w_s]. rewrite Q. destruct (p_code r =? 401) eqn:E4; [lia|].
  set (w0 := upd_s (upd_s (note w (Got r)) (fun s => set_queue s (qdel (s_queue s) (p_cseq r)))) (fun s => learn_session s r)).
  assert (G : s_feeds (w_s w0) = s_feeds (w_s w) /\ s_feedidx (w_s w0) = s_feedidx (w_s w) /\ s_sinks (w_s w0) = s_sinks (w_s w)).
  { unfold w0, upd_s. cbn [w_s note]. unfold learn_session. destruct (beq _ _); splits; reflexivity. }
  assert (L0 : w_log w0 = w_log w ++ [Got r]) by reflexivity.
  clearbody w0. destruct G as (F1 & F2 & F3).
  unfold react. rewrite V. change (beq (bs "SETUP") (bs "OPTIONS")) with false. change (beq (bs "SETUP") (bs "DESCRIBE")) with false. change (beq (bs "SETUP") (bs "PAUSE")) with false.
  change (beq (bs "SETUP") (bs "PLAY")) with false. change (beq (bs "SETUP") (bs "TEARDOWN")) with false. change (beq (bs "SETUP") (bs "SETUP")) with true. cbv iota.
  unfold handle_setup. destruct (p_code r =? 200) eqn:E2; [|lia].
  apply Forall_app in FA as [FA1 FA2]. rewrite F1, F, setup_feeds_skip_app by exact FA1. cbn [setup_feeds]. rewrite C, Z.eqb_refl. cbv zeta.
  unfold transport_setup. rewrite T, SP. cbn [fd_transp]. rewrite TC.
  rewrite setup_feeds_skip by exact FA2. cbn [upd_s w_s put_feed set_feeds set_feedidx s_feedidx s_feeds]. rewrite F1, F2, F.
  assert (U : forall x, upd (pre ++ f :: post) (0 + length pre) x = pre ++ x :: post).
  { intros x. clear. induction pre as [|p pre IH]; [reflexivity|]. cbn [app length Nat.add upd] in *. rewrite IH. reflexivity. }
  rewrite U, C. replace (zlen (pre ++ mkFeed (fd_media f) tr (p_cseq r) true tf :: post)) with (zlen (pre ++ f :: post)) by (unfold zlen; rewrite !app_length; reflexivity).
  destruct (_ >=? _); eexists; (split; [reflexivity|]); cbn [note notify upd_s w_log w_s set_stage set_sinks put_feed set_feeds set_feedidx s_sinks s_feeds];
    rewrite ?F1, ?F, ?U, L0, <- ?app_assoc; splits; try exact F3; reflexivity.
Qed.

(* ---- a parameter that needs a value and has none ---- *)
Lemma parse_fields_app pre : forall u l, parse_fields u (pre ++ l) = match parse_fields u pre with (t, None) => parse_fields t l | (t, Some e) => (t, Some e) end.
Proof.
  induction pre as [|f pre IH]; intros u l; [reflexivity|]. cbn [app parse_fields]. destruct (parse_field u f) as [t [e|]]; [reflexivity|apply IH].
Qed.
Lemma bare_field u pre post field : Forall (fun f => ~ In 59 f) (pre ++ field :: post) -> snd (transport_parse u (join 59 pre)) = None -> ~ In 61 field ->
  In (to_lower field) [bs "destination"; bs "source"; bs "interleaved"; bs "layers"; bs "ttl"; bs "port"; bs "client_port"; bs "server_port"; bs "ssrc"; bs "mode"] ->
  snd (transport_parse u (join 59 (pre ++ field :: post))) = Some ErrMalformedTransport.
Proof.
  intros F A N K. unfold transport_parse in *. rewrite split_join by (exact F || (destruct pre; discriminate)). rewrite parse_fields_app.
  assert (X : exists t, parse_fields u pre = (t, None)).
  { destruct pre as [|p pre]; [eexists; reflexivity|]. rewrite split_join in A by (discriminate || (apply Forall_app in F; exact (proj1 F))).
    destruct (parse_fields u (p :: pre)) as [t e]. cbn [snd] in A. subst e. eexists. reflexivity. }
  destruct X as (t & ->). cbn [parse_fields].
  assert (Y : exists t', parse_field t field = (t', Some ErrMalformedTransport)).
  { unfold parse_field. cbv zeta. unfold split2. rewrite (cut_none 61 field N). cbn [hd].
    repeat (destruct K as [<-|K]; [eexists; reflexivity|]). destruct K. }
  destruct Y as (t' & ->). reflexivity.
Qed.
