(* The command-line client takes each of its steps once. *)
From Coq Require Import String.
From Verif Require Import Base GoStrings M_conn M_message M_transport M_sdp M_digest M_sps M_rtp S_nal M_nal M_session S_session M_main S_main S_steps L_base L_session L_flow L_serve L_main.
From Coq Require Import ZifyBool ZifyNat.
Local Opaque digest_response.

(* ---- the queue ---- *)
Definition qall (v : bytes) (m : Z) (q : list (Z * request)) : Prop := zlen q <= m /\ Forall (fun e => q_verb (snd e) = v /\ fst e <> 0) q.
Lemma qget_in q k r : qget q k = Some r -> In (k, r) q.
Proof. induction q as [|[a x] q IH]; cbn [qget]; [discriminate|]. destruct (a =? k) eqn:E; [intros [= ->]; left; f_equal; lia|right; auto]. Qed.
Lemma qdel_le q k : zlen (qdel q k) <= zlen q.
Proof. induction q as [|[a x] q IH]; cbn [qdel filter]; [lia|]. unfold qdel in IH. destruct (negb _); rewrite !zlen_cons; lia. Qed.
Lemma qdel_got q k r : qget q k = Some r -> zlen (qdel q k) <= zlen q - 1.
Proof.
  induction q as [|[a x] q IH]; cbn [qget qdel filter fst]; [discriminate|]. destruct (a =? k) eqn:E; cbn [negb].
  - intros _. pose proof (qdel_le q k) as Q. unfold qdel in Q. rewrite zlen_cons. lia.
  - intros G. specialize (IH G). unfold qdel in IH. rewrite !zlen_cons. lia.
Qed.
Lemma qall_del v m q k r : qall v m q -> qget q k = Some r -> qall v (m - 1) (qdel q k) /\ q_verb r = v /\ k <> 0.
Proof.
  intros [L F] G. pose proof (qdel_got q k r G). splits.
  - split; [lia|]. rewrite Forall_forall in *. intros e I. apply filter_In in I as [I _]. exact (F e I).
  - rewrite Forall_forall in F. exact (proj1 (F (k, r) (qget_in _ _ _ G))).
  - rewrite Forall_forall in F. exact (proj2 (F (k, r) (qget_in _ _ _ G))).
Qed.
Lemma qall_set v m q k r : qall v m q -> q_verb r = v -> k <> 0 -> qall v (m + 1) (qset q k r).
Proof.
  intros [L F] V K. unfold qall, qset. rewrite zlen_cons. pose proof (qdel_le q k). split; [lia|]. constructor; [auto|].
  rewrite Forall_forall in *. intros e I. apply filter_In in I as [I _]. exact (F e I).
Qed.
Lemma qall_nil v q : qall v 0 q -> q = [].
Proof. intros [L _]. destruct q; [reflexivity|]. rewrite zlen_cons in L. pose proof (zlen_nonneg q). lia. Qed.

(* ---- what stays ---- *)
Definition tcp (w : world) : Prop := s_conn (w_s w) = true /\ s_proto (w_s w) = ProtoTCP.

Lemma command_step w verb u hs w' o : tcp w -> command w verb u hs = (w', o) ->
  exists rq, w_log w' = w_log w ++ [Sent false rq] /\ q_verb rq = verb /\ s_queue (w_s w') = qset (s_queue (w_s w)) (i64 (s_cseq (w_s w) + 1)) rq /\
    s_cseq (w_s w') = i64 (s_cseq (w_s w) + 1) /\ s_feeds (w_s w') = s_feeds (w_s w) /\ s_feedidx (w_s w') = s_feedidx (w_s w) /\ tcp w'.
Proof.
  intros [C P]. unfold command. rewrite C. cbn [negb]. cbv zeta. destruct (call_auth (w_s w) verb) as [s1 auth] eqn:A.
  destruct (call_auth_frame _ _ _ _ A) as (a & -> & _). unfold enqueue. cbv zeta beta iota. unfold write, upd_s. cbn [w_s w_in w_writes w_listens w_rand w_log set_auth set_cseq set_queue s_proto s_queue s_cseq s_session].
  rewrite P. change (ProtoTCP =? ProtoHTTP) with false. cbv iota zeta. intros E.
  eexists. destruct (w_writes w) as [|[e|] ws]; inversion E; subst; cbn [w_log w_s s_queue s_cseq s_feeds s_feedidx tl]; splits; try reflexivity; split; assumption.
Qed.

Lemma retry_step w req r w' o v m : tcp w -> s_cseq (w_s w) <> 0 -> qall v m (s_queue (w_s w)) -> q_verb req = v -> retry w req r = (w', o) ->
  qall v (m + 1) (s_queue (w_s w')) /\ s_cseq (w_s w') = s_cseq (w_s w) /\ s_feeds (w_s w') = s_feeds (w_s w) /\ s_feedidx (w_s w') = s_feedidx (w_s w) /\ tcp w' /\
  exists new, w_log w' = w_log w ++ new /\ verbs_asked new = [] /\ stages_in new = [].
Proof.
  intros [C P] Z0 Q V. unfold retry, authorize.
  assert (K : qall v (m + 1) (s_queue (w_s w))) by (destruct Q as [L F]; split; [lia|exact F]).
  assert (D : forall x : res unit, (w, x) = (w', o) -> qall v (m + 1) (s_queue (w_s w')) /\ s_cseq (w_s w') = s_cseq (w_s w) /\ s_feeds (w_s w') = s_feeds (w_s w) /\ s_feedidx (w_s w') = s_feedidx (w_s w) /\ tcp w' /\
    exists new, w_log w' = w_log w ++ new /\ verbs_asked new = [] /\ stages_in new = []).
  { intros x E. inversion E; subst. splits; try reflexivity; try assumption; [exact (conj C P)|]. exists []. rewrite app_nil_r. splits; reflexivity. }
  destruct (new_digest _ _) as [d|e| |]; try apply D. destruct (s_user (w_s w)) as [[user pass]|]; [|apply D].
  destruct (authenticate d user pass (hd [] (w_rand w))) as [d' text]. cbv beta iota. unfold call_auth. cbn [set_auth s_auth w_s].
  destruct (auth_call text d' (q_verb req) []) as [d2 out]. unfold enqueue. cbv zeta beta iota. unfold write, upd_s. cbn [w_s w_in w_writes w_listens w_rand w_log set_auth set_queue s_proto s_queue s_cseq s_session q_verb].
  rewrite P. change (ProtoTCP =? ProtoHTTP) with false. cbv iota zeta. intros E.
  destruct (w_writes w) as [|[e|] ws]; inversion E; subst; cbn [w_log w_s s_queue s_cseq s_feeds s_feedidx tl]; splits; try reflexivity; try (split; assumption);
    try (match goal with |- context [qset ?q ?k ?x] => pose proof (qall_set (q_verb req) m q k x Q eq_refl Z0) as W; exact (proj1 W) || exact (proj2 W) || exact W end);
    try (eexists; splits; [reflexivity|reflexivity|reflexivity]).
Qed.

Lemma verbs_asked_app a b : verbs_asked (a ++ b) = verbs_asked a ++ verbs_asked b.
Proof. apply flat_map_app. Qed.
Lemma stages_in_app a b : stages_in (a ++ b) = stages_in a ++ stages_in b.
Proof. apply flat_map_app. Qed.
(* more of the log, with these requests and these stages *)
Definition logged (w w' : world) (vs : list bytes) (ss : list Z) : Prop := exists new, w_log w' = w_log w ++ new /\ verbs_asked new = vs /\ stages_in new = ss.
Lemma logged_refl w w' : w_log w' = w_log w -> logged w w' [] [].
Proof. intros E. exists []. rewrite app_nil_r. auto. Qed.
Lemma logged_trans w1 w2 w3 a b c d : logged w1 w2 a b -> logged w2 w3 c d -> logged w1 w3 (a ++ c) (b ++ d).
Proof. intros (n1 & L1 & <- & <-) (n2 & L2 & <- & <-). exists (n1 ++ n2). rewrite L2, L1, app_assoc, verbs_asked_app, stages_in_app. auto. Qed.
Lemma logged_more w1 w2 w3 vs ss : logged w1 w2 [] [] -> logged w2 w3 vs ss -> logged w1 w3 vs ss.
Proof. exact (logged_trans w1 w2 w3 [] [] vs ss). Qed.
Lemma logged_cmd w w' rq : w_log w' = w_log w ++ [Sent false rq] -> logged w w' [q_verb rq] [].
Proof. intros L. eexists. splits; [exact L|reflexivity|reflexivity]. Qed.

(* ---- the numbers of the streams ---- *)
Definition once (fs : list feed) : Prop := forall c, c <> 0 -> matching c (map fd_cseq fs) <= 1.
Definition upto (n : Z) (fs : list feed) : Prop := Forall (fun f => fd_cseq f <= n) fs.
Lemma matching_cons c x l : matching c (x :: l) = (if x =? c then 1 else 0) + matching c l.
Proof. unfold matching. cbn [filter]. destruct (x =? c); rewrite ?zlen_cons; lia. Qed.
Lemma matching_pos c l : 0 <= matching c l.
Proof. apply zlen_nonneg. Qed.
Lemma matching_upd c fs : forall i f, matching c (map fd_cseq (upd fs i f)) <= matching c (map fd_cseq fs) + (if fd_cseq f =? c then 1 else 0).
Proof.
  induction fs as [|g fs IH]; intros i f.
  - cbn. destruct (fd_cseq f =? c); lia.
  - destruct i as [|i]; cbn [upd map]; rewrite !matching_cons; [|specialize (IH i f)]; destruct (fd_cseq g =? c), (fd_cseq f =? c); lia.
Qed.
Lemma matching_above c n fs : upto n fs -> n < c -> matching c (map fd_cseq fs) = 0.
Proof.
  intros F H. induction F as [|f fs F1 F2 IH]; [reflexivity|]. cbn [map]. rewrite matching_cons, IH. destruct (fd_cseq f =? c) eqn:E; lia.
Qed.
Lemma upto_le n m fs : upto n fs -> n <= m -> upto m fs.
Proof. intros F H. eapply Forall_impl; [|exact F]. intros f B. cbn beta in B. lia. Qed.
Lemma upto_upd n fs i f : upto n fs -> fd_cseq f <= n -> upto n (upd fs i f).
Proof. unfold upto. intros F H. revert i. induction F as [|x fs F1 F2 IH]; intros [|i]; cbn [upd]; constructor; auto. Qed.
Lemma zlen_upd {A} (l : list A) i x : zlen (upd l i x) = zlen l.
Proof. unfold zlen. rewrite upd_length. reflexivity. Qed.

Lemma qall_le v m n q : qall v m q -> m <= n -> qall v n q.
Proof. intros [L F] H. split; [lia|exact F]. Qed.

Lemma setup_from_step todo : forall w i w' o m, tcp w -> 1 <= s_cseq (w_s w) -> s_cseq (w_s w) + zlen todo < 2 ^ 63 -> qall (bs "SETUP") m (s_queue (w_s w)) -> once (s_feeds (w_s w)) -> upto (s_cseq (w_s w)) (s_feeds (w_s w)) ->
  setup_from w i todo = (w', o) ->
  tcp w' /\ s_cseq (w_s w) <= s_cseq (w_s w') <= s_cseq (w_s w) + zlen todo /\ qall (bs "SETUP") (m + zlen todo) (s_queue (w_s w')) /\ once (s_feeds (w_s w')) /\ zlen (s_feeds (w_s w')) = zlen (s_feeds (w_s w)) /\
  s_feedidx (w_s w') = s_feedidx (w_s w) /\ exists k, logged w w' (repeat (bs "SETUP") k) [].
Proof.
  induction todo as [|f todo IH]; intros w i w' o m T C B Q O U E; cbn [setup_from] in E.
  { inversion E; subst. change (zlen []) with 0 in *. rewrite !Z.add_0_r. splits; try assumption; try reflexivity; try lia. exists 0%nat. apply logged_refl. reflexivity. }
  rewrite zlen_cons in *. pose proof (zlen_nonneg todo) as PT.
  assert (D : forall x : res unit, (w, x) = (w', o) -> tcp w' /\ s_cseq (w_s w) <= s_cseq (w_s w') <= s_cseq (w_s w) + (zlen todo + 1) /\ qall (bs "SETUP") (m + (zlen todo + 1)) (s_queue (w_s w')) /\ once (s_feeds (w_s w')) /\ zlen (s_feeds (w_s w')) = zlen (s_feeds (w_s w)) /\
    s_feedidx (w_s w') = s_feedidx (w_s w) /\ exists k, logged w w' (repeat (bs "SETUP") k) []).
  { intros x H. inversion H; subst. splits; try assumption; try reflexivity; try lia; [eapply qall_le; [eassumption|lia]|]. exists 0%nat. apply logged_refl. reflexivity. }
  destruct (setup_uri (w_s w) (m_control (fd_media f))) as [uri|e| |]; try (eapply D; exact E).
  destruct (command w (bs "SETUP") uri _) as [w1 o1] eqn:EC. apply command_step in EC as (rq & L1 & V & Q1 & C1 & F1 & I1 & T1); [|exact T].
  rewrite L_base.i64_small in Q1, C1 by lia. pose proof (qall_set (bs "SETUP") m _ (s_cseq (w_s w) + 1) rq Q V ltac:(lia)) as QS. rewrite <- Q1 in QS.
  apply logged_cmd in L1. rewrite V in L1.
  assert (D1 : forall x : res unit, (w1, x) = (w', o) -> tcp w' /\ s_cseq (w_s w) <= s_cseq (w_s w') <= s_cseq (w_s w) + (zlen todo + 1) /\ qall (bs "SETUP") (m + (zlen todo + 1)) (s_queue (w_s w')) /\ once (s_feeds (w_s w')) /\ zlen (s_feeds (w_s w')) = zlen (s_feeds (w_s w)) /\
    s_feedidx (w_s w') = s_feedidx (w_s w) /\ exists k, logged w w' (repeat (bs "SETUP") k) []).
  { intros x H. inversion H; subst w' x. rewrite F1, I1, C1. splits; try assumption; try reflexivity; try lia; [eapply qall_le; [exact QS|lia]|]. exists 1%nat. exact L1. }
  destruct o1 as [u|e| |]; try (eapply D1; exact E). clear D D1.
  set (w2 := upd_s w1 (mark_feed i)) in *.
  assert (M : tcp w2 /\ s_cseq (w_s w2) = s_cseq (w_s w1) /\ s_queue (w_s w2) = s_queue (w_s w1) /\ s_feedidx (w_s w2) = s_feedidx (w_s w1) /\ once (s_feeds (w_s w2)) /\ upto (s_cseq (w_s w1)) (s_feeds (w_s w2)) /\ zlen (s_feeds (w_s w2)) = zlen (s_feeds (w_s w)) /\ w_log w2 = w_log w1).
  { unfold w2, upd_s, mark_feed, tcp in *. cbn [w_s w_log].
    assert (U1 : upto (s_cseq (w_s w1)) (s_feeds (w_s w1))) by (rewrite F1, C1; eapply upto_le; [exact U|lia]).
    destruct (nth_error (s_feeds (w_s w1)) i) as [g|] eqn:G; cbn [set_feeds s_conn s_proto s_cseq s_queue s_feedidx s_feeds]; splits; try reflexivity; try (apply T1); try exact U1; try (rewrite F1; exact O); try congruence.
    - intros c H. pose proof (matching_upd c (s_feeds (w_s w1)) i (mkFeed (fd_media g) (fd_transp g) (s_cseq (w_s w1)) (fd_set g) (fd_sets g))) as K. cbn [fd_cseq] in K.
      rewrite F1 in *. specialize (O c H). revert K. destruct (s_cseq (w_s w1) =? c) eqn:Ec; intros K; (eapply Z.le_trans; [exact K|]); [|clear - O; lia]. rewrite (matching_above c (s_cseq (w_s w))); [lia|exact U|lia].
    - apply upto_upd; [exact U1|]. cbn [fd_cseq]. lia.
    - rewrite zlen_upd. congruence. }
  destruct M as (M1 & M2 & M3 & M4 & M5 & M6 & M7 & M8). clearbody w2.
  apply (IH _ _ _ _ (m + 1)) in E; [|exact M1|lia|lia|rewrite M3; exact QS|exact M5|rewrite M2; exact M6].
  destruct E as (E1 & E2 & E3 & E4 & E5 & E6 & k & E7). splits; try assumption; try lia; try congruence; [eapply qall_le; [exact E3|lia]|].
  exists (S k). change (repeat (bs "SETUP") (S k)) with ([bs "SETUP"] ++ repeat (bs "SETUP") k). eapply (logged_trans _ w1 _ _ []); [exact L1|]. eapply logged_more; [|exact E7]. apply logged_refl. exact M8.
Qed.

Lemma add_sink_step w ch port w' o : add_sink w ch port = (w', o) ->
  s_conn (w_s w') = s_conn (w_s w) /\ s_proto (w_s w') = s_proto (w_s w) /\ s_cseq (w_s w') = s_cseq (w_s w) /\ s_feeds (w_s w') = s_feeds (w_s w) /\ s_feedidx (w_s w') = s_feedidx (w_s w) /\ s_queue (w_s w') = s_queue (w_s w) /\ logged w w' [] [].
Proof.
  unfold add_sink. destruct (w_listens w) as [|[e|] l]; intros E; inversion E; subst; splits; try reflexivity;
    first [exists [Listening ch port]; splits; reflexivity|apply logged_refl; reflexivity].
Qed.

Lemma setup_feeds_step todo : forall w cseq v i w' o,
  (forall n f, nth_error todo n = Some f -> nth_error (s_feeds (w_s w)) (i + n) = Some f) ->
  0 <= s_feedidx (w_s w) -> s_feedidx (w_s w) + matching cseq (map fd_cseq todo) < 2 ^ 63 -> tcp w ->
  setup_feeds w cseq v i todo = (w', o) ->
  tcp w' /\ map fd_cseq (s_feeds (w_s w')) = map fd_cseq (s_feeds (w_s w)) /\
  s_feedidx (w_s w) <= s_feedidx (w_s w') <= s_feedidx (w_s w) + matching cseq (map fd_cseq todo) /\
  s_queue (w_s w') = s_queue (w_s w) /\ s_cseq (w_s w') = s_cseq (w_s w) /\ logged w w' [] [].
Proof.
  induction todo as [|f todo IH]; intros w cseq v i w' o N B0 B T E; cbn [setup_feeds] in E.
  { inversion E; subst. cbn [map] in *. unfold matching. cbn [filter]. change (zlen []) with 0. splits; try reflexivity; try assumption; try lia. apply logged_refl. reflexivity. }
  cbn [map] in *. rewrite matching_cons in *. pose proof (matching_pos cseq (map fd_cseq todo)) as P.
  destruct (fd_cseq f =? cseq) eqn:EC.
  2:{ rewrite Z.add_0_l in *. eapply IH; [|exact B0|exact B|exact T|exact E]. intros n g H. rewrite Nat.add_succ_l, <- Nat.add_succ_r. apply N. exact H. }
  cbv zeta in E. destruct (transport_setup f v) as [f' o1] eqn:TS. apply transport_setup_cseq in TS as [TS _].
  set (w1 := upd_s (upd_s w (fun s => set_feedidx s (i64 (s_feedidx s + 1)))) (put_feed i f')) in *.
  pose proof (N 0%nat f eq_refl) as Nf. rewrite Nat.add_0_r in Nf.
  assert (F1 : s_feeds (w_s w1) = upd (s_feeds (w_s w)) i f') by reflexivity.
  assert (F2 : s_feedidx (w_s w1) = s_feedidx (w_s w) + 1) by (unfold w1, upd_s, put_feed; cbn [w_s set_feedidx set_feeds s_feedidx]; apply L_base.i64_small; lia).
  assert (F3 : s_queue (w_s w1) = s_queue (w_s w)) by reflexivity. assert (F4 : s_cseq (w_s w1) = s_cseq (w_s w)) by reflexivity. assert (F5 : w_log w1 = w_log w) by reflexivity. assert (F6 : tcp w1) by exact T.
  clearbody w1.
  assert (D : forall w2 (x : res unit), tcp w2 -> s_feeds (w_s w2) = s_feeds (w_s w1) -> s_feedidx (w_s w2) = s_feedidx (w_s w1) -> s_queue (w_s w2) = s_queue (w_s w1) -> s_cseq (w_s w2) = s_cseq (w_s w1) -> logged w1 w2 [] [] ->
    ((w2, x) = (w', o) \/ setup_feeds w2 cseq v (S i) todo = (w', o)) ->
    tcp w' /\ map fd_cseq (s_feeds (w_s w')) = map fd_cseq (s_feeds (w_s w)) /\
    s_feedidx (w_s w) <= s_feedidx (w_s w') <= s_feedidx (w_s w) + (1 + matching cseq (map fd_cseq todo)) /\
    s_queue (w_s w') = s_queue (w_s w) /\ s_cseq (w_s w') = s_cseq (w_s w) /\ logged w w' [] []).
  { intros w2 x H0 H1 H2 H3 H4 H5 [K|K].
    - inversion K; subst w' x. splits; try congruence; try assumption; try lia; [rewrite H1, F1; apply (upd_map_cseq _ _ f f' Nf TS)|]. eapply logged_more; [|exact H5]. apply logged_refl. exact F5.
    - apply IH in K; [| |lia|lia|exact H0].
      + destruct K as (K1 & K2 & K3 & K4 & K5 & K6). splits; try congruence; try assumption; try lia; [rewrite K2, H1, F1; apply (upd_map_cseq _ _ f f' Nf TS)|].
        eapply logged_more; [|exact K6]. eapply logged_more; [|exact H5]. apply logged_refl. exact F5.
      + intros n g H. rewrite H1, F1, nth_upd_other by lia. rewrite Nat.add_succ_l, <- Nat.add_succ_r. apply N. exact H. }
  assert (R1 : logged w1 w1 [] []) by (apply logged_refl; reflexivity).
  destruct o1 as [u|e| |]; try (eapply (D w1); try reflexivity; [exact F6|exact R1|left; exact E]).
  destruct (t_tcp (fd_transp f')). { eapply (D w1 (Ok tt)); try reflexivity; [exact F6|exact R1|right; exact E]. }
  match type of E with context [add_sink ?a ?b ?p] => destruct (add_sink a b p) as [w2 o2] eqn:E2 end.
  apply add_sink_step in E2 as (X0 & X1 & X2 & X3 & X4 & X5 & X6).
  assert (T2 : tcp w2) by (destruct F6; split; congruence).
  destruct o2 as [u2|e2| |]; try (eapply (D w2); [exact T2|congruence|congruence|congruence|congruence|exact X6|left; exact E]).
  match type of E with context [add_sink ?a ?b ?p] => destruct (add_sink a b p) as [w3 o3] eqn:E3 end.
  apply add_sink_step in E3 as (Y0 & Y1 & Y2 & Y3 & Y4 & Y5 & Y6).
  assert (T3 : tcp w3) by (destruct T2; split; congruence).
  pose proof (logged_more _ _ _ _ _ X6 Y6) as L3.
  destruct o3 as [u3|e3| |]; try (eapply (D w3); [exact T3|congruence|congruence|congruence|congruence|exact L3|left; exact E]).
  eapply (D w3 (Ok tt)); [exact T3|congruence|congruence|congruence|congruence|exact L3|right; exact E].
Qed.

(* ---- a response ---- *)
Lemma hr_cases w r w' o v m : tcp w -> s_cseq (w_s w) <> 0 -> qall v m (s_queue (w_s w)) -> handle_response w r = (w', o) ->
  (w_s w' = w_s w /\ logged w w' [] []) \/
  (1 <= m /\ qall v m (s_queue (w_s w')) /\ s_cseq (w_s w') = s_cseq (w_s w) /\ s_feeds (w_s w') = s_feeds (w_s w) /\ s_feedidx (w_s w') = s_feedidx (w_s w) /\ tcp w' /\ logged w w' [] []) \/
  (exists w1 req, q_verb req = v /\ p_cseq r <> 0 /\ 1 <= m /\ qall v (m - 1) (s_queue (w_s w1)) /\ s_cseq (w_s w1) = s_cseq (w_s w) /\ s_feeds (w_s w1) = s_feeds (w_s w) /\ s_feedidx (w_s w1) = s_feedidx (w_s w) /\
    tcp w1 /\ w_log w1 = w_log w ++ [Got r] /\ p_code r <> 401 /\ react w1 req r = (w', o)).
Proof.
  intros T C Q. unfold handle_response. cbv zeta. unfold note at 1. cbn [w_s].
  destruct (qget (s_queue (w_s w)) (p_cseq r)) as [req|] eqn:G.
  2:{ intros E. inversion E; subst. left. split; [reflexivity|]. exists [Got r]. splits; reflexivity. }
  destruct (qall_del _ _ _ _ _ Q G) as (Q1 & V & K).
  assert (M : 1 <= m) by (destruct Q1 as [L _]; pose proof (zlen_nonneg (qdel (s_queue (w_s w)) (p_cseq r))); lia).
  set (w1 := upd_s (note w (Got r)) _). destruct (p_code r =? 401) eqn:E4.
  - intros E. right. left. apply (retry_step _ _ _ _ _ v (m - 1)) in E; [|exact T|exact C|exact Q1|exact V].
    destruct E as (E1 & E2 & E3 & E5 & E6 & new & E7 & E8 & E9). splits; try assumption.
    + replace m with (m - 1 + 1) by lia. exact E1.
    + exists (Got r :: new). splits; [rewrite E7; unfold w1; cbn; rewrite <- app_assoc; reflexivity|exact E8|exact E9].
  - intros E. right. right. exists (upd_s w1 (fun s => learn_session s r)), req.
    assert (LS : forall s, s_queue (learn_session s r) = s_queue s /\ s_cseq (learn_session s r) = s_cseq s /\ s_feeds (learn_session s r) = s_feeds s /\ s_feedidx (learn_session s r) = s_feedidx s /\ s_conn (learn_session s r) = s_conn s /\ s_proto (learn_session s r) = s_proto s).
    { intros s. unfold learn_session. cbv zeta. destruct (beq _ []); splits; reflexivity. }
    unfold upd_s at 1 2 3 4 5. cbn [w_s w_log]. destruct (LS (w_s w1)) as (L1 & L2 & L3 & L4 & L5 & L6). unfold tcp, upd_s at 1 2. cbn [w_s]. rewrite L1, L2, L3, L4, L5, L6.
    splits; try assumption; try reflexivity; try lia; apply T.
Qed.

(* ---- the phases of the session ---- *)
Definition opts : list bytes := [bs "OPTIONS"].
Definition descr : list bytes := [bs "OPTIONS"; bs "DESCRIBE"].
Definition base (k : nat) : list bytes := descr ++ repeat (bs "SETUP") k.
Definition W0 (w : world) : Prop := tcp w /\ verbs_asked (w_log w) = opts /\ qall (bs "OPTIONS") 1 (s_queue (w_s w)) /\ s_cseq (w_s w) = 1 /\ s_feeds (w_s w) = [] /\ s_feedidx (w_s w) = 0.
Definition W1 (w : world) : Prop := tcp w /\ verbs_asked (w_log w) = descr /\ qall (bs "DESCRIBE") 1 (s_queue (w_s w)) /\ s_cseq (w_s w) = 2 /\ s_feeds (w_s w) = [] /\ s_feedidx (w_s w) = 0.
Definition W2 (w : world) : Prop := tcp w /\ (exists k, verbs_asked (w_log w) = base k) /\ qall (bs "SETUP") (zlen (s_feeds (w_s w)) - s_feedidx (w_s w)) (s_queue (w_s w)) /\
  1 <= s_cseq (w_s w) <= 2 ^ 62 + 2 /\ zlen (s_feeds (w_s w)) < 2 ^ 62 /\ 0 <= s_feedidx (w_s w) /\ once (s_feeds (w_s w)).
(* after the streams: these requests more, and this many of the last kind without an answer *)
Definition W3 (vs : list bytes) (v : bytes) (m : Z) (w : world) : Prop := tcp w /\ (exists k, verbs_asked (w_log w) = base k ++ vs) /\ qall v m (s_queue (w_s w)) /\ 1 <= s_cseq (w_s w) <= 2 ^ 62 + 2 + zlen vs.

Lemma asked_more w w' vs ss a : logged w w' vs ss -> verbs_asked (w_log w) = a -> verbs_asked (w_log w') = a ++ vs.
Proof. intros (new & -> & <- & _) <-. apply verbs_asked_app. Qed.
Lemma asked_same w w' ss a : logged w w' [] ss -> verbs_asked (w_log w) = a -> verbs_asked (w_log w') = a.
Proof. intros L A. rewrite (asked_more _ _ _ _ _ L A). apply app_nil_r. Qed.

Lemma W0_same w w' : W0 w -> w_s w' = w_s w -> logged w w' [] [] -> W0 w'.
Proof. intros (A & B & C & D & E & F) S L. unfold W0, tcp. rewrite S. splits; try assumption; try apply A. eapply asked_same; eassumption. Qed.
Lemma W1_same w w' : W1 w -> w_s w' = w_s w -> logged w w' [] [] -> W1 w'.
Proof. intros (A & B & C & D & E & F) S L. unfold W1, tcp. rewrite S. splits; try assumption; try apply A. eapply asked_same; eassumption. Qed.
Lemma W2_same w w' : W2 w -> w_s w' = w_s w -> logged w w' [] [] -> W2 w'.
Proof. intros (A & (k & B) & C & D & E & F & G) S L. unfold W2, tcp. rewrite S. splits; try assumption; try apply A; try apply D. exists k. eapply asked_same; eassumption. Qed.
Lemma W3_same vs v m w w' : W3 vs v m w -> w_s w' = w_s w -> logged w w' [] [] -> W3 vs v m w'.
Proof. intros (A & (k & B) & C & D) S L. unfold W3, tcp. rewrite S. splits; try assumption; try apply A; try apply D. exists k. eapply asked_same; eassumption. Qed.

Lemma logged_got w w1 r : w_log w1 = w_log w ++ [Got r] -> logged w w1 [] [].
Proof. intros L. eexists. splits; [exact L|reflexivity|reflexivity]. Qed.

Lemma hr_W0 w r w' o : W0 w -> handle_response w r = (w', o) -> (W0 w' \/ W1 w') /\ exists vs, logged w w' vs [].
Proof.
  intros H E. pose proof H as (T & A & Q & C & F & X). eapply hr_cases in E; [|exact T|lia|exact Q].
  destruct E as [[S L]|[(_ & E1 & E2 & E3 & E4 & E5 & L)|(w1 & req & V & K & _ & Q1 & C1 & F1 & X1 & T1 & L1 & _ & R)]].
  - split; [left; eapply W0_same; eassumption|eauto].
  - split; [|eauto]. left. unfold W0. splits; try congruence; try assumption; try apply E5; try apply E1. eapply asked_same; eassumption.
  - apply logged_got in L1. unfold react in R. rewrite V in R. change (beq (bs "OPTIONS") (bs "OPTIONS")) with true in R. cbv iota in R.
    destruct (s_stage (w_s w1) =? StageInit).
    + unfold describe, with_conn in R. match type of R with context [command ?a ?b ?c ?d] => set (w2 := a) in R; assert (T2 : tcp w2) by exact T1 end.
      replace (s_conn (w_s w2)) with true in R by (symmetry; apply T2).
      apply command_step in R as (rq & L2 & V2 & Q2 & C2 & F2 & X2 & T2'); [|exact T2]. unfold w2, upd_s in Q2, C2, F2, X2. cbn [w_s set_verbs s_queue s_cseq s_feeds s_feedidx] in Q2, C2, F2, X2.
      apply logged_cmd in L2. rewrite V2 in L2. assert (LL : logged w w' [bs "DESCRIBE"] []) by (eapply logged_more; [exact L1|]; eapply logged_more; [|exact L2]; apply logged_refl; reflexivity).
      split; [|eauto]. right. unfold W1. rewrite C1, C in C2. rewrite C1, C in Q2. change (i64 (1 + 1)) with 2 in *. splits; try congruence; try apply T2'; try (rewrite Q2).
      * exact (asked_more _ _ _ _ _ LL A).
      * apply qall_nil in Q1. rewrite Q1. apply (qall_set (bs "DESCRIBE") 0); [split; [cbn; lia|constructor]|exact V2|lia].
    + inversion R; subst w1. split; [|eauto]. left. unfold W0. splits; try congruence; try apply T1; [eapply asked_same; eassumption|eapply qall_le; [exact Q1|lia]].
Qed.

Lemma make_feeds_len proto l : forall i, zlen (make_feeds proto i l) = zlen l.
Proof. induction l as [|m l IH]; intros i; cbn [make_feeds]; rewrite ?zlen_cons, ?IH; reflexivity. Qed.
Lemma make_feeds_zero proto l : forall i, Forall (fun f => fd_cseq f = 0) (make_feeds proto i l).
Proof. induction l as [|m l IH]; intros i; cbn [make_feeds]; constructor; auto. Qed.
Lemma zero_once fs : Forall (fun f => fd_cseq f = 0) fs -> once fs.
Proof. intros F c H. induction F as [|f fs F1 F2 IH]; [cbn; lia|]. cbn [map]. rewrite matching_cons, F1. destruct (0 =? c) eqn:E; lia. Qed.

Lemma hr_W1 w r w' o : W1 w -> handle_response w r = (w', o) -> countable (w_log w') -> (W1 w' \/ W2 w') /\ exists vs, logged w w' vs [].
Proof.
  intros H E CT. pose proof H as (T & A & Q & C & F & X). eapply hr_cases in E; [|exact T|lia|exact Q].
  destruct E as [[S L]|[(_ & E1 & E2 & E3 & E4 & E5 & L)|(w1 & req & V & K & _ & Q1 & C1 & F1 & X1 & T1 & L1 & _ & R)]].
  - split; [left; eapply W1_same; eassumption|eauto].
  - split; [|eauto]. left. unfold W1. splits; try congruence; try assumption; try apply E5; try apply E1. eapply asked_same; eassumption.
  - pose proof L1 as LG. apply logged_got in L1. unfold react in R. rewrite V in R.
    change (beq (bs "DESCRIBE") (bs "OPTIONS")) with false in R. change (beq (bs "DESCRIBE") (bs "DESCRIBE")) with true in R. cbv iota in R.
    assert (D : forall x : res unit, (w1, x) = (w', o) -> (W1 w' \/ W2 w') /\ exists vs, logged w w' vs []).
    { intros x HX. inversion HX; subst w1. split; [|eauto]. left. unfold W1. splits; try congruence; try apply T1; [eapply asked_same; eassumption|eapply qall_le; [exact Q1|lia]]. }
    destruct (p_body r) as [body|] eqn:PB; [|eapply D; exact R].
    unfold parse_feeds in R. destruct (sdp_parse body) as [ms|e| |] eqn:SP; cbn [bind] in R; try (eapply D; exact R).
    unfold setup in R. set (w2 := upd_s w1 (fun s => set_feeds s (make_feeds (s_proto (w_s w1)) 0 ms))) in R.
    assert (SF : s_feeds (w_s w2) = make_feeds (s_proto (w_s w1)) 0 ms) by reflexivity. assert (T2 : tcp w2) by exact T1.
    assert (C2 : s_cseq (w_s w2) = 2) by (unfold w2, upd_s; cbn [w_s set_feeds s_cseq]; lia). assert (X2 : s_feedidx (w_s w2) = 0) by (unfold w2, upd_s; cbn [w_s set_feeds s_feedidx]; lia).
    assert (Q2 : s_queue (w_s w2) = s_queue (w_s w1)) by reflexivity. assert (L2 : w_log w2 = w_log w1) by reflexivity. clearbody w2.
    apply qall_nil in Q1. pose proof (make_feeds_zero (s_proto (w_s w1)) ms 0) as MZ. rewrite <- SF in MZ. pose proof (make_feeds_len (s_proto (w_s w1)) ms 0) as ML. rewrite <- SF in ML.
    assert (ZM : zlen ms < 2 ^ 62).
    { assert (grows 1 w2 w') as (new & GL & _). { apply setup_from_grows in R. eapply grows_le; [exact R|lia]. }
      rewrite GL, L2, LG in CT. unfold countable in CT. rewrite !Forall_app in CT. destruct CT as [[_ CT] _]. apply Forall_inv in CT. eapply CT; eassumption. }
    apply (setup_from_step _ _ _ _ _ 0) in R; [|exact T2|lia|lia|rewrite Q2, Q1; split; [cbn; lia|constructor]|apply zero_once; exact MZ|].
    2:{ eapply Forall_impl; [|exact MZ]. intros f B. cbn beta in B. lia. }
    destruct R as (R1 & R2 & R3 & R4 & R5 & R6 & k & R7).
    assert (LL : logged w w' (repeat (bs "SETUP") k) []) by (eapply logged_more; [exact L1|]; eapply logged_more; [|exact R7]; apply logged_refl; exact L2).
    split; [|eauto]. right. unfold W2. splits; try assumption; try lia.
    + exists k. exact (asked_more _ _ _ _ _ LL A).
    + rewrite R6, R5, X2. replace (zlen (s_feeds (w_s w2)) - 0) with (0 + zlen (s_feeds (w_s w2))) by lia. exact R3.
Qed.

Lemma qall_any v v' q : qall v 0 q -> qall v' 0 q.
Proof. intros H. apply qall_nil in H as ->. split; [cbn; lia|constructor]. Qed.
Lemma matching_all c fs : matching c (map fd_cseq fs) <= zlen fs.
Proof. induction fs as [|f fs IH]; [cbn; lia|]. cbn [map]. rewrite matching_cons, zlen_cons. destruct (fd_cseq f =? c); lia. Qed.
Lemma once_cseqs fs gs : map fd_cseq gs = map fd_cseq fs -> once fs -> once gs.
Proof. intros E O c H. rewrite E. apply O. exact H. Qed.

Lemma hr_W2 w r w' o : W2 w -> handle_response w r = (w', o) -> (W2 w' /\ logged w w' [] []) \/ (W3 [] [] 0 w' /\ logged w w' [] [StageReady]).
Proof.
  intros H E. pose proof H as (T & (k & A) & Q & C & B & X & O). eapply hr_cases in E; [|exact T|lia|exact Q].
  destruct E as [[S L]|[(_ & E1 & E2 & E3 & E4 & E5 & L)|(w1 & req & V & K & M1 & Q1 & C1 & F1 & X1 & T1 & L1 & N4 & R)]].
  - left. split; [eapply W2_same; eassumption|exact L].
  - left. split; [|exact L]. unfold W2. rewrite E2, E3, E4. splits; try assumption; try apply E5; try apply C. exists k. eapply asked_same; eassumption.
  - apply logged_got in L1. unfold react in R. rewrite V in R.
    change (beq (bs "SETUP") (bs "OPTIONS")) with false in R. change (beq (bs "SETUP") (bs "DESCRIBE")) with false in R. change (beq (bs "SETUP") (bs "PAUSE")) with false in R.
    change (beq (bs "SETUP") (bs "PLAY")) with false in R. change (beq (bs "SETUP") (bs "TEARDOWN")) with false in R. change (beq (bs "SETUP") (bs "SETUP")) with true in R. cbv iota in R.
    unfold handle_setup in R. cbv zeta in R.
    (* the state the streams are counted in *)
    assert (Fin : forall w2 (x : res unit), tcp w2 -> map fd_cseq (s_feeds (w_s w2)) = map fd_cseq (s_feeds (w_s w)) -> s_feedidx (w_s w) <= s_feedidx (w_s w2) <= s_feedidx (w_s w) + 1 -> s_queue (w_s w2) = s_queue (w_s w1) -> s_cseq (w_s w2) = s_cseq (w_s w) -> logged w1 w2 [] [] ->
      ((w2, x) = (w', o) \/ (if s_feedidx (w_s w2) >=? zlen (s_feeds (w_s w2)) then (note (notify w2 StageReady) Started, Ok tt) else (w2, Ok tt)) = (w', o)) ->
      (W2 w' /\ logged w w' [] []) \/ (W3 [] [] 0 w' /\ logged w w' [] [StageReady])).
    { intros w2 x T2 F2 X2 Q2 C2 L2 G. pose proof (logged_more _ _ _ _ _ L1 L2) as LL.
      assert (ZL : zlen (s_feeds (w_s w2)) = zlen (s_feeds (w_s w))) by (unfold zlen; rewrite <- (map_length fd_cseq), F2, map_length; reflexivity).
      assert (W : W2 w2).
      { unfold W2. rewrite Q2, C2, ZL. splits; try assumption; try apply C; try lia.
        - exists k. eapply asked_same; eassumption.
        - eapply qall_le; [exact Q1|lia].
        - eapply once_cseqs; eassumption. }
      destruct G as [G|G]; [inversion G; subst; left; split; assumption|].
      destruct (s_feedidx (w_s w2) >=? zlen (s_feeds (w_s w2))) eqn:EF; inversion G; subst; [right|left; split; assumption].
      split.
      - unfold W3. splits.
        + exact T2.
        + exists k. rewrite app_nil_r. cbn [w_log note notify upd_s]. rewrite !verbs_asked_app. cbn [verbs_asked flat_map app]. rewrite !app_nil_r. eapply asked_same; eassumption.
        + apply (qall_any (bs "SETUP")). cbn [note notify upd_s w_s set_stage s_queue]. destruct W as (_ & _ & W & _). eapply qall_le; [exact W|lia].
        + cbn [note notify upd_s w_s set_stage s_cseq]. lia.
        + cbn [note notify upd_s w_s set_stage s_cseq]. change (zlen []) with 0. lia.
      - apply (logged_trans _ w2 _ [] [] [] [StageReady]); [exact LL|]. exists [Notified StageReady; Started]. cbn [w_log note notify upd_s]. rewrite <- app_assoc. splits; reflexivity. }
    destruct (p_code r =? 200).
    + destruct (setup_feeds w1 (p_cseq r) _ 0 (s_feeds (w_s w1))) as [w2 o2] eqn:SF. pose proof (matching_all (p_cseq r) (s_feeds (w_s w))) as MA.
      pose proof (O (p_cseq r) K) as O1.
      apply setup_feeds_step in SF; [|intros n f N; exact N|lia|rewrite F1; lia|exact T1].
      destruct SF as (S1 & S2 & S3 & S4 & S5 & S6). rewrite F1 in S2, S3.
      destruct o2 as [u|e| |]; [eapply (Fin w2 (Ok tt))|eapply (Fin w2)|eapply (Fin w2)|eapply (Fin w2)]; try congruence; try lia; try assumption; [right; exact R|left; exact R..].
    + destruct (negb (p_code r =? 401)) eqn:N5; [|exfalso; lia].
      set (w2 := upd_s w1 (fun s => set_feedidx s (i64 (s_feedidx s + 1)))) in R.
      assert (X2 : s_feedidx (w_s w2) = s_feedidx (w_s w) + 1).
      { unfold w2, upd_s. cbn [w_s set_feedidx s_feedidx]. rewrite X1. apply L_base.i64_small. destruct Q1 as [Q1 _]. pose proof (zlen_nonneg (s_queue (w_s w1))). lia. }
      assert (F2 : s_feeds (w_s w2) = s_feeds (w_s w1)) by reflexivity.
      eapply (Fin w2 (Ok tt)); [exact T1|congruence|lia|reflexivity|exact C1|apply logged_refl; reflexivity|right; exact R].
Qed.

Lemma hr_W3 vs v w r w' o s : (v, s) = (bs "PLAY", StagePlay) \/ (v, s) = (bs "PAUSE", StagePause) \/ (v, s) = (bs "TEARDOWN", StageDone) -> W3 vs v 1 w -> zlen vs <= 3 -> handle_response w r = (w', o) ->
  (W3 vs v 1 w' /\ logged w w' [] []) \/ (W3 vs [] 0 w' /\ logged w w' [] [s]).
Proof.
  intros VS H ZV E. pose proof H as (T & (k & A) & Q & C). eapply hr_cases in E; [|exact T|lia|exact Q].
  destruct E as [[S L]|[(_ & E1 & E2 & E3 & E4 & E5 & L)|(w1 & req & V & K & M1 & Q1 & C1 & F1 & X1 & T1 & L1 & N4 & R)]].
  - left. split; [eapply W3_same; eassumption|exact L].
  - left. split; [|exact L]. unfold W3. rewrite E2. splits; try assumption; try apply E5; try apply C; try apply E1. exists k. eapply asked_same; eassumption.
  - apply logged_got in L1. unfold react in R. rewrite V in R.
    assert (G : (if p_code r =? 200 then notify w1 s else w1, Ok tt) = (w', o)) by (destruct VS as [VS|[VS|VS]]; injection VS as -> ->; exact R). clear R VS.
    destruct (p_code r =? 200); inversion G; subst w'.
    + right. split.
      * unfold W3. cbn [note notify upd_s w_s w_log set_stage s_queue s_cseq]. rewrite C1. splits; try apply C; try apply T1; [|apply (qall_any v); exact Q1..].
        exists k. rewrite verbs_asked_app. cbn [verbs_asked flat_map app]. rewrite app_nil_r. eapply asked_same; eassumption.
      * apply (logged_trans _ w1 _ [] [] [] [s]); [exact L1|]. exists [Notified s]. splits; reflexivity.
    + left. split; [|exact L1]. unfold W3. rewrite C1. splits; try apply C; try apply T1; [|eapply qall_le; [exact Q1|lia]]. exists k. eapply asked_same; eassumption.
Qed.
Lemma hr_W3_none vs v w r w' o : W3 vs v 0 w -> handle_response w r = (w', o) -> W3 vs v 0 w' /\ logged w w' [] [].
Proof.
  intros H E. pose proof H as (T & (k & A) & Q & C). eapply hr_cases in E; [|exact T|lia|exact Q].
  destruct E as [[S L]|[(B & _)|(w1 & req & V & K & M1 & _)]]; [|lia|lia]. split; [eapply W3_same; eassumption|exact L].
Qed.

(* ---- a turn of the session's loop ---- *)
Lemma turn_step w t1 t2 w' en : tcp w -> turn w t1 t2 = (w', en) ->
  (w_s w' = w_s w /\ logged w w' [] []) \/ exists w0 r o, w_s w0 = w_s w /\ w_log w0 = w_log w /\ handle_response w0 r = (w', o).
Proof.
  intros [C P]. unfold turn, keepalive, with_conn. rewrite C, P. change (negb (ProtoTCP =? ProtoHTTP) && negb (ProtoTCP =? ProtoTCP)) with false. cbn [andb].
  destruct (receive w) as [w1 x] eqn:R. intros E. assert (w' = w1) as -> by (destruct x; inversion E; reflexivity). clear E. unfold receive in R.
  assert (D : forall s (y : res unit), (upd_in w s, y) = (w1, x) -> (w_s w1 = w_s w /\ logged w w1 [] []) \/ exists w0 r o, w_s w0 = w_s w /\ w_log w0 = w_log w /\ handle_response w0 r = (w1, o)).
  { intros s y E. inversion E; subst. left. split; [reflexivity|apply logged_refl; reflexivity]. }
  assert (U : match unpack_response (fst (peek 1 (w_in w))) with (s1, Ok r) => handle_response (upd_in w s1) r | (s1, Err e) => (upd_in w s1, Err e) | (s1, Panic) => (upd_in w s1, Panic) | (s1, Fuel) => (upd_in w s1, Fuel) end = (w1, x) ->
    (w_s w1 = w_s w /\ logged w w1 [] []) \/ exists w0 r o, w_s w0 = w_s w /\ w_log w0 = w_log w /\ handle_response w0 r = (w1, o)).
  { destruct (unpack_response (fst (peek 1 (w_in w)))) as [s1 [r|e| |]]; try (apply D). intros E. right. exists (upd_in w s1), r, x. splits; [reflexivity|reflexivity|exact E]. }
  assert (K : match read_byte (discard 1 (fst (peek 1 (w_in w)))) with
      | (s1, Ok ch) =>
          match read_uint16 s1 with
          | (s2, Ok len) =>
              match read_bytes len s2 with
              | (s3, Ok p) => (note (upd_in w s3) (Delivered ch p), Ok tt)
              | (s3, Err e) => (upd_in w s3, Err e)
              | (s3, Panic) => (upd_in w s3, Panic)
              | (s3, Fuel) => (upd_in w s3, Fuel)
              end
          | (s2, Err e) => (upd_in w s2, Err e)
          | (s2, Panic) => (upd_in w s2, Panic)
          | (s2, Fuel) => (upd_in w s2, Fuel)
          end
      | (s1, Err e) => (upd_in w s1, Err e)
      | (s1, Panic) => (upd_in w s1, Panic)
      | (s1, Fuel) => (upd_in w s1, Fuel)
      end = (w1, x) -> (w_s w1 = w_s w /\ logged w w1 [] []) \/ exists w0 r o, w_s w0 = w_s w /\ w_log w0 = w_log w /\ handle_response w0 r = (w1, o)).
  { destruct (read_byte _) as [s1 [ch|e| |]]; try (apply D). destruct (read_uint16 s1) as [s2 [len|e| |]]; try (apply D). destruct (read_bytes len s2) as [s3 [p|e| |]]; try (apply D).
    intros E. inversion E; subst. left. split; [reflexivity|]. exists [Delivered ch p]. splits; reflexivity. }
  destruct (peek 1 (w_in w)) as [s0 [l|e| |]]; cbn [fst] in *; try (eapply D; exact R).
  destruct l as [|b l]; [exact (U R)|]. destruct l as [|b2 l].
  - destruct (Z.eq_dec b 36) as [->|N]; [exact (K R)|]. apply U. rewrite <- R. destruct b as [|p|p]; try reflexivity. do 6 (try (destruct p as [p|p|]; try reflexivity)). exfalso. apply N. reflexivity.
  - apply U. rewrite <- R. destruct b as [|p|p]; try reflexivity. do 6 (try (destruct p as [p|p|]; try reflexivity)).
Qed.

(* ---- a command of the client ---- *)
Lemma cmd_W3 vs v verb w c w' c' f : W3 vs v 0 w -> zlen vs <= 3 -> must (with_conn w (fun s => command w verb (s_uri s) [])) c = (w', c', f) ->
  c' = c /\ W3 (vs ++ [verb]) verb 1 w'.
Proof.
  intros (T & (k & A) & Q & C) ZV M. unfold with_conn in M. replace (s_conn (w_s w)) with true in M by (symmetry; apply T).
  destruct (command w verb (s_uri (w_s w)) []) as [w1 o] eqn:E. apply command_step in E as (rq & L & V & Q1 & C1 & _ & _ & T1); [|exact T].
  assert (c' = c /\ w' = w1) as [-> ->] by (destruct o; inversion M; auto). split; [reflexivity|].
  apply logged_cmd in L. rewrite V in L. pose proof (zlen_nonneg vs). rewrite L_base.i64_small in Q1, C1 by lia. unfold W3. rewrite L_serve.zlen_app, C1, Q1. change (zlen [verb]) with 1. splits; try apply T1; try lia.
  - exists k. rewrite app_assoc. eapply asked_more; eassumption.
  - apply qall_nil in Q. rewrite Q. apply (qall_set verb 0); [split; [cbn; lia|constructor]|exact V|lia].
Qed.

(* ---- the whole program ---- *)
Definition ends_ : list bytes := [bs "PLAY"; bs "PAUSE"; bs "TEARDOWN"].
Definition steps : list Z := [1; 2; 3; 4].
Definition off (c : client) : Prop := c_running c = false /\ c_ticked c = false.
Inductive inv (h : list Z) (y : system) : Prop :=
| inv_setup : h = [] -> y_stage y = None -> c_state (y_c y) = 0 -> off (y_c y) -> W0 (y_w y) \/ W1 (y_w y) \/ W2 (y_w y) -> inv h y
| inv_stage j : (j < 4)%nat -> h = firstn j steps -> y_stage y = Some (Z.of_nat j + 1) -> c_state (y_c y) = Z.of_nat j -> off (y_c y) -> W3 (firstn j ends_) [] 0 (y_w y) -> inv h y
| inv_ask j v : (j < 3)%nat -> nth_error ends_ j = Some v -> h = firstn (S j) steps -> y_stage y = None -> c_state (y_c y) = Z.of_nat (S j) -> off (y_c y) -> W3 (firstn (S j) ends_) v 1 (y_w y) -> inv h y
| inv_wait j : (1 <= j <= 3)%nat -> h = firstn (S j) steps -> y_stage y = None -> c_state (y_c y) = Z.of_nat (S j) -> c_running (y_c y) = negb (c_ticked (y_c y)) -> W3 (firstn j ends_) [] 0 (y_w y) -> inv h y
| inv_end : y_fate y <> Goes -> begins h steps -> (exists k, begins (verbs_asked (w_log (y_w y))) (base k ++ ends_)) -> inv h y.

Definition took_stage (y : system) (e : yevent) : list Z := match e, y_stage y with YStage, Some n => [n] | _, _ => [] end.

Lemma news_logged w w' vs ss : logged w w' vs ss -> stages_in (news w w') = ss.
Proof. intros (new & L & _ & S). rewrite (news_app _ _ _ L). exact S. Qed.
Lemma logged_from w w0 w' vs ss : w_log w0 = w_log w -> logged w0 w' vs ss -> logged w w' vs ss.
Proof. intros E (new & L & V). exists new. rewrite E in L. auto. Qed.
Lemma W0_from w w0 : w_s w0 = w_s w -> w_log w0 = w_log w -> W0 w -> W0 w0.
Proof. intros S L H. eapply W0_same; [exact H|exact S|apply logged_refl; exact L]. Qed.
Lemma W1_from w w0 : w_s w0 = w_s w -> w_log w0 = w_log w -> W1 w -> W1 w0.
Proof. intros S L H. eapply W1_same; [exact H|exact S|apply logged_refl; exact L]. Qed.
Lemma W2_from w w0 : w_s w0 = w_s w -> w_log w0 = w_log w -> W2 w -> W2 w0.
Proof. intros S L H. eapply W2_same; [exact H|exact S|apply logged_refl; exact L]. Qed.
Lemma W3_from vs v m w w0 : w_s w0 = w_s w -> w_log w0 = w_log w -> W3 vs v m w -> W3 vs v m w0.
Proof. intros S L H. eapply W3_same; [exact H|exact S|apply logged_refl; exact L]. Qed.

Lemma on_packet_step c ch p c' f : on_packet c ch p = (c', f) -> c_state c' = c_state c /\ c_running c' = c_running c /\ c_ticked c' = c_ticked c.
Proof.
  unfold on_packet. destruct (ch mod 2 =? 0).
  - destruct (rtp_unpack p) as [q|er| |]; try (intros P; inversion P; auto). destruct (push (c_sink c) (rtp_pl q) (rtp_ts q)) as [s [?|?| |]]; inversion P; auto.
  - destruct (rtcp_unpack p); intros P; inversion P; auto.
Qed.

Lemma ystep_inv h y e y' : ystep y e = Some y' -> countable (w_log (y_w y')) -> inv h y -> inv (h ++ took_stage y e) y'.
Proof.
  unfold ystep. destruct (y_fate y) eqn:YF; try discriminate. intros H CT I. destruct e; cbn [took_stage] in *; rewrite ?app_nil_r.
  - destruct (y_loop y); try discriminate. destruct (y_stage y) eqn:YS; try discriminate. destruct (zlen (y_data y) <=? 20); try discriminate.
    destruct (turn (y_w y) t1 t2) as [w en] eqn:TE. injection H as <-. cbn [y_w] in CT.
    destruct I as [E1 E2 E3 E4 E5|j J E1 E2|j v J V E1 E2 E3 E4 E5|j J E1 E2 E3 E4 E5|F]; try congruence.
    + (* the streams are being set up *)
      assert (T : tcp (y_w y)) by (destruct E5 as [W|[W|W]]; apply W).
      apply turn_step in TE as [[S L]|(w0 & r & o & S & L & R)]; [| |exact T].
      * apply inv_setup; cbn [y_w y_stage y_c]; try assumption; [rewrite (news_logged _ _ _ _ L); reflexivity|].
        destruct E5 as [W|[W|W]]; [left; eapply W0_same|right; left; eapply W1_same|right; right; eapply W2_same]; eassumption.
      * destruct E5 as [W|[W|W]].
        -- eapply hr_W0 in R; [|eapply W0_from; eassumption]. destruct R as (R & vs & LL). eapply logged_from in LL; [|exact L].
           apply inv_setup; cbn [y_w y_stage y_c]; try assumption; [rewrite (news_logged _ _ _ _ LL); reflexivity|tauto].
        -- eapply hr_W1 in R; [|eapply W1_from; eassumption|exact CT]. destruct R as (R & vs & LL). eapply logged_from in LL; [|exact L].
           apply inv_setup; cbn [y_w y_stage y_c]; try assumption; [rewrite (news_logged _ _ _ _ LL); reflexivity|tauto].
        -- eapply hr_W2 in R; [|eapply W2_from; eassumption]. destruct R as [[R LL]|[R LL]]; (eapply logged_from in LL; [|exact L]).
           ++ apply inv_setup; cbn [y_w y_stage y_c]; try assumption; [rewrite (news_logged _ _ _ _ LL); reflexivity|tauto].
           ++ apply (inv_stage _ _ 0); cbn [y_w y_stage y_c]; try assumption; [lia|rewrite (news_logged _ _ _ _ LL); reflexivity].
    + (* a command waits for its answer *)
      assert (ZV : zlen (firstn (S j) ends_) <= 3) by (destruct j as [|[|[|j]]]; [cbn; lia..|lia]).
      apply turn_step in TE as [[S L]|(w0 & r & o & S & L & R)]; [| |apply E5].
      * apply (inv_ask _ _ j v); cbn [y_w y_stage y_c]; try assumption; [rewrite (news_logged _ _ _ _ L); reflexivity|]. eapply W3_same; eassumption.
      * eapply (hr_W3 _ _ _ _ _ _ (Z.of_nat j + 2)) in R; [| |eapply W3_from; eassumption|exact ZV].
        2:{ destruct j as [|[|[|j]]]; [injection V as <-; auto..|lia]. }
        destruct R as [[R LL]|[R LL]]; (eapply logged_from in LL; [|exact L]).
        -- apply (inv_ask _ _ j v); cbn [y_w y_stage y_c]; try assumption. rewrite (news_logged _ _ _ _ LL); reflexivity.
        -- apply (inv_stage _ _ (Datatypes.S j)); cbn [y_w y_stage y_c]; try assumption; [lia|]. rewrite (news_logged _ _ _ _ LL). cbn [hd_error]. f_equal. lia.
    + (* the timer runs *)
      apply turn_step in TE as [[S L]|(w0 & r & o & S & L & R)]; [| |apply E5].
      * apply (inv_wait _ _ j); cbn [y_w y_stage y_c]; try assumption; [rewrite (news_logged _ _ _ _ L); reflexivity|]. eapply W3_same; eassumption.
      * eapply hr_W3_none in R; [|eapply W3_from; eassumption]. destruct R as [R LL]. eapply logged_from in LL; [|exact L].
        apply (inv_wait _ _ j); cbn [y_w y_stage y_c]; try assumption. rewrite (news_logged _ _ _ _ LL); reflexivity.
  - destruct (y_stage y) as [n|] eqn:YS; try discriminate.
    destruct I as [E1 E2 E3 E4 E5|j J E1 E2 E3 [O1 O2] E5|j v J V E1 E2 E3 E4 E5|j J E1 E2 E3 E4 E5|F]; try congruence. rewrite YS in E2. injection E2 as ->. unfold on_stage in H.
    destruct j as [|[|[|[|j]]]]; [| | | |lia].
    + change (Z.of_nat 0 + 1 =? StageReady) with true in H. cbv zeta iota in H. destruct (must (play (y_w y)) _) as [[w c] f] eqn:M. apply (cmd_W3 [] []) in M; [|exact E5|cbn; lia]. destruct M as (-> & M). injection H as <-.
      apply (inv_ask _ _ 0 (bs "PLAY")); cbn [y_w y_stage y_c c_state]; try assumption; try reflexivity; [lia|subst h; reflexivity|split; assumption].
    + injection H as <-. apply (inv_wait _ _ 1); cbn [y_w y_stage y_c c_state c_running c_ticked]; try assumption; try reflexivity; [lia|subst h; reflexivity|rewrite O2; reflexivity].
    + injection H as <-. apply (inv_wait _ _ 2); cbn [y_w y_stage y_c c_state c_running c_ticked]; try assumption; try reflexivity; [lia|subst h; reflexivity|rewrite O2; reflexivity].
    + injection H as <-. apply (inv_wait _ _ 3); cbn [y_w y_stage y_c c_state c_running c_ticked]; try assumption; try reflexivity; [lia|subst h; reflexivity|rewrite O2; reflexivity].
  - destruct (y_data y) as [|[ch p] rest]; try discriminate. destruct (on_packet (y_c y) ch p) as [c f] eqn:P. injection H as <-. apply on_packet_step in P as (P1 & P2 & P3).
    destruct I as [E1 E2 E3 E4 E5|j J E1 E2 E3 E4 E5|j v J V E1 E2 E3 E4 E5|j J E1 E2 E3 E4 E5|F]; try congruence.
    + apply inv_setup; cbn [y_w y_stage y_c]; try assumption; [congruence|unfold off in *; rewrite P2, P3; exact E4].
    + apply (inv_stage _ _ j); cbn [y_w y_stage y_c]; try assumption; [congruence|unfold off in *; rewrite P2, P3; exact E4].
    + apply (inv_ask _ _ j v); cbn [y_w y_stage y_c]; try assumption; [congruence|unfold off in *; rewrite P2, P3; exact E4].
    + apply (inv_wait _ _ j); cbn [y_w y_stage y_c]; try assumption; [congruence|rewrite P2, P3; exact E4].
  - destruct (c_ticked (y_c y)) eqn:TK; try discriminate. cbv zeta in H.
    destruct I as [E1 E2 E3 [O1 O2] E5|j J E1 E2 E3 [O1 O2] E5|j v J V E1 E2 E3 [O1 O2] E5|j J E1 E2 E3 E4 E5|F]; try congruence.
    unfold on_tick in H. cbn [c_state] in H. rewrite E3 in H. rewrite TK in E4. cbn [negb] in E4. destruct j as [|[|[|[|j]]]]; try lia.
    + change (Z.of_nat 2 =? StagePlay) with true in H. cbv iota in H. destruct (must (pause (y_w y)) _) as [[w c] f] eqn:M. apply (cmd_W3 [bs "PLAY"] []) in M; [|exact E5|cbn; lia]. destruct M as (-> & M). injection H as <-.
      apply (inv_ask _ _ 1 (bs "PAUSE")); cbn [y_w y_stage y_c c_state]; try assumption; try reflexivity; [lia|split; cbn [c_running c_ticked]; [assumption|reflexivity]].
    + change (Z.of_nat 3 =? StagePlay) with false in H. change (Z.of_nat 3 =? StagePause) with true in H. cbv iota in H. destruct (must (teardown (y_w y)) _) as [[w c] f] eqn:M. apply (cmd_W3 [bs "PLAY"; bs "PAUSE"] []) in M; [|exact E5|cbn; lia]. destruct M as (-> & M). injection H as <-.
      apply (inv_ask _ _ 2 (bs "TEARDOWN")); cbn [y_w y_stage y_c c_state]; try assumption; try reflexivity; [lia|split; cbn [c_running c_ticked]; [assumption|reflexivity]].
    + injection H as <-. apply inv_end; cbn [y_fate y_w]; [discriminate|subst h; exists []; reflexivity|]. destruct E5 as (_ & (k & A) & _). exists k. exists []. rewrite A, app_nil_r. reflexivity.
  - destruct (c_running (y_c y)) eqn:RN; try discriminate. injection H as <-.
    destruct I as [E1 E2 E3 [O1 O2] E5|j J E1 E2 E3 [O1 O2] E5|j v J V E1 E2 E3 [O1 O2] E5|j J E1 E2 E3 E4 E5|F]; try congruence.
    apply (inv_wait _ _ j); cbn [y_w y_stage y_c c_state c_running c_ticked]; try assumption. reflexivity.
Qed.

(* the log only grows *)
Lemma ystep_log y e y' : ystep y e = Some y' -> exists new, w_log (y_w y') = w_log (y_w y) ++ new.
Proof.
  assert (CM : forall w verb c w' c' f, must (with_conn w (fun s => command w verb (s_uri s) [])) c = (w', c', f) -> exists new, w_log w' = w_log w ++ new).
  { intros w verb c w' c' f M. pose proof (with_conn_command w verb []) as K. cbv zeta in K. destruct (with_conn w _) as [w1 o]. cbn [fst] in K. assert (w' = w1) as -> by (destruct o; inversion M; auto).
    destruct K as [K|(q & K & _)]; [exists []; rewrite app_nil_r; exact K|eauto]. }
  unfold ystep. destruct (y_fate y) eqn:YF; try discriminate. intros H. destruct e.
  - destruct (y_loop y); try discriminate. destruct (y_stage y); try discriminate. destruct (zlen (y_data y) <=? 20); try discriminate.
    destruct (turn (y_w y) t1 t2) as [w en] eqn:T. apply turn_grows in T as (es & L & _). injection H as <-. cbn [y_w]. eauto.
  - destruct (y_stage y) as [n|]; try discriminate. unfold on_stage in H. cbv zeta in H. destruct (n =? StageReady).
    + destruct (must (play (y_w y)) _) as [[w c] f] eqn:M. apply CM in M. injection H as <-. exact M.
    + destruct ((n =? StagePlay) || (n =? StagePause) || (n =? StageDone)); injection H as <-; exists []; rewrite app_nil_r; reflexivity.
  - destruct (y_data y) as [|[ch p] rest]; try discriminate. destruct (on_packet (y_c y) ch p) as [c f]. injection H as <-. exists []. rewrite app_nil_r. reflexivity.
  - destruct (c_ticked (y_c y)); try discriminate. cbv zeta in H. unfold on_tick in H. cbn [c_state] in H. destruct (c_state (y_c y) =? StagePlay); [|destruct (c_state (y_c y) =? StagePause)].
    + destruct (must (pause (y_w y)) _) as [[w c] f] eqn:M. apply CM in M. injection H as <-. exact M.
    + destruct (must (teardown (y_w y)) _) as [[w c] f] eqn:M. apply CM in M. injection H as <-. exact M.
    + destruct (c_state (y_c y) =? StageDone); injection H as <-; exists []; rewrite app_nil_r; reflexivity.
  - destruct (c_running (y_c y)); try discriminate. injection H as <-. exists []. rewrite app_nil_r. reflexivity.
Qed.
Lemma yrun_log es : forall y y', yrun y es = Some y' -> exists new, w_log (y_w y') = w_log (y_w y) ++ new.
Proof.
  induction es as [|e es IH]; intros y y' H; cbn [yrun] in H; [injection H as <-; exists []; rewrite app_nil_r; reflexivity|].
  destruct (ystep y e) as [y1|] eqn:E; try discriminate. apply ystep_log in E as (n1 & E). apply IH in H as (n2 & H). exists (n1 ++ n2). rewrite H, E, app_assoc. reflexivity.
Qed.
Lemma yrun_inv es : forall h y y', yrun y es = Some y' -> countable (w_log (y_w y')) -> inv h y -> inv (h ++ stages_taken y es) y'.
Proof.
  induction es as [|e es IH]; intros h y y' H C I; cbn [yrun stages_taken] in *; [injection H as <-; rewrite app_nil_r; exact I|].
  destruct (ystep y e) as [y1|] eqn:E; try discriminate. rewrite app_assoc. apply IH; [exact H|exact C|]. apply (ystep_inv h y e y1 E); [|exact I].
  apply yrun_log in H as (new & L). rewrite L in C. unfold countable in *. rewrite Forall_app in C. apply C.
Qed.

Lemma launch_inv w : opened w ProtoTCP -> inv [] (launch w).
Proof.
  intros (user & uri & S & L). unfold launch, options, with_conn. replace (s_conn (w_s w)) with true by (rewrite S; reflexivity).
  destruct (command w (bs "OPTIONS") (s_uri (w_s w)) []) as [w' o] eqn:E. apply command_step in E as (rq & L1 & V & Q & C & F & X & T); [|split; rewrite S; reflexivity].
  apply inv_setup; cbn [y_w y_stage y_c]; try reflexivity; [split; reflexivity|]. left. rewrite S in *. unfold W0. rewrite Q, C, F, X, L1, L, verbs_asked_app. cbn [verbs_asked flat_map app]. rewrite V. splits; try reflexivity; try apply T.
  apply (qall_set (bs "OPTIONS") 0); [split; [cbn; lia|constructor]|exact V|discriminate].
Qed.

Lemma begins_firstn {A} j (l : list A) : begins (firstn j l) l.
Proof. exists (skipn j l). symmetry. apply firstn_skipn. Qed.
Lemma begins_app {A} (a b c : list A) : begins b c -> begins (a ++ b) (a ++ c).
Proof. intros (r & ->). exists r. apply app_assoc. Qed.

Lemma inv_verbs h y : inv h y -> exists n, begins (verbs_asked (w_log (y_w y))) (errands n).
Proof.
  assert (B : forall k, errands k = base k ++ ends_) by (intros k; unfold errands, base, descr, ends_; rewrite <- app_assoc; reflexivity).
  assert (W : forall j v m w, W3 (firstn j ends_) v m w -> exists n, begins (verbs_asked (w_log w)) (errands n)).
  { intros j v m w (_ & (k & A) & _). exists k. rewrite A, B. apply begins_app, begins_firstn. }
  intros [E1 E2 E3 E4 E5|j J E1 E2 E3 E4 E5|j v J V E1 E2 E3 E4 E5|j J E1 E2 E3 E4 E5|F E1 (k & E2)]; eauto.
  - destruct E5 as [E|[E|E]].
    + destruct E as (_ & E & _). exists 0%nat. rewrite E. eexists. reflexivity.
    + destruct E as (_ & E & _). exists 0%nat. rewrite E. eexists. reflexivity.
    + destruct E as (_ & (k & E) & _). exists k. rewrite E, B. eexists. reflexivity.
  - exists k. rewrite B. exact E2.
Qed.
Lemma inv_taken h y : inv h y -> begins h [1; 2; 3; 4].
Proof.
  intros [E1 E2 E3 E4 E5|j J E1 E2 E3 E4 E5|j v J V E1 E2 E3 E4 E5|j J E1 E2 E3 E4 E5|F E1 E2]; [subst h; exists [1; 2; 3; 4]; reflexivity|subst h; apply (begins_firstn _ steps)..|exact E1].
Qed.

(* ---- the end ---- *)
Lemma must_not_return r c w c' f : must r c = (w, c', f) -> f <> Returns.
Proof. destruct r as [w1 [u|e| |]]; cbn [must]; intros H; inversion H; discriminate. Qed.
Lemma tick_end h y y' : inv h y -> ystep y YTick = Some y' -> y_fate y' = Returns -> h = steps /\ exists k, verbs_asked (w_log (y_w y')) = errands k.
Proof.
  unfold ystep. destruct (y_fate y) eqn:YF; try discriminate. intros I H R. destruct (c_ticked (y_c y)) eqn:TK; try discriminate. cbv zeta in H.
  destruct I as [E1 E2 E3 [O1 O2] E5|j J E1 E2 E3 [O1 O2] E5|j v J V E1 E2 E3 [O1 O2] E5|j J E1 E2 E3 E4 E5|F]; try congruence.
  unfold on_tick in H. cbn [c_state] in H. rewrite E3 in H. destruct j as [|[|[|[|j]]]]; try lia.
  - change (Z.of_nat 2 =? StagePlay) with true in H. cbv iota in H. destruct (must (pause (y_w y)) _) as [[w c] f] eqn:M. apply must_not_return in M. injection H as <-. contradiction.
  - change (Z.of_nat 3 =? StagePlay) with false in H. change (Z.of_nat 3 =? StagePause) with true in H. cbv iota in H. destruct (must (teardown (y_w y)) _) as [[w c] f] eqn:M. apply must_not_return in M. injection H as <-. contradiction.
  - injection H as <-. split; [exact E1|]. destruct E5 as (_ & (k & A) & _). exists k. cbn [y_w]. rewrite A. unfold errands, base, descr. rewrite <- app_assoc. reflexivity.
Qed.
Lemma yrun_split es : forall y y' e, yrun y (es ++ [e]) = Some y' -> exists y1, yrun y es = Some y1 /\ ystep y1 e = Some y' /\ stages_taken y (es ++ [e]) = stages_taken y es ++ took_stage y1 e.
Proof.
  induction es as [|e0 es IH]; intros y y' e H; cbn [yrun app stages_taken] in *.
  - exists y. destruct (ystep y e) eqn:E; [|discriminate]. splits; [reflexivity|exact H|]. apply app_nil_r.
  - destruct (ystep y e0) as [y2|]; [|discriminate]. apply IH in H as (y1 & A & B & C). exists y1. splits; [exact A|exact B|]. rewrite C, app_assoc. reflexivity.
Qed.
