(* A session that is opened again: the count of answered SETUP requests goes on where it was (property C121). *)
From Coq Require Import String ZifyBool.
From Verif Require Import Base GoStrings M_conn M_message M_transport M_sdp M_digest M_session M_url M_dial M_open S_session L_base L_session L_flow L_round L_open.

Lemma readies_app a b : readies (a ++ b) = readies a ++ readies b.
Proof. unfold readies. apply filter_app. Qed.

(* the answer to OPTIONS: DESCRIBE follows, and nothing else changes *)
Lemma after_options w r req w' : qget (s_queue (w_s w)) (p_cseq r) = Some req -> q_verb req = bs "OPTIONS" -> p_code r <> 401 ->
  s_conn (w_s w) = true -> s_proto (w_s w) <> ProtoHTTP -> s_stage (w_s w) = StageInit -> 0 <= s_cseq (w_s w) < 2 ^ 63 - 1 ->
  handle_response w r = (w', Ok tt) ->
  exists rq, qget (s_queue (w_s w')) (s_cseq (w_s w) + 1) = Some rq /\ q_verb rq = bs "DESCRIBE" /\ s_cseq (w_s w') = s_cseq (w_s w) + 1 /\
    s_feedidx (w_s w') = s_feedidx (w_s w) /\ s_conn (w_s w') = true /\ s_proto (w_s w') = s_proto (w_s w) /\ s_stage (w_s w') = StageInit /\ readies (w_log w') = readies (w_log w).
Proof.
  intros Q V C1 C P G N H. unfold handle_response in H. cbv zeta in H. cbn [note w_s] in H. rewrite Q in H. destruct (p_code r =? 401) eqn:E4; [lia|].
  unfold react in H. cbv zeta in H. rewrite V in H. change (beq (bs "OPTIONS") (bs "OPTIONS")) with true in H. cbv iota in H.
  match type of H with context [upd_s (upd_s (note w (Got r)) ?f) ?g] => set (w0 := upd_s (upd_s (note w (Got r)) f) g) in H end.
  assert (F : s_conn (w_s w0) = true /\ s_proto (w_s w0) = s_proto (w_s w) /\ s_stage (w_s w0) = StageInit /\ s_feedidx (w_s w0) = s_feedidx (w_s w) /\ s_cseq (w_s w0) = s_cseq (w_s w) /\ w_log w0 = w_log w ++ [Got r]).
  { unfold w0, upd_s, note. cbn [w_s w_log]. unfold learn_session. destruct (beq _ _); splits; assumption || reflexivity. }
  destruct F as (F1 & F2 & F3 & F4 & F5 & F6). rewrite F3 in H. change (StageInit =? StageInit) with true in H. cbv iota in H.
  match type of H with context [describe ?x] => set (w1 := x) in H end. unfold describe, with_conn in H. change (s_conn (w_s w1)) with (s_conn (w_s w0)) in H. rewrite F1 in H.
  assert (P1 : s_proto (w_s w1) <> ProtoHTTP) by (change (s_proto (w_s w1)) with (s_proto (w_s w0)); congruence).
  destruct (command_exact w1 (bs "DESCRIBE") (s_uri (w_s w1)) [(bs "Accept", bs "application/sdp")] F1 P1) as (rq & wa & o & EC & L & V' & _ & _ & Q1 & _ & Q2 & Q3 & _ & Q5 & Q6 & Q7 & _ & Q8 & _).
  rewrite EC in H. injection H as <- ->. change (s_cseq (w_s w1)) with (s_cseq (w_s w0)) in *. change (s_feedidx (w_s w1)) with (s_feedidx (w_s w0)) in *. change (s_conn (w_s w1)) with (s_conn (w_s w0)) in *.
  change (s_proto (w_s w1)) with (s_proto (w_s w0)) in *. change (s_stage (w_s w1)) with (s_stage (w_s w0)) in *. change (w_log w1) with (w_log w0) in *.
  rewrite L_base.i64_small in Q1 by lia. rewrite F5 in Q1.
  exists rq. splits; try congruence.
  - rewrite Q2, Q1, Z.eqb_refl. reflexivity.
  - rewrite L, F6, !readies_app. cbn. rewrite !app_nil_r. reflexivity.
Qed.

Lemma after_describe w r req body fs w' : qget (s_queue (w_s w)) (p_cseq r) = Some req -> q_verb req = bs "DESCRIBE" -> p_code r <> 401 ->
  p_body r = Some body -> parse_feeds (s_proto (w_s w)) body = Ok fs -> handle_response w r = (w', Ok tt) ->
  exists w1, setup w1 = (w', Ok tt) /\ s_feeds (w_s w1) = fs /\ s_feedidx (w_s w1) = s_feedidx (w_s w) /\ s_cseq (w_s w1) = s_cseq (w_s w) /\
    s_conn (w_s w1) = s_conn (w_s w) /\ s_proto (w_s w1) = s_proto (w_s w) /\ readies (w_log w1) = readies (w_log w).
Proof.
  intros Q V C B PF H. unfold handle_response in H. cbv zeta in H. cbn [note w_s] in H. rewrite Q in H. destruct (p_code r =? 401) eqn:E; [lia|]. unfold react in H. cbv zeta in H. rewrite V in H.
  change (beq (bs "DESCRIBE") (bs "OPTIONS")) with false in H. change (beq (bs "DESCRIBE") (bs "DESCRIBE")) with true in H. cbv iota in H. rewrite B in H.
  match type of H with context [parse_feeds ?p body] => assert (X : p = s_proto (w_s w)) by (unfold upd_s, note, learn_session; cbn [w_s]; destruct (beq _ _); reflexivity); rewrite X, PF in H end.
  eexists. split; [exact H|]. unfold upd_s, note. cbn [w_s w_log]. unfold learn_session.
  destruct (beq _ _); cbn; (splits; try reflexivity); rewrite readies_app; cbn; apply app_nil_r.
Qed.

Lemma opened_options w w1 url proto reach guid werr net : proto <> ProtoHTTP -> 0 <= s_cseq (w_s w) < 2 ^ 63 - 1 -> open w url proto reach guid werr net = (w1, Some (Ok tt)) ->
  exists rq, qget (s_queue (w_s w1)) (s_cseq (w_s w) + 1) = Some rq /\ q_verb rq = bs "OPTIONS" /\ s_cseq (w_s w1) = s_cseq (w_s w) + 1 /\
    s_feedidx (w_s w1) = s_feedidx (w_s w) /\ s_conn (w_s w1) = true /\ s_proto (w_s w1) = proto /\ s_stage (w_s w1) = s_stage (w_s w) /\ readies (w_log w1) = readies (w_log w).
Proof.
  intros P N O. unfold open in O. destruct (dial url proto reach guid werr net) as [[es net'] [c|]] eqn:D; [|discriminate].
  destruct (dial_conn _ _ _ _ _ _ _ _ _ D) as [C PR]. set (w0 := upd_in _ net') in O.
  assert (C0 : s_conn (w_s w0) = true) by exact C. assert (P0 : s_proto (w_s w0) = proto) by exact PR.
  unfold options, with_conn in O. rewrite C0 in O. assert (P1 : s_proto (w_s w0) <> ProtoHTTP) by congruence.
  destruct (command_exact w0 (bs "OPTIONS") (s_uri (w_s w0)) [] C0 P1) as (rq & wa & o & EC & L & V & _ & _ & Q1 & _ & Q2 & Q3 & _ & Q5 & Q6 & Q7 & _ & Q8 & _).
  rewrite EC in O. injection O as <- ->. change (s_cseq (w_s w0)) with (s_cseq (w_s w)) in *. change (s_feedidx (w_s w0)) with (s_feedidx (w_s w)) in *. change (s_stage (w_s w0)) with (s_stage (w_s w)) in *. change (w_log w0) with (w_log w) in *.
  rewrite L_base.i64_small in Q1 by lia. exists rq. splits; try congruence.
  - rewrite Q2, Q1, Z.eqb_refl. reflexivity.
  - rewrite L, readies_app. cbn. apply app_nil_r.
Qed.

Lemma opened_early w w1 w2 w3 url proto reach guid werr net ro rd body fs rs :
  proto <> ProtoHTTP -> s_stage (w_s w) = StageInit -> 0 <= s_feedidx (w_s w) -> s_feedidx (w_s w) + zlen fs < 2 ^ 63 -> 0 <= s_cseq (w_s w) -> s_cseq (w_s w) + 2 + zlen fs < 2 ^ 63 ->
  open w url proto reach guid werr net = (w1, Some (Ok tt)) ->
  p_cseq ro = s_cseq (w_s w) + 1 -> p_code ro <> 401 -> p_cseq rd = s_cseq (w_s w) + 2 -> p_code rd <> 401 -> p_body rd = Some body -> parse_feeds proto body = Ok fs ->
  handled w1 [ro; rd] w2 ->
  NoDup (map p_cseq rs) -> Forall (fun r => s_cseq (w_s w) + 2 < p_cseq r <= s_cseq (w_s w) + 2 + zlen fs /\ p_code r <> 401) rs -> handled w2 rs w3 ->
  readies (w_log w3) = readies (w_log w) ++ announced (zlen rs) (s_feedidx (w_s w)) (zlen fs).
Proof.
  intros P G F0 FB C0 CB O O1 O2 D1 D2 DB PF H ND FA H3. pose proof (zlen_nonneg fs) as LF.
  assert (N0 : 0 <= s_cseq (w_s w) < 2 ^ 63 - 1) by lia. destruct (opened_options _ _ _ _ _ _ _ _ P N0 O) as (q1 & A1 & A2 & A3 & A4 & A5 & A6 & A7 & A8).
  inversion H as [|? ? wa ? ? E1 H']; subst. inversion H' as [|? ? wb ? ? E2 H'']; subst. inversion H''; subst. clear H H' H''.
  rewrite <- O1 in A1. assert (P1 : s_proto (w_s w1) <> ProtoHTTP) by congruence. rewrite G in A7.
  destruct (after_options w1 ro q1 wa A1 A2 O2 A5 P1 A7 ltac:(lia) E1) as (q2 & B1 & B2 & B3 & B4 & B5 & B6 & B7 & B8).
  replace (s_cseq (w_s w1) + 1) with (p_cseq rd) in B1 by lia. rewrite <- B6 in PF.
  destruct (after_describe wa rd q2 body fs w2 B1 B2 D2 DB PF E2) as (wc & K1 & K2 & K3 & K4 & K5 & K6 & K7).
  destruct (round_ready wc w2 rs w3) as (R & _); try (rewrite ?K2, ?K3, ?K4, ?B3, ?A3, ?B4, ?A4; lia); try assumption; try congruence.
  - eapply Forall_impl; [|exact FA]. intros r X. cbn beta in X. rewrite K2, K4, B3, A3. lia.
Qed.
