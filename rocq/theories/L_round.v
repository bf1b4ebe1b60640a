(* Lemmas: answers to SETUP when others have been counted before. *)
From Coq Require Import String.
From Verif Require Import Base GoStrings M_conn M_message M_transport M_sdp M_digest M_sps M_session S_session L_base L_strings L_session L_flow.
From Coq Require Import ZifyBool.

(* as awaiting, with k answers counted before the first of these *)
Definition round (w : world) (k : Z) (cs done : list Z) : Prop :=
  map fd_cseq (s_feeds (w_s w)) = cs /\ s_feedidx (w_s w) = k + zlen done /\
  (forall c, In c cs -> ~ In c done -> exists req, qget (s_queue (w_s w)) c = Some req /\ q_verb req = bs "SETUP").

Lemma round_answer w k cs done r w' :
  NoDup cs -> 0 <= k -> k + zlen cs < 2 ^ 63 -> NoDup (p_cseq r :: done) -> incl (p_cseq r :: done) cs -> round w k cs done -> p_code r <> 401 ->
  handle_response w r = (w', Ok tt) ->
  round w' k cs (p_cseq r :: done) /\
  readies (w_log w') = readies (w_log w) ++ (if k + zlen done + 1 >=? zlen cs then [Notified 1] else []) /\
  s_stage (w_s w') = (if k + zlen done + 1 >=? zlen cs then 1 else s_stage (w_s w)).
Proof.
  intros N K0 B ND I (A1 & A2 & A3) C. inversion ND as [|? ? NI ND']; subst.
  assert (IC : In (p_cseq r) (map fd_cseq (s_feeds (w_s w)))) by (apply I; left; reflexivity).
  destruct (A3 _ IC NI) as (req & Q & V). unfold handle_response. cbv zeta. cbn [note w_s]. rewrite Q.
  destruct (p_code r =? 401) eqn:E4; [lia|].
  set (w0 := upd_s (upd_s (note w (Got r)) (fun s => set_queue s (qdel (s_queue s) (p_cseq r)))) (fun s => learn_session s r)).
  assert (F : s_feeds (w_s w0) = s_feeds (w_s w) /\ s_feedidx (w_s w0) = s_feedidx (w_s w) /\ s_queue (w_s w0) = qdel (s_queue (w_s w)) (p_cseq r) /\ s_stage (w_s w0) = s_stage (w_s w)) by exact (learn_frame (set_queue (w_s w) (qdel (s_queue (w_s w)) (p_cseq r))) r).
  assert (L0 : w_log w0 = w_log w ++ [Got r]) by reflexivity.
  clearbody w0. destruct F as (F1 & F2 & F3 & F4).
  unfold react. rewrite V. change (beq (bs "SETUP") (bs "OPTIONS")) with false. change (beq (bs "SETUP") (bs "DESCRIBE")) with false. change (beq (bs "SETUP") (bs "PAUSE")) with false.
  change (beq (bs "SETUP") (bs "PLAY")) with false. change (beq (bs "SETUP") (bs "TEARDOWN")) with false. change (beq (bs "SETUP") (bs "SETUP")) with true. cbv iota.
  assert (LD : zlen done + 1 <= zlen (map fd_cseq (s_feeds (w_s w)))).
  { pose proof (NoDup_incl_length ND I) as X. cbn [length] in X. unfold zlen. lia. }
  pose proof (zlen_nonneg done) as PD.
  assert (Fin : forall w1, map fd_cseq (s_feeds (w_s w1)) = map fd_cseq (s_feeds (w_s w)) -> s_feedidx (w_s w1) = k + zlen done + 1 -> s_queue (w_s w1) = s_queue (w_s w0) -> s_stage (w_s w1) = s_stage (w_s w) ->
    (exists new, w_log w1 = w_log w0 ++ new /\ readies new = []) ->
    (if s_feedidx (w_s w1) >=? zlen (s_feeds (w_s w1)) then (note (notify w1 StageReady) Started, Ok tt) else (w1, Ok tt)) = (w', Ok tt) ->
    round w' k (map fd_cseq (s_feeds (w_s w))) (p_cseq r :: done) /\
    readies (w_log w') = readies (w_log w) ++ (if k + zlen done + 1 >=? zlen (map fd_cseq (s_feeds (w_s w))) then [Notified 1] else []) /\
    s_stage (w_s w') = (if k + zlen done + 1 >=? zlen (map fd_cseq (s_feeds (w_s w))) then 1 else s_stage (w_s w))).
  { intros w1 M1 M2 M3 M4 (new & LN & RN) E.
    assert (ZL : zlen (s_feeds (w_s w1)) = zlen (map fd_cseq (s_feeds (w_s w)))) by (rewrite <- M1; unfold zlen; rewrite map_length; reflexivity).
    rewrite M2, ZL in E.
    assert (AW : round w1 k (map fd_cseq (s_feeds (w_s w))) (p_cseq r :: done)).
    { unfold round. rewrite zlen_cons. splits; [exact M1|lia|]. intros c Ic Nc. rewrite M3, F3, qget_del. destruct (c =? p_cseq r) eqn:Ec; [exfalso; apply Nc; left; lia|]. apply A3; [exact Ic|]. intros X. apply Nc. right. exact X. }
    assert (RL : readies (w_log w1) = readies (w_log w)) by (rewrite LN, readies_app, RN, app_nil_r, L0, readies_app; cbn; apply app_nil_r).
    destruct (k + zlen done + 1 >=? zlen (map fd_cseq (s_feeds (w_s w)))); inversion E; subst; clear E.
    - splits; [exact AW| |reflexivity]. cbn [note notify upd_s w_log]. rewrite !readies_app, RL. cbn. rewrite ?app_nil_r. reflexivity.
    - splits; [exact AW| |exact M4]. rewrite RL, app_nil_r. reflexivity. }
  unfold handle_setup. destruct (p_code r =? 200) eqn:E2.
  - destruct (setup_feeds w0 (p_cseq r) (header_get (p_header r) (bs "Transport")) 0 (s_feeds (w_s w0))) as [w1 [u|e| |]] eqn:SF; intros E; try discriminate. destruct u.
    apply setup_feeds_frame in SF; [|intros n f X; exact X|rewrite F2, A2; lia].
    destruct SF as (S1 & S2 & S3 & S4 & S5). apply (Fin w1); [congruence| |congruence|congruence|exact S5|exact E].
    rewrite S2, F1, F2, A2, (matching_one _ _ N IC). apply i64_small. lia.
  - rewrite E4. cbn [negb]. intros E. apply (Fin (upd_s w0 (fun s => set_feedidx s (i64 (s_feedidx s + 1))))); try reflexivity; try exact E.
    + cbn [upd_s w_s set_feedidx s_feeds]. rewrite F1. reflexivity.
    + cbn [upd_s w_s set_feedidx s_feedidx]. rewrite F2, A2. apply i64_small. lia.
    + cbn [upd_s w_s set_feedidx s_stage]. exact F4.
    + exists []. rewrite app_nil_r. split; reflexivity.
Qed.

Definition announced (m k n : Z) : list effect := repeat (Notified 1) (Z.to_nat (Z.min m (k + m - n + 1))).
Lemma announced_0 k n : announced 0 k n = [].
Proof. unfold announced. replace (Z.to_nat (Z.min 0 (k + 0 - n + 1))) with 0%nat by lia. reflexivity. Qed.
Lemma announced_step m k n : 0 <= m -> (if k + 1 >=? n then [Notified 1] else []) ++ announced m (k + 1) n = announced (m + 1) k n.
Proof.
  intros M. unfold announced. destruct (k + 1 >=? n) eqn:E.
  - replace (Z.to_nat (Z.min (m + 1) (k + (m + 1) - n + 1))) with (Datatypes.S (Z.to_nat m)) by lia. replace (Z.to_nat (Z.min m (k + 1 + m - n + 1))) with (Z.to_nat m) by lia. reflexivity.
  - cbn [app]. f_equal. f_equal. lia.
Qed.

Lemma round_answers rs : forall w k cs done w',
  NoDup cs -> 0 <= k -> k + zlen cs < 2 ^ 63 -> NoDup (rev (map p_cseq rs) ++ done) -> incl (map p_cseq rs) cs -> incl done cs -> round w k cs done -> Forall (fun r => p_code r <> 401) rs ->
  handled w rs w' ->
  readies (w_log w') = readies (w_log w) ++ announced (zlen rs) (k + zlen done) (zlen cs) /\
  s_stage (w_s w') = (if (0 <? zlen rs) && (k + zlen done + zlen rs >=? zlen cs) then 1 else s_stage (w_s w)).
Proof.
  induction rs as [|r rs IH]; intros w k cs done w' N K0 B ND I ID A C H; inversion H; subst.
  { change (zlen (@nil response)) with 0. rewrite announced_0, app_nil_r. split; reflexivity. }
  cbn [map rev] in *. rewrite <- app_assoc in *. cbn [app] in *. inversion C; subst.
  assert (ND2 : NoDup (p_cseq r :: done)). { clear - ND. induction (rev (map p_cseq rs)) as [|x l IH]; [exact ND|]. inversion ND; subst. auto. }
  assert (I2 : incl (p_cseq r :: done) cs). { intros x [<-|X]; [apply I; left; reflexivity|apply ID; exact X]. }
  destruct (round_answer w k cs done r w1 N K0 B ND2 I2 A) as (A1 & R1 & S1); [assumption|assumption|].
  destruct (IH w1 k cs (p_cseq r :: done) w') as (R3 & S3); try assumption; [intros x X; apply I; right; exact X|].
  rewrite zlen_cons in R3, S3. rewrite !zlen_cons. pose proof (zlen_nonneg rs) as PR. split.
  - rewrite R3, R1, <- app_assoc. f_equal. rewrite <- announced_step by lia. f_equal. f_equal. lia.
  - rewrite S3, S1. destruct (k + zlen done + 1 >=? zlen cs) eqn:E, (0 <? zlen rs) eqn:E2, (k + (zlen done + 1) + zlen rs >=? zlen cs) eqn:E3, (0 <? zlen rs + 1) eqn:E4, (k + zlen done + (zlen rs + 1) >=? zlen cs) eqn:E5; cbn [andb]; try reflexivity; lia.
Qed.

Lemma round_ready w w1 rs w2 :
  s_conn (w_s w) = true -> s_proto (w_s w) <> ProtoHTTP -> 0 <= s_feedidx (w_s w) -> s_feedidx (w_s w) + zlen (s_feeds (w_s w)) < 2 ^ 63 ->
  0 <= s_cseq (w_s w) -> s_cseq (w_s w) + zlen (s_feeds (w_s w)) < 2 ^ 63 ->
  setup w = (w1, Ok tt) ->
  NoDup (map p_cseq rs) ->
  Forall (fun r => s_cseq (w_s w) < p_cseq r <= s_cseq (w_s w) + zlen (s_feeds (w_s w)) /\ p_code r <> 401) rs ->
  handled w1 rs w2 ->
  readies (w_log w2) = readies (w_log w) ++ announced (zlen rs) (s_feedidx (w_s w)) (zlen (s_feeds (w_s w))) /\
  s_stage (w_s w2) = (if (0 <? zlen rs) && (s_feedidx (w_s w) + zlen rs >=? zlen (s_feeds (w_s w))) then 1 else s_stage (w_s w)).
Proof.
  intros C P F0 FB C0 B E ND FA H. unfold setup in E.
  apply setup_from_exact in E; [|assumption..|reflexivity]. destruct E as (E1 & E2 & E3 & E4 & _ & E6). cbn [firstn app] in E1.
  set (cs := from_z (s_cseq (w_s w)) (length (s_feeds (w_s w)))) in *.
  assert (LC : zlen cs = zlen (s_feeds (w_s w))) by (unfold zlen, cs; rewrite from_z_len; reflexivity).
  assert (IR : incl (map p_cseq rs) cs).
  { intros x X. apply in_map_iff in X as (r & <- & X). apply from_z_in. pose proof (proj1 (Forall_forall _ _) FA _ X) as Y. cbv beta in Y. unfold zlen in Y. lia. }
  destruct (round_answers rs w1 (s_feedidx (w_s w)) cs [] w2) as (R & S); try assumption.
  - apply from_z_nodup.
  - lia.
  - rewrite app_nil_r. apply NoDup_rev. exact ND.
  - intros x [].
  - unfold round. splits; [exact E1|rewrite E2; change (zlen (@nil Z)) with 0; lia|]. intros c Ic _. apply from_z_in in Ic. apply E4. unfold zlen. lia.
  - eapply Forall_impl; [|exact FA]. cbv beta. tauto.
  - change (zlen (@nil Z)) with 0 in *. rewrite Z.add_0_r in R, S. rewrite R, S, E3, E6, LC. split; reflexivity.
Qed.
