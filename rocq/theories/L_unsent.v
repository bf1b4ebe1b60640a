(* Lemmas: requests that cannot be written. *)
From Coq Require Import String.
From Verif Require Import Base GoStrings S_message M_conn M_message S_transport M_transport M_sdp M_sps M_session S_session L_base L_strings L_session L_flow S_ports L_ports.
From Coq Require Import ZifyBool ZifyNat.

(* Setup when the write of request number k fails *)
Lemma setup_from_short e more : forall k todo w i,
  s_conn (w_s w) = true -> s_proto (w_s w) <> ProtoHTTP -> 0 <= s_cseq (w_s w) -> s_cseq (w_s w) + zlen todo < 2 ^ 63 ->
  length (s_feeds (w_s w)) = (i + length todo)%nat -> (k < length todo)%nat -> w_writes w = repeat None k ++ Some e :: more ->
  exists w', setup_from w i todo = (w', Err e) /\
    map fd_cseq (s_feeds (w_s w')) = firstn i (map fd_cseq (s_feeds (w_s w))) ++ from_z (s_cseq (w_s w)) k ++ skipn (i + k) (map fd_cseq (s_feeds (w_s w))) /\
    s_feedidx (w_s w') = s_feedidx (w_s w) /\ s_stage (w_s w') = s_stage (w_s w) /\ w_writes w' = more /\
    (forall c, s_cseq (w_s w) < c <= s_cseq (w_s w) + Z.of_nat k -> exists req, qget (s_queue (w_s w')) c = Some req /\ q_verb req = bs "SETUP") /\
    (forall c, c <= s_cseq (w_s w) -> qget (s_queue (w_s w')) c = qget (s_queue (w_s w)) c) /\
    readies (w_log w') = readies (w_log w) /\
    asks (w_log w') = asks (w_log w) ++ firstn (S k) (map (fun f => transport_string (fd_transp f)) todo).
Proof.
  induction k as [|k IH]; intros todo w i C P C0 B L K W; destruct todo as [|f todo]; cbn [length] in K; try lia; cbn [setup_from];
    unfold setup_uri; (assert (U : exists uri, (if has_prefix (bs "rtsp://") (m_control (fd_media f)) then Ok (m_control (fd_media f)) else if s_conn (w_s w) then Ok (s_uri (w_s w) ++ bs "/" ++ m_control (fd_media f)) else Panic) = Ok uri)
      by (rewrite C; destruct (has_prefix _ _); eexists; reflexivity)); destruct U as (uri & ->);
    destruct (command_exact w (bs "SETUP") uri [(bs "Transport", transport_string (fd_transp f))] C P) as (rq & w1 & o & EC & L1 & V & _ & H & Q1 & _ & Q2 & Q3 & Q4 & Q5 & Q6 & Q7 & _ & Q9 & _ & OO & WW & _);
    rewrite EC, OO, W; rewrite W in WW; rewrite zlen_cons in B; pose proof (zlen_nonneg todo) as PT;
    (assert (KQ : q_cseq rq = s_cseq (w_s w) + 1) by (rewrite Q1; apply i64_small; lia));
    (assert (A : asks (w_log w1) = asks (w_log w) ++ [transport_string (fd_transp f)]) by (rewrite L1, asks_app; cbn [asks flat_map app]; rewrite V, H; reflexivity)).
  - cbn [repeat app] in *. cbn [tl] in WW. exists w1. cbn [from_z app]. rewrite Nat.add_0_r, firstn_skipn, Q4.
    splits; try reflexivity; try assumption.
    + intros c Hc. lia.
    + intros c Hc. rewrite Q2. destruct (c =? q_cseq rq) eqn:E; [lia|reflexivity].
    + rewrite L1, readies_app. cbn. apply app_nil_r.
  - cbn [repeat app] in *. cbn [tl] in WW. 
    set (w2 := upd_s w1 (mark_feed i)) in *.
    assert (NF : exists g, nth_error (s_feeds (w_s w1)) i = Some g).
    { destruct (nth_error (s_feeds (w_s w1)) i) as [g|] eqn:G; [eexists; reflexivity|]. exfalso. apply nth_error_None in G. rewrite Q4, L in G. cbn [length] in G. lia. }
    destruct NF as (g & NG).
    assert (M : w_s w2 = set_feeds (w_s w1) (upd (s_feeds (w_s w1)) i (mkFeed (fd_media g) (fd_transp g) (s_cseq (w_s w1)) (fd_set g) (fd_sets g)))).
    { unfold w2, upd_s, mark_feed. cbn [w_s]. rewrite NG. reflexivity. }
    assert (ML : w_log w2 = w_log w1) by reflexivity. assert (MW : w_writes w2 = w_writes w1) by reflexivity.
    assert (MF : map fd_cseq (s_feeds (w_s w2)) = firstn i (map fd_cseq (s_feeds (w_s w))) ++ (s_cseq (w_s w) + 1) :: skipn (S i) (map fd_cseq (s_feeds (w_s w)))).
    { rewrite M. cbn [set_feeds s_feeds]. rewrite (mark_cseq _ _ _ _ NG eq_refl), Q4, Q3, KQ. reflexivity. }
    assert (Li : length (firstn i (map fd_cseq (s_feeds (w_s w)))) = i).
    { rewrite firstn_length, map_length, L. cbn [length]. lia. }
    clearbody w2.
    assert (X : s_conn (w_s w2) = true /\ s_proto (w_s w2) = s_proto (w_s w) /\ s_cseq (w_s w2) = s_cseq (w_s w) + 1 /\ s_feedidx (w_s w2) = s_feedidx (w_s w) /\ s_stage (w_s w2) = s_stage (w_s w) /\ s_queue (w_s w2) = s_queue (w_s w1) /\ length (s_feeds (w_s w2)) = length (s_feeds (w_s w1))).
    { rewrite M. cbn [set_feeds s_conn s_proto s_cseq s_feedidx s_stage s_queue s_feeds]. rewrite upd_length. splits; congruence. }
    destruct X as (X1 & X2 & X3 & X4 & X5 & X6 & X7).
    destruct (IH todo w2 (S i)) as (w' & E & E1 & E2 & E3 & E4 & E5 & E6 & E7 & E8); [exact X1|congruence|lia|lia|rewrite X7, Q4, L; cbn [length]; lia|lia|rewrite MW, WW; reflexivity|].
    exists w'. splits; [exact E| |congruence|congruence|exact E4| | | |].
    + rewrite E1, MF, X3. cbn [from_z].
      set (a := firstn i (map fd_cseq (s_feeds (w_s w)))) in *. set (t := map fd_cseq (s_feeds (w_s w))) in *.
      replace (firstn (S i) (a ++ (s_cseq (w_s w) + 1) :: skipn (S i) t)) with (a ++ [s_cseq (w_s w) + 1]) by (replace (S i) with (i + 1)%nat at 1 by lia; rewrite <- Li at 1; rewrite firstn_app_2; reflexivity).
      replace (skipn (S i + k) (a ++ (s_cseq (w_s w) + 1) :: skipn (S i) t)) with (skipn (i + S k) t).
      * rewrite <- app_assoc. reflexivity.
      * replace (S i + k)%nat with (length a + S k)%nat by lia. rewrite skipn_app, (skipn_all2 a) by lia. replace (length a + S k - length a)%nat with (S k) by lia. cbn [app]. change (skipn (S k) ((s_cseq (w_s w) + 1) :: skipn (S i) t)) with (skipn k (skipn (S i) t)). rewrite skipn_skipn. f_equal. lia.
    + intros c Hc. destruct (Z.eq_dec c (s_cseq (w_s w) + 1)) as [->|N].
      * exists rq. split; [|exact V]. rewrite E6 by lia. rewrite X6, Q2, KQ, Z.eqb_refl. reflexivity.
      * apply E5. lia.
    + intros c Hc. rewrite E6 by lia. rewrite X6, Q2. destruct (c =? q_cseq rq) eqn:Ec; [lia|reflexivity].
    + rewrite E7, ML, L1, readies_app. cbn. apply app_nil_r.
    + rewrite E8, ML, A, <- app_assoc. reflexivity.
Qed.

(* ---- the answers to the requests that were written ---- *)
(* l: the numbers kept with the streams; a: those of the requests that were written; done: those answered *)
Definition short (w : world) (l a done : list Z) : Prop :=
  map fd_cseq (s_feeds (w_s w)) = l /\ s_feedidx (w_s w) = zlen done /\
  (forall c, In c a -> ~ In c done -> exists req, qget (s_queue (w_s w)) c = Some req /\ q_verb req = bs "SETUP").

Lemma short_answer w l a done r w' :
  (forall c, In c a -> matching c l = 1) -> zlen a < zlen l -> zlen l < 2 ^ 63 -> NoDup (p_cseq r :: done) -> incl (p_cseq r :: done) a -> short w l a done -> p_code r <> 401 ->
  handle_response w r = (w', Ok tt) ->
  short w' l a (p_cseq r :: done) /\ readies (w_log w') = readies (w_log w) /\ s_stage (w_s w') = s_stage (w_s w).
Proof.
  intros N K0 B ND I (A1 & A2 & A3) C. inversion ND as [|? ? NI ND']; subst l.
  assert (IC : In (p_cseq r) a) by (apply I; left; reflexivity).
  destruct (A3 _ IC NI) as (req & Q & V). unfold handle_response. cbv zeta. cbn [note w_s]. rewrite Q.
  destruct (p_code r =? 401) eqn:E4; [lia|].
  set (w0 := upd_s (upd_s (note w (Got r)) (fun s => set_queue s (qdel (s_queue s) (p_cseq r)))) (fun s => learn_session s r)).
  assert (F : s_feeds (w_s w0) = s_feeds (w_s w) /\ s_feedidx (w_s w0) = s_feedidx (w_s w) /\ s_queue (w_s w0) = qdel (s_queue (w_s w)) (p_cseq r) /\ s_stage (w_s w0) = s_stage (w_s w)) by exact (learn_frame (set_queue (w_s w) (qdel (s_queue (w_s w)) (p_cseq r))) r).
  assert (L0 : w_log w0 = w_log w ++ [Got r]) by reflexivity.
  clearbody w0. destruct F as (F1 & F2 & F3 & F4).
  unfold react. rewrite V. change (beq (bs "SETUP") (bs "OPTIONS")) with false. change (beq (bs "SETUP") (bs "DESCRIBE")) with false. change (beq (bs "SETUP") (bs "PAUSE")) with false.
  change (beq (bs "SETUP") (bs "PLAY")) with false. change (beq (bs "SETUP") (bs "TEARDOWN")) with false. change (beq (bs "SETUP") (bs "SETUP")) with true. cbv iota.
  assert (LD : zlen done + 1 <= zlen a).
  { pose proof (NoDup_incl_length ND I) as X. cbn [length] in X. unfold zlen. lia. }
  pose proof (zlen_nonneg done) as PD.
  assert (Fin : forall w1, map fd_cseq (s_feeds (w_s w1)) = map fd_cseq (s_feeds (w_s w)) -> s_feedidx (w_s w1) = zlen done + 1 -> s_queue (w_s w1) = s_queue (w_s w0) -> s_stage (w_s w1) = s_stage (w_s w) ->
    (exists new, w_log w1 = w_log w0 ++ new /\ readies new = []) ->
    (if s_feedidx (w_s w1) >=? zlen (s_feeds (w_s w1)) then (note (notify w1 StageReady) Started, Ok tt) else (w1, Ok tt)) = (w', Ok tt) ->
    short w' (map fd_cseq (s_feeds (w_s w))) a (p_cseq r :: done) /\ readies (w_log w') = readies (w_log w) /\ s_stage (w_s w') = s_stage (w_s w)).
  { intros w1 M1 M2 M3 M4 (new & LN & RN) E.
    assert (ZL : zlen (s_feeds (w_s w1)) = zlen (map fd_cseq (s_feeds (w_s w)))) by (rewrite <- M1; unfold zlen; rewrite map_length; reflexivity).
    rewrite M2, ZL in E. destruct (zlen done + 1 >=? zlen (map fd_cseq (s_feeds (w_s w)))) eqn:G; [lia|]. inversion E; subst; clear E.
    splits; [|rewrite LN, readies_app, RN, app_nil_r, L0, readies_app; cbn; apply app_nil_r|exact M4].
    unfold short. rewrite zlen_cons. splits; [exact M1|lia|]. intros c Ic Nc. rewrite M3, F3, qget_del. destruct (c =? p_cseq r) eqn:Ec; [exfalso; apply Nc; left; lia|]. apply A3; [exact Ic|]. intros X. apply Nc. right. exact X. }
  unfold handle_setup. destruct (p_code r =? 200) eqn:E2.
  - destruct (setup_feeds w0 (p_cseq r) (header_get (p_header r) (bs "Transport")) 0 (s_feeds (w_s w0))) as [w1 [u|e| |]] eqn:SF; intros E; try discriminate. destruct u.
    apply setup_feeds_frame in SF; [|intros n f X; exact X|rewrite F2, A2; lia].
    destruct SF as (S1 & S2 & S3 & S4 & S5). apply (Fin w1); [congruence| |congruence|congruence|exact S5|exact E].
    rewrite S2, F1, F2, A2, (N _ IC). apply i64_small. lia.
  - rewrite E4. cbn [negb]. intros E. apply (Fin (upd_s w0 (fun s => set_feedidx s (i64 (s_feedidx s + 1))))); try reflexivity; try exact E.
    + cbn [upd_s w_s set_feedidx s_feeds]. rewrite F1. reflexivity.
    + cbn [upd_s w_s set_feedidx s_feedidx]. rewrite F2, A2. apply i64_small. lia.
    + cbn [upd_s w_s set_feedidx s_stage]. exact F4.
    + exists []. rewrite app_nil_r. split; reflexivity.
Qed.

Lemma short_answers rs : forall w l a done w',
  (forall c, In c a -> matching c l = 1) -> zlen a < zlen l -> zlen l < 2 ^ 63 -> NoDup (rev (map p_cseq rs) ++ done) -> incl (map p_cseq rs) a -> incl done a -> short w l a done -> Forall (fun r => p_code r <> 401) rs ->
  handled w rs w' -> readies (w_log w') = readies (w_log w) /\ s_stage (w_s w') = s_stage (w_s w).
Proof.
  induction rs as [|r rs IH]; intros w l a done w' N K B ND I ID A C H; inversion H; subst; [split; reflexivity|].
  cbn [map rev] in *. rewrite <- app_assoc in *. cbn [app] in *. inversion C; subst.
  assert (ND2 : NoDup (p_cseq r :: done)). { clear - ND. induction (rev (map p_cseq rs)) as [|x l' IH]; [exact ND|]. inversion ND; subst. auto. }
  assert (I2 : incl (p_cseq r :: done) a). { intros x [<-|X]; [apply I; left; reflexivity|apply ID; exact X]. }
  destruct (short_answer w l a done r w1 N K B ND2 I2 A) as (A1 & R1 & S1); [assumption|assumption|].
  destruct (IH w1 l a (p_cseq r :: done) w') as (R3 & S3); try assumption; [intros x X; apply I; right; exact X|]. split; congruence.
Qed.

Lemma matching_app c a b : matching c (a ++ b) = matching c a + matching c b.
Proof. unfold matching, zlen. rewrite filter_app, app_length. lia. Qed.
Lemma matching_none c l : ~ In c l -> matching c l = 0.
Proof.
  unfold matching. induction l as [|x l IH]; intros N; [reflexivity|]. cbn [filter]. destruct (x =? c) eqn:E; [exfalso; apply N; left; lia|]. apply IH. intros X. apply N. right. exact X.
Qed.
Lemma make_feeds_cseq proto ms : forall i, map fd_cseq (make_feeds proto i ms) = repeat 0 (length ms).
Proof. induction ms as [|m ms IH]; intros i; [reflexivity|]. cbn [make_feeds map length repeat fd_cseq]. rewrite IH. reflexivity. Qed.
Lemma skipn_repeat {A} (x : A) k : forall n, skipn k (repeat x n) = repeat x (n - k).
Proof. induction k as [|k IH]; intros [|n]; try reflexivity. cbn [repeat skipn Nat.sub]. apply IH. Qed.

Lemma describe_short w r body ms k e more :
  described w r body -> In (s_proto (w_s w)) [ProtoTCP; ProtoUnicast; ProtoMulticast] -> sdp_parse body = Ok ms ->
  s_feedidx (w_s w) = 0 -> 0 <= s_cseq (w_s w) -> s_cseq (w_s w) + zlen ms < 2 ^ 63 -> (k < length ms)%nat -> w_writes w = repeat None k ++ Some e :: more -> zlen ms < 2 ^ 61 ->
  exists w1, handle_response w r = (w1, Err e) /\
    asks (w_log w1) = asks (w_log w) ++ map (fun i => request_text (s_proto (w_s w)) (Z.of_nat i)) (seq 0 (S k)) /\
    readies (w_log w1) = readies (w_log w) /\
    forall rs w2, NoDup (map p_cseq rs) -> Forall (fun x => s_cseq (w_s w) < p_cseq x <= s_cseq (w_s w) + Z.of_nat k /\ p_code x <> 401) rs -> handled w1 rs w2 ->
      readies (w_log w2) = readies (w_log w) /\ s_stage (w_s w2) = s_stage (w_s w).
Proof.
  intros (C & N4 & Bo & rq & Q & V) P D F0 C0 B K W L61. unfold handle_response. cbv zeta. cbn [note w_s]. rewrite Q. destruct (p_code r =? 401) eqn:E4; [lia|].
  set (w0 := upd_s (upd_s (note w (Got r)) (fun s => set_queue s (qdel (s_queue s) (p_cseq r)))) (fun s => learn_session s r)).
  assert (G : s_conn (w_s w0) = s_conn (w_s w) /\ s_proto (w_s w0) = s_proto (w_s w) /\ s_cseq (w_s w0) = s_cseq (w_s w) /\ s_feedidx (w_s w0) = s_feedidx (w_s w) /\ s_stage (w_s w0) = s_stage (w_s w)).
  { unfold w0, upd_s. cbn [w_s note]. unfold learn_session. destruct (beq _ _); splits; reflexivity. }
  assert (A : asks (w_log w0) = asks (w_log w) /\ readies (w_log w0) = readies (w_log w)).
  { unfold w0, upd_s, note. cbn [w_log]. rewrite asks_app, readies_app. cbn [asks flat_map readies filter]. rewrite !app_nil_r. split; reflexivity. }
  assert (W0 : w_writes w0 = w_writes w) by reflexivity.
  clearbody w0. destruct G as (G1 & G2 & G3 & G4 & G5). destruct A as [A1 A2]. unfold react. rewrite V. change (beq (bs "DESCRIBE") (bs "OPTIONS")) with false. change (beq (bs "DESCRIBE") (bs "DESCRIBE")) with true. cbv iota.
  rewrite Bo. unfold parse_feeds. rewrite D. cbn [bind]. unfold setup.
  set (wf := upd_s w0 (fun s => set_feeds s (make_feeds (s_proto (w_s w0)) 0 ms))).
  assert (LF : length (s_feeds (w_s wf)) = length ms) by apply make_feeds_length.
  assert (CF : map fd_cseq (s_feeds (w_s wf)) = repeat 0 (length ms)) by apply make_feeds_cseq.
  assert (TF : map (fun f => transport_string (fd_transp f)) (s_feeds (w_s wf)) = map (fun i => request_text (s_proto (w_s w)) (Z.of_nat i)) (seq 0 (length ms))).
  { cbn [wf upd_s w_s set_feeds s_feeds]. rewrite G2. apply (make_feeds_texts (s_proto (w_s w)) ms P 0%nat (length ms)); [unfold zlen in L61; lia|reflexivity]. }
  destruct (setup_from_short e more k (s_feeds (w_s wf)) wf 0) as (w1 & E & E1 & E2 & E3 & _ & E5 & _ & E7 & E8).
  - exact (eq_trans G1 C).
  - change (s_proto (w_s w0) <> ProtoHTTP). rewrite G2. destruct P as [<-|[<-|[<-|[]]]]; discriminate.
  - change (0 <= s_cseq (w_s w0)). lia.
  - change (s_cseq (w_s w0) + zlen (s_feeds (w_s wf)) < 2 ^ 63). unfold zlen in *. rewrite LF. lia.
  - reflexivity.
  - rewrite LF. exact K.
  - change (w_writes w0 = repeat None k ++ Some e :: more). congruence.
  - change (s_feedidx (w_s wf)) with (s_feedidx (w_s w0)) in E2. change (s_stage (w_s wf)) with (s_stage (w_s w0)) in E3. change (s_cseq (w_s wf)) with (s_cseq (w_s w0)) in E1, E5.
    change (w_log wf) with (w_log w0) in E7, E8.
    exists w1. splits; [exact E| |congruence|].
    + rewrite E8, A1, TF, firstn_map. f_equal. f_equal.
      clear - K. assert (X : forall k n i, (k <= n)%nat -> firstn k (seq i n) = seq i k).
      { induction k0 as [|k0 IH]; intros n i H; [reflexivity|]. destruct n as [|n]; [lia|]. cbn [seq firstn]. f_equal. apply IH. lia. }
      apply X. lia.
    + intros rs w2 ND FA H. rewrite <- A2, <- E7, <- G5, <- E3.
      cbn [firstn app Nat.add] in E1. rewrite CF, skipn_repeat, G3 in E1.
      refine (short_answers rs w1 _ (from_z (s_cseq (w_s w)) k) [] w2 _ _ _ _ _ _ (conj eq_refl (conj _ _)) _ H).
      * intros c Ic. rewrite E1, matching_app, (matching_one c (from_z (s_cseq (w_s w)) k) (from_z_nodup _ _) Ic), (matching_none c (repeat 0 (length ms - k))); [reflexivity|].
        intros X. apply repeat_spec in X. subst c. apply from_z_in in Ic. lia.
      * rewrite E1. unfold zlen. rewrite app_length, from_z_len, repeat_length. lia.
      * rewrite E1. unfold zlen. rewrite app_length, from_z_len, repeat_length. unfold zlen in B. lia.
      * rewrite app_nil_r. apply NoDup_rev. exact ND.
      * intros x X. apply in_map_iff in X as (y & <- & Y). apply from_z_in. pose proof (proj1 (Forall_forall _ _) FA _ Y) as Z1. cbv beta in Z1. lia.
      * intros x [].
      * rewrite E2, G4, F0. reflexivity.
      * intros c Ic _. apply from_z_in in Ic. apply E5. rewrite G3. exact Ic.
      * eapply Forall_impl; [|exact FA]. cbv beta. tauto.
Qed.

(* ---- a keep-alive that cannot be written ---- *)
Lemma keepalive_world w t1 t2 w' : s_conn (w_s w) = true -> s_proto (w_s w) <> ProtoHTTP ->
  w_s w' = w_s w -> w_in w' = w_in w -> tl (w_writes w') = tl (w_writes w) -> w_listens w' = w_listens w -> w_rand w' = w_rand w -> w_log w' = w_log w ->
  negb (s_proto (w_s w) =? ProtoTCP) && (1 <=? s_stage (w_s w)) && (s_stage (w_s w) <=? 3) && match s_last (w_s w) with None => true | Some l => 2000000000 <=? t1 - l end = true ->
  fst (keepalive w' t1 t2) = fst (keepalive w t1 t2).
Proof.
  intros C P E1 E2 E3 E4 E5 E6 D. rewrite !keepalive_exact by (rewrite ?E1; assumption). rewrite E1, D. unfold command, note, upd_s. cbn [w_s w_in w_writes w_listens w_rand w_log]. rewrite E1. cbn [set_last s_conn]. rewrite C. cbn [negb].
  cbv zeta. destruct (call_auth _ _) as [s a] eqn:CA. apply call_auth_frame in CA as (au & -> & _). unfold enqueue. cbv zeta beta iota. unfold write. cbn [w_s w_in w_writes w_listens w_rand w_log set_queue set_cseq set_auth set_last s_proto].
  destruct (s_proto (w_s w) =? ProtoHTTP) eqn:X; [lia|]. rewrite E2, E3, E4, E5, E6. destruct (w_writes w) as [|[e|] l], (w_writes w') as [|[e'|] l']; reflexivity.
Qed.
Lemma keepalive_stage w t1 t2 : s_conn (w_s w) = true -> s_proto (w_s w) <> ProtoHTTP -> s_stage (w_s (fst (keepalive w t1 t2))) = s_stage (w_s w) /\ match snd (keepalive w t1 t2) with Ok _ | Err _ => True | _ => False end.
Proof.
  intros C P. rewrite keepalive_exact by assumption. destruct (_ && _); [|split; exact Logic.I || reflexivity].
  destruct (command_exact (note (upd_s w (fun s => set_last s (Some t2))) (Alive t1 t2)) (bs "OPTIONS") (s_uri (w_s w)) [(bs "Session", s_session (w_s w))] C P) as (rq & w1 & o & -> & _ & _ & _ & _ & _ & _ & _ & _ & _ & _ & _ & _ & _ & S1 & _ & -> & _).
  cbn [fst snd]. split; [exact S1|]. destruct (w_writes _) as [|[e|] l]; exact Logic.I.
Qed.
