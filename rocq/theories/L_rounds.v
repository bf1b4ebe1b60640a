(* The answers to SETUP, over UDP in any order, and for a second description (properties C61, C74). *)
From Coq Require Import String ZifyBool ZifyNat.
From Verif Require Import Base GoStrings M_conn M_message M_transport M_sdp M_digest M_sps M_session S_transport S_session S_rounds L_base L_transport L_session L_flow.

(* ---- C61: a second description ---- *)
Lemma handled_prims rs : forall w w', s_proto (w_s w) <> ProtoHTTP -> handled w rs w' ->
  s_proto (w_s w') = s_proto (w_s w) /\ s_conn (w_s w') = s_conn (w_s w).
Proof.
  induction rs as [|r rs IH]; intros w w' P H; inversion H; subst; [split; reflexivity|].
  match goal with E : handle_response _ _ = _ |- _ => destruct (handle_response_prims _ _ _ _ None P E) as (c & X) end.
  apply prims_proto in X as [X1 X2]. cbn [fst] in X1, X2. match goal with E : handled _ rs _ |- _ => apply IH in E; [destruct E; split; congruence|congruence] end.
Qed.

Lemma setup_counts w w1 rs w2 :
  s_conn (w_s w) = true -> s_proto (w_s w) <> ProtoHTTP -> s_feedidx (w_s w) = 0 -> s_feeds (w_s w) <> [] ->
  0 <= s_cseq (w_s w) -> s_cseq (w_s w) + zlen (s_feeds (w_s w)) < 2 ^ 63 ->
  setup w = (w1, Ok tt) -> NoDup (map p_cseq rs) ->
  Forall (fun r => s_cseq (w_s w) < p_cseq r <= s_cseq (w_s w) + zlen (s_feeds (w_s w)) /\ p_code r <> 401) rs ->
  handled w1 rs w2 ->
  s_feedidx (w_s w2) = zlen rs /\ s_conn (w_s w2) = true /\ s_proto (w_s w2) <> ProtoHTTP.
Proof.
  intros C P F0 NE C0 B E ND FA H. unfold setup in E.
  destruct (prims_proto _ _ (setup_from_prims _ _ _ _ _ None P E)) as (P1 & P2). cbn [fst] in P1, P2.
  destruct (handled_prims rs w1 w2) as (P3 & P4); [congruence|exact H|].
  apply setup_from_exact in E; [|assumption..|reflexivity]. destruct E as (E1 & E2 & E3 & E4 & _ & E6). cbn [firstn app] in E1.
  set (cs := from_z (s_cseq (w_s w)) (length (s_feeds (w_s w)))) in *.
  assert (LC : zlen cs = zlen (s_feeds (w_s w))) by (unfold zlen, cs; rewrite from_z_len; reflexivity).
  assert (PF : 0 < zlen (s_feeds (w_s w))) by (destruct (s_feeds (w_s w)); [contradiction|rewrite zlen_cons; pose proof (zlen_nonneg l); lia]).
  assert (IR : incl (map p_cseq rs) cs).
  { intros x X. apply in_map_iff in X as (r & <- & X). apply from_z_in. pose proof (proj1 (Forall_forall _ _) FA _ X) as Y. cbv beta in Y. unfold zlen in Y. lia. }
  destruct (setup_answers rs w1 cs [] w2) as ((_ & I & _) & _ & _); try assumption.
  - apply from_z_nodup.
  - lia.
  - rewrite app_nil_r. apply NoDup_rev. exact ND.
  - intros x [].
  - unfold awaiting. splits; [exact E1|rewrite E2, F0; reflexivity|]. intros c Ic _. apply from_z_in in Ic. apply E4. unfold zlen. lia.
  - eapply Forall_impl; [|exact FA]. cbv beta. tauto.
  - change (zlen []) with 0. lia.
  - splits; try congruence. rewrite I, app_nil_r. unfold zlen. rewrite rev_length, map_length. reflexivity.
Qed.

Lemma matching_le c l : 0 <= matching c l <= zlen l.
Proof. unfold matching, zlen. split; [lia|]. induction l as [|x l IH]; [cbn; lia|]. cbn [filter]. destruct (x =? c); cbn [length] in *; lia. Qed.
(* the reaction to the answer of a SETUP request, when as many answers have been counted as there are streams *)
Lemma answered_ready w r req w' : qget (s_queue (w_s w)) (p_cseq r) = Some req -> q_verb req = bs "SETUP" -> p_code r <> 401 ->
  zlen (s_feeds (w_s w)) <= s_feedidx (w_s w) -> s_feedidx (w_s w) + zlen (s_feeds (w_s w)) < 2 ^ 63 - 1 ->
  handle_response w r = (w', Ok tt) -> readies (w_log w') = readies (w_log w) ++ [Notified 1] /\ s_stage (w_s w') = 1.
Proof.
  intros Q V C LE B. unfold handle_response. cbv zeta. cbn [note w_s]. rewrite Q. destruct (p_code r =? 401) eqn:E4; [lia|].
  set (w0 := upd_s (upd_s (note w (Got r)) (fun s => set_queue s (qdel (s_queue s) (p_cseq r)))) (fun s => learn_session s r)).
  assert (F : s_feeds (w_s w0) = s_feeds (w_s w) /\ s_feedidx (w_s w0) = s_feedidx (w_s w) /\ s_queue (w_s w0) = qdel (s_queue (w_s w)) (p_cseq r) /\ s_stage (w_s w0) = s_stage (w_s w)) by exact (learn_frame (set_queue (w_s w) (qdel (s_queue (w_s w)) (p_cseq r))) r).
  assert (L0 : w_log w0 = w_log w ++ [Got r]) by reflexivity. clearbody w0. destruct F as (F1 & F2 & F3 & F4).
  unfold react. rewrite V. change (beq (bs "SETUP") (bs "OPTIONS")) with false. change (beq (bs "SETUP") (bs "DESCRIBE")) with false. change (beq (bs "SETUP") (bs "PAUSE")) with false.
  change (beq (bs "SETUP") (bs "PLAY")) with false. change (beq (bs "SETUP") (bs "TEARDOWN")) with false. change (beq (bs "SETUP") (bs "SETUP")) with true. cbv iota.
  pose proof (zlen_nonneg (s_feeds (w_s w))) as Z0.
  assert (Fin : forall w1, zlen (s_feeds (w_s w1)) <= s_feedidx (w_s w1) -> (exists new, w_log w1 = w_log w0 ++ new /\ readies new = []) ->
    (if s_feedidx (w_s w1) >=? zlen (s_feeds (w_s w1)) then (note (notify w1 StageReady) Started, Ok tt) else (w1, Ok tt)) = (w', Ok tt) ->
    readies (w_log w') = readies (w_log w) ++ [Notified 1] /\ s_stage (w_s w') = 1).
  { intros w1 G (new & LN & RN) E. destruct (_ >=? _) eqn:GE; [|lia]. assert (w' = note (notify w1 StageReady) Started) as -> by congruence.
    cbn [note notify upd_s w_log w_s set_stage s_stage]. split; [|reflexivity]. rewrite LN, L0, !readies_app, RN. cbn. rewrite ?app_nil_r. reflexivity. }
  unfold handle_setup. destruct (p_code r =? 200) eqn:E2.
  - destruct (setup_feeds w0 (p_cseq r) (header_get (p_header r) (bs "Transport")) 0 (s_feeds (w_s w0))) as [w1 [u|e| |]] eqn:SF; intros E; try discriminate. destruct u.
    apply setup_feeds_frame in SF; [|intros n f X; exact X|rewrite F2; lia]. destruct SF as (S1 & S2 & _ & _ & S5). apply (Fin w1); [|exact S5|exact E].
    assert (ZL : zlen (s_feeds (w_s w1)) = zlen (s_feeds (w_s w))) by (unfold zlen; rewrite <- (map_length fd_cseq), S1, map_length, F1; reflexivity).
    rewrite ZL, S2, F1, F2. assert (M : 0 <= matching (p_cseq r) (map fd_cseq (s_feeds (w_s w))) <= zlen (s_feeds (w_s w))).
    { pose proof (matching_le (p_cseq r) (map fd_cseq (s_feeds (w_s w)))) as ML. unfold zlen in ML |- *. rewrite map_length in ML. exact ML. }
    rewrite i64_small by lia. lia.
  - rewrite E4. cbn [negb]. intros E. apply (Fin (upd_s w0 (fun s => set_feedidx s (i64 (s_feedidx s + 1))))); try exact E.
    + cbn [upd_s w_s set_feedidx s_feeds s_feedidx]. rewrite F1, F2, i64_small by lia. lia.
    + exists []. rewrite app_nil_r. split; reflexivity.
Qed.

(* ---- C74: the listeners ---- *)
Lemma command_listens w verb uri h w' o : command w verb uri h = (w', o) -> w_listens w' = w_listens w.
Proof.
  unfold command. destruct (negb (s_conn (w_s w))); [intros E; injection E as <- _; reflexivity|]. destruct (call_auth _ _) as [s a]. destruct (enqueue _ _) as [s2 r]. unfold write. cbn [upd_s w_s w_writes].
  destruct (_ =? _); [intros E; injection E as <- _; reflexivity|]. destruct (w_writes w) as [|[x|] l]; intros E; injection E as <- _; reflexivity.
Qed.
Lemma setup_from_udp todo : forall w i w', s_conn (w_s w) = true -> s_proto (w_s w) <> ProtoHTTP -> Forall over_udp (s_feeds (w_s w)) -> setup_from w i todo = (w', Ok tt) ->
  Forall over_udp (s_feeds (w_s w')) /\ w_listens w' = w_listens w /\ listenings (w_log w') = listenings (w_log w).
Proof.
  induction todo as [|f todo IH]; intros w i w' C P F E; cbn [setup_from] in E.
  { injection E as <-. splits; auto. }
  destruct (setup_uri (w_s w) (m_control (fd_media f))) as [uri|e| |]; try discriminate.
  destruct (command_exact w (bs "SETUP") uri [(bs "Transport", transport_string (fd_transp f))] C P) as (rq & w1 & o & EC & L1 & V & _ & _ & Q1 & _ & Q2 & Q3 & Q4 & Q5 & Q6 & Q7 & _).
  pose proof (command_listens _ _ _ _ _ _ EC) as WL. rewrite EC in E. destruct o as [u|e| |]; try discriminate.
  apply IH in E.
  - destruct E as (G1 & G2 & G3). splits; [exact G1|rewrite G2; exact WL|]. rewrite G3. cbn [upd_s w_log]. rewrite L1, listenings_app. cbn. apply app_nil_r.
  - cbn [upd_s w_s]. unfold mark_feed. destruct (nth_error _ _); cbn; congruence.
  - cbn [upd_s w_s]. unfold mark_feed. destruct (nth_error _ _); cbn; congruence.
  - cbn [upd_s w_s]. unfold mark_feed. rewrite <- Q4 in F. destruct (nth_error (s_feeds (w_s w1)) i) as [g|] eqn:N; [|exact F]. cbn [set_feeds s_feeds].
    assert (G : over_udp g) by (apply nth_error_In in N; exact (proj1 (Forall_forall _ _) F g N)).
    clear - F G. revert i. induction (s_feeds (w_s w1)) as [|x l IH]; intros i; [destruct i; constructor|]. inversion F; subst. destruct i; cbn [upd]; constructor; auto.
Qed.

Lemma listen_udp w r req pre f post t :
  s_feeds (w_s w) = pre ++ f :: post -> fd_cseq f = p_cseq r -> Forall (fun g => fd_cseq g <> p_cseq r) (pre ++ post) -> over_udp f ->
  qget (s_queue (w_s w)) (p_cseq r) = Some req -> q_verb req = bs "SETUP" -> p_code r = 200 ->
  header_get (p_header r) (bs "Transport") = transport_string t -> transport_ok t -> t_tcp t = false -> w_listens w = [] -> 0 <= s_feedidx (w_s w) < 127 ->
  exists w' f', handle_response w r = (w', Ok tt) /\
    let ch := 2 * (s_feedidx (w_s w) + 1) in let p := t_port (received (fd_transp f) t) in
    listenings (w_log w') = listenings (w_log w) ++ [(ch, p_one p); (ch + 1, p_two p)] /\
    s_feedidx (w_s w') = s_feedidx (w_s w) + 1 /\ s_feeds (w_s w') = pre ++ f' :: post /\ fd_cseq f' = fd_cseq f /\
    s_queue (w_s w') = qdel (s_queue (w_s w)) (p_cseq r) /\ w_listens w' = [].
Proof.
  intros F C FA (FT & sets & SP) Q V K H TO TC WL B. unfold handle_response. cbv zeta. cbn [note w_s]. rewrite Q. destruct (p_code r =? 401) eqn:E4; [lia|].
  set (w0 := upd_s (upd_s (note w (Got r)) (fun s => set_queue s (qdel (s_queue s) (p_cseq r)))) (fun s => learn_session s r)).
  assert (G : s_feeds (w_s w0) = s_feeds (w_s w) /\ s_feedidx (w_s w0) = s_feedidx (w_s w) /\ s_queue (w_s w0) = qdel (s_queue (w_s w)) (p_cseq r) /\ s_stage (w_s w0) = s_stage (w_s w))
    by exact (learn_frame (set_queue (w_s w) (qdel (s_queue (w_s w)) (p_cseq r))) r).
  assert (L0 : w_log w0 = w_log w ++ [Got r]) by reflexivity. assert (WL0 : w_listens w0 = []) by exact WL.
  clearbody w0. destruct G as (F1 & F2 & F3 & _).
  unfold react. rewrite V. change (beq (bs "SETUP") (bs "OPTIONS")) with false. change (beq (bs "SETUP") (bs "DESCRIBE")) with false. change (beq (bs "SETUP") (bs "PAUSE")) with false.
  change (beq (bs "SETUP") (bs "PLAY")) with false. change (beq (bs "SETUP") (bs "TEARDOWN")) with false. change (beq (bs "SETUP") (bs "SETUP")) with true. cbv iota.
  unfold handle_setup. destruct (p_code r =? 200) eqn:E2; [|lia].
  apply Forall_app in FA as [FA1 FA2]. rewrite F1, F, setup_feeds_skip_app by exact FA1. cbn [setup_feeds]. rewrite C, Z.eqb_refl. cbv zeta.
  assert (TC2 : t_tcp (received (fd_transp f) t) = false) by (unfold received; cbn [t_tcp]; rewrite TC, FT; reflexivity).
  unfold transport_setup. rewrite H, (parse_transport_string _ _ TO), SP. cbn [fd_transp]. rewrite TC2.
  unfold add_sink. cbn [upd_s w_listens w_s w_in w_writes w_rand w_log note]. rewrite WL0. cbn [tl note w_s w_in w_writes w_listens w_rand w_log]. cbv iota beta.
  rewrite setup_feeds_skip by exact FA2.
  assert (U : upd (pre ++ f :: post) (0 + length pre) (mkFeed (fd_media f) (received (fd_transp f) t) (fd_cseq f) true sets) = pre ++ mkFeed (fd_media f) (received (fd_transp f) t) (fd_cseq f) true sets :: post).
  { cbn [Nat.add]. clear. induction pre as [|x pre IH]; [reflexivity|]. cbn [length app upd]. rewrite IH. reflexivity. }
  assert (X1 : i64 (s_feedidx (w_s w0) + 1) = s_feedidx (w_s w) + 1) by (rewrite F2; apply i64_small; lia).
  destruct (_ >=? _); do 2 eexists; (split; [reflexivity|]); cbn [note notify upd_s w_log w_s w_listens set_stage set_sinks put_feed set_feeds set_feedidx s_feedidx s_feeds s_queue];
    rewrite X1, F1, F, U, F3, !listenings_app, L0, listenings_app; cbn [listenings flat_map app]; rewrite ?app_nil_r, <- ?app_assoc; cbn [app]; cbv zeta; splits; try reflexivity; try exact C;
    (f_equal; unfold u8; rewrite !Z.mod_small by (Z.div_mod_to_equations; lia); f_equal; [f_equal; lia|f_equal; f_equal; lia]).
Qed.

Lemma from_z_nth k : forall n j, (j < k)%nat -> nth_error (from_z n k) j = Some (n + 1 + Z.of_nat j).
Proof. induction k as [|k IH]; intros n [|j] L; try lia; cbn [from_z nth_error]; [f_equal; lia|]. rewrite IH by lia. f_equal. lia. Qed.
Lemma split_feed (fs : list feed) n j : map fd_cseq fs = from_z n (length fs) -> (j < length fs)%nat ->
  exists pre f post, fs = pre ++ f :: post /\ length pre = j /\ fd_cseq f = n + 1 + Z.of_nat j /\ Forall (fun g => fd_cseq g <> n + 1 + Z.of_nat j) (pre ++ post) /\
    nth_error fs j = Some f.
Proof.
  intros M L. destruct (nth_error fs j) as [f|] eqn:N; [|apply nth_error_None in N; lia].
  destruct (nth_error_split fs j N) as (pre & post & E & LP). exists pre, f, post.
  assert (C : forall i g, nth_error fs i = Some g -> fd_cseq g = n + 1 + Z.of_nat i).
  { intros i g Ni. assert (Li : (i < length fs)%nat) by (apply nth_error_Some; congruence). pose proof (from_z_nth (length fs) n i Li) as X. rewrite <- M, nth_error_map, Ni in X. cbn in X. congruence. }
  splits; try assumption; [exact (C j f N)| |reflexivity].
  apply Forall_app. split; apply Forall_forall; intros g I; apply In_nth_error in I as (i & Ni).
  - assert (Li : (i < length pre)%nat) by (apply nth_error_Some; congruence). assert (X : nth_error fs i = Some g) by (rewrite E, nth_error_app1 by exact Li; exact Ni). rewrite (C i g X). lia.
  - assert (X : nth_error fs (length pre + S i) = Some g) by (rewrite E, nth_error_app2 by lia; replace (length pre + S i - length pre)%nat with (S i) by lia; exact Ni). rewrite (C _ g X). lia.
Qed.

(* between the answers: the streams with these numbers not answered yet are as they were *)
Definition waiting (w : world) (n : Z) (fs : list feed) (todo : list (nat * transport)) : Prop :=
  map fd_cseq (s_feeds (w_s w)) = from_z n (length (s_feeds (w_s w))) /\ length (s_feeds (w_s w)) = length fs /\ w_listens w = [] /\
  Forall (fun a => exists f req, nth_error (s_feeds (w_s w)) (fst a) = Some f /\ over_udp f /\ qget (s_queue (w_s w)) (n + 1 + Z.of_nat (fst a)) = Some req /\ q_verb req = bs "SETUP") todo.
Lemma listen_all todo : forall rs w n fs, waiting w n fs todo -> NoDup (map fst todo) -> Forall2 (grants (n + 1)) todo rs ->
  0 <= s_feedidx (w_s w) -> s_feedidx (w_s w) + zlen todo <= 127 ->
  exists w', handled w rs w' /\ listenings (w_log w') = listenings (w_log w) ++ channels (s_feedidx (w_s w) + 1) todo.
Proof.
  induction todo as [|[j t] todo IH]; intros rs w n fs (W1 & W2 & W3 & W4) ND G I0 B.
  { inversion G; subst. exists w. split; [constructor|]. cbn. rewrite app_nil_r. reflexivity. }
  inversion G as [|? r ? rs' G1 G2]; subst. inversion W4 as [|? ? (f & req & N & O & Q & V) W5]; subst. inversion ND as [|? ? NI ND']; subst. cbn [fst snd] in *.
  destruct G1 as (G3 & G4 & G5 & G6 & G7 & G8). cbn [fst snd] in *. rewrite zlen_cons in B. pose proof (zlen_nonneg todo) as Z0.
  assert (Lj : (j < length (s_feeds (w_s w)))%nat) by (apply nth_error_Some; congruence).
  destruct (split_feed _ n j W1 Lj) as (pre & f0 & post & E & LP & C & FA & N0). assert (f0 = f) by congruence. subst f0.
  rewrite <- G3 in C, FA, Q.
  destruct (listen_udp w r req pre f post t E C FA O Q V G4 G5 G6 G7 W3) as (w1 & f' & H1 & H2 & H3 & H4 & H5 & H6 & H7); [lia|].
  assert (LN : length (s_feeds (w_s w1)) = length (s_feeds (w_s w))) by (rewrite H4, E, !app_length; reflexivity).
  destruct (IH rs' w1 n fs) as (w2 & K1 & K2).
  - unfold waiting. splits.
    + rewrite LN, <- W1, H4, E, !map_app. cbn [map]. rewrite H5. reflexivity.
    + congruence.
    + exact H7.
    + apply Forall_forall. intros [j2 t2] I2. destruct (proj1 (Forall_forall _ _) W5 _ I2) as (f2 & req2 & N2 & O2 & Q2 & V2). cbn [fst] in *.
      assert (D : j2 <> j). { intros ->. apply NI. apply in_map_iff. exists (j, t2). split; [reflexivity|exact I2]. }
      exists f2, req2. splits; [|exact O2| |exact V2].
      * rewrite H4. rewrite E in N2. destruct (Nat.lt_trichotomy j2 (length pre)) as [X|[X|X]]; [|congruence|].
        -- rewrite nth_error_app1 in N2 |- * by exact X. exact N2.
        -- rewrite nth_error_app2 in N2 |- * by lia. destruct (j2 - length pre)%nat eqn:Y; [lia|]. exact N2.
      * rewrite H6, qget_del, G3. destruct (_ =? _) eqn:Y; [lia|]. exact Q2.
  - exact ND'.
  - exact G2.
  - lia.
  - lia.
  - exists w2. split; [exact (h_cons _ _ _ _ _ H1 K1)|]. rewrite K2, H2, H3, <- app_assoc. f_equal. cbn [channels app].
    assert (P : t_port (received (fd_transp f) t) = t_port t). { unfold received. cbn [t_port]. unfold or_pair. destruct (p_one (t_port t) >? 0) eqn:X; [reflexivity|lia]. }
    rewrite P. reflexivity.
Qed.

Lemma setup_waiting w w1 answers :
  s_conn (w_s w) = true -> s_proto (w_s w) <> ProtoHTTP -> Forall over_udp (s_feeds (w_s w)) -> w_listens w = [] ->
  0 <= s_cseq (w_s w) -> s_cseq (w_s w) + zlen (s_feeds (w_s w)) < 2 ^ 63 -> setup w = (w1, Ok tt) ->
  Forall (fun a => (fst a < length (s_feeds (w_s w)))%nat) answers ->
  waiting w1 (s_cseq (w_s w)) (s_feeds (w_s w)) answers /\ s_feedidx (w_s w1) = s_feedidx (w_s w) /\ listenings (w_log w1) = listenings (w_log w).
Proof.
  intros C P FU WL C0 B E L. unfold setup in E. destruct (setup_from_udp _ _ _ _ C P FU E) as (U1 & U2 & U3).
  apply setup_from_exact in E; [|assumption..|reflexivity]. destruct E as (E1 & E2 & E3 & E4 & _ & _). cbn [firstn app] in E1.
  assert (LN : length (s_feeds (w_s w1)) = length (s_feeds (w_s w))) by (rewrite <- (map_length fd_cseq), E1; apply from_z_len).
  splits; [|exact E2|exact U3]. unfold waiting. splits; [rewrite LN; exact E1|exact LN|congruence|].
  eapply Forall_impl; [|exact L]. intros [j t] Lj. cbn [fst] in *. destruct (nth_error (s_feeds (w_s w1)) j) as [f|] eqn:N; [|apply nth_error_None in N; lia].
  destruct (E4 (s_cseq (w_s w) + 1 + Z.of_nat j)) as (req & Q & V); [unfold zlen; lia|]. exists f, req. splits; try assumption; [reflexivity|].
  apply nth_error_In in N. exact (proj1 (Forall_forall _ _) U1 f N).
Qed.
