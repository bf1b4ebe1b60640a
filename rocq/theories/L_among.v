(* Lemmas: Setup while other goroutines issue commands. *)
From Coq Require Import String.
From Verif Require Import Base GoStrings M_conn M_message M_transport M_sdp M_session S_session M_race M_among S_among L_base L_session L_flow.
From Coq Require Import ZifyBool ZifyNat.

Lemma commands_frame l : forall w, s_conn (w_s w) = true -> s_proto (w_s w) <> ProtoHTTP -> 0 <= s_cseq (w_s w) -> s_cseq (w_s w) + zlen l < 2 ^ 63 ->
  let w' := commands w l in
  s_cseq (w_s w') = s_cseq (w_s w) + zlen l /\ s_feeds (w_s w') = s_feeds (w_s w) /\ s_feedidx (w_s w') = s_feedidx (w_s w) /\ s_conn (w_s w') = true /\
  s_proto (w_s w') = s_proto (w_s w) /\ s_stage (w_s w') = s_stage (w_s w) /\ (forall c, c <= s_cseq (w_s w) -> qget (s_queue (w_s w')) c = qget (s_queue (w_s w)) c) /\ readies (w_log w') = readies (w_log w).
Proof.
  induction l as [|[[verb uri] hs] l IH]; intros w C P C0 B; cbn [commands fold_left]; cbv zeta.
  { change (zlen (@nil order)) with 0. splits; try reflexivity; [lia|exact C]. }
  rewrite zlen_cons in *. pose proof (zlen_nonneg l) as PT.
  destruct (command_exact w verb uri hs C P) as (rq & w1 & o & EC & L1 & V & _ & _ & Q1 & _ & Q2 & Q3 & Q4 & Q5 & Q6 & Q7 & _ & Q9 & _). rewrite EC. cbn [fst].
  assert (K : q_cseq rq = s_cseq (w_s w) + 1) by (rewrite Q1; apply i64_small; lia).
  destruct (IH w1) as (E1 & E2 & E3 & E4 & E5 & E6 & E7 & E8); [congruence|congruence|lia|lia|]. fold (commands w1 l).
  splits; try congruence; [lia| |].
  - intros c H. rewrite E7 by lia. rewrite Q2. destruct (c =? q_cseq rq) eqn:X; [lia|reflexivity].
  - rewrite E8, L1, readies_app. cbn. apply app_nil_r.
Qed.

Lemma number_step c b k : number c b (S k) = number c b k + zlen (b k) + 1. Proof. reflexivity. Qed.
Lemma number_mono c b j : forall k, (j < k)%nat -> number c b j + zlen (b j) < number c b k.
Proof.
  intros k. induction k as [|k IH]; intros H; [lia|]. rewrite number_step. pose proof (zlen_nonneg (b k)). destruct (Nat.eq_dec j k) as [->|N]; [lia|]. specialize (IH ltac:(lia)). lia.
Qed.
Lemma number_low c b k : c < number c b k.
Proof. induction k as [|k IH]; cbn [number]; [lia|]. pose proof (zlen_nonneg (b k)). lia. Qed.

Lemma mark_nth s i g : nth_error (s_feeds s) i = Some g ->
  mark_feed i s = set_feeds s (upd (s_feeds s) i (mkFeed (fd_media g) (fd_transp g) (s_cseq s) (fd_set g) (fd_sets g))).
Proof. intros N. unfold mark_feed. rewrite N. reflexivity. Qed.

Lemma among_exact c b todo : forall w i w', 0 <= c ->
  s_conn (w_s w) = true -> s_proto (w_s w) <> ProtoHTTP -> s_cseq (w_s w) = number c b i - 1 -> number c b (i + length todo) < 2 ^ 63 ->
  length (s_feeds (w_s w)) = (i + length todo)%nat ->
  setup_among w i todo b = (w', Ok tt) ->
  length (s_feeds (w_s w')) = length (s_feeds (w_s w)) /\
  (forall k f, (k < i)%nat -> nth_error (s_feeds (w_s w)) k = Some f -> nth_error (s_feeds (w_s w')) k = Some f) /\
  (forall k, (i <= k < i + length todo)%nat -> exists f, nth_error (s_feeds (w_s w')) k = Some f /\ fd_cseq f = number c b k + zlen (b k)) /\
  (forall k, (i <= k < i + length todo)%nat -> exists req, qget (s_queue (w_s w')) (number c b k) = Some req /\ q_verb req = bs "SETUP") /\
  (forall n, n < number c b i -> qget (s_queue (w_s w')) n = qget (s_queue (w_s w)) n) /\
  s_feedidx (w_s w') = s_feedidx (w_s w) /\ s_stage (w_s w') = s_stage (w_s w) /\ readies (w_log w') = readies (w_log w).
Proof.
  induction todo as [|f todo IH]; intros w i w' C0 C P N B L E; cbn [setup_among] in E.
  { inversion E; subst. cbn [length]. splits; try reflexivity; try (intros; lia). intros k f _ H. exact H. }
  destruct (setup_uri (w_s w) (m_control (fd_media f))) as [uri|e| |]; try discriminate.
  destruct (command_exact w (bs "SETUP") uri [(bs "Transport", transport_string (fd_transp f))] C P) as (rq & w1 & o & EC & L1 & V & _ & _ & Q1 & _ & Q2 & Q3 & Q4 & Q5 & Q6 & Q7 & _ & Q9 & _).
  rewrite EC in E. destruct o as [u|e| |]; try discriminate. cbn [length] in *.
  pose proof (number_low c b i) as NL. pose proof (zlen_nonneg (b i)) as PB.
  assert (NB : number c b i + zlen (b i) < number c b (i + S (length todo))) by (apply number_mono; lia).
  assert (K : q_cseq rq = number c b i) by (rewrite Q1, N; replace (number c b i - 1 + 1) with (number c b i) by lia; apply i64_small; lia).
  destruct (commands_frame (b i) w1) as (E1 & E2 & E3 & E4 & E5 & E6 & E7 & E8); [congruence|congruence|lia|lia|]. set (w2 := commands w1 (b i)) in *. clearbody w2.
  assert (NF : exists g, nth_error (s_feeds (w_s w2)) i = Some g).
  { destruct (nth_error (s_feeds (w_s w2)) i) as [g|] eqn:G; [eexists; reflexivity|]. exfalso. apply nth_error_None in G. rewrite E2, Q4, L in G. lia. }
  destruct NF as (g & NG).
  set (w3 := upd_s w2 (mark_feed i)) in *.
  assert (M : w_s w3 = set_feeds (w_s w2) (upd (s_feeds (w_s w2)) i (mkFeed (fd_media g) (fd_transp g) (s_cseq (w_s w2)) (fd_set g) (fd_sets g)))) by (unfold w3; cbn [upd_s w_s]; apply mark_nth; exact NG).
  assert (ML : w_log w3 = w_log w2) by reflexivity. clearbody w3.
  assert (X : s_conn (w_s w3) = true /\ s_proto (w_s w3) = s_proto (w_s w) /\ s_cseq (w_s w3) = number c b (S i) - 1 /\ s_feedidx (w_s w3) = s_feedidx (w_s w) /\ s_stage (w_s w3) = s_stage (w_s w) /\ s_queue (w_s w3) = s_queue (w_s w2) /\ length (s_feeds (w_s w3)) = length (s_feeds (w_s w))).
  { rewrite M. cbn [set_feeds s_conn s_proto s_cseq s_feedidx s_stage s_queue s_feeds]. rewrite upd_length, number_step. splits; try congruence; lia. }
  destruct X as (X1 & X2 & X3 & X4 & X5 & X6 & X7).
  assert (MF : s_feeds (w_s w3) = upd (s_feeds (w_s w)) i (mkFeed (fd_media g) (fd_transp g) (number c b i + zlen (b i)) (fd_set g) (fd_sets g))).
  { rewrite M. cbn [set_feeds s_feeds]. rewrite E2, Q4. do 2 f_equal. lia. }
  apply IH in E; [|exact C0|exact X1|congruence|exact X3|replace (S i + length todo)%nat with (i + S (length todo))%nat by lia; exact B|rewrite X7, L; lia].
  destruct E as (R1 & R2 & R3 & R4 & R5 & R6 & R7 & R8).
  splits; try congruence.
  - intros k h Hk Hh. apply R2; [lia|]. rewrite MF, nth_upd_other by lia. exact Hh.
  - intros k Hk. destruct (Nat.eq_dec k i) as [->|NE]; [|apply R3; lia]. eexists. split; [apply R2; [lia|]; rewrite MF; apply nth_upd_same; rewrite L; lia|reflexivity].
  - intros k Hk. destruct (Nat.eq_dec k i) as [->|NE]; [|apply R4; lia]. exists rq. split; [|exact V]. rewrite R5 by (rewrite number_step; lia). rewrite X6, E7 by lia. rewrite Q2, <- K, Z.eqb_refl. reflexivity.
  - intros n Hn. rewrite R5 by (rewrite number_step; lia). rewrite X6, E7 by lia. rewrite Q2. destruct (n =? q_cseq rq) eqn:EQ; [lia|reflexivity].
  - rewrite R8, ML, E8, L1, readies_app. cbn. apply app_nil_r.
Qed.

Lemma among_numbers w b w1 : s_conn (w_s w) = true -> s_proto (w_s w) <> ProtoHTTP -> 0 <= s_cseq (w_s w) ->
  number (s_cseq (w_s w)) b (length (s_feeds (w_s w))) < 2 ^ 63 -> setup_among w 0 (s_feeds (w_s w)) b = (w1, Ok tt) ->
  forall k, (k < length (s_feeds (w_s w)))%nat ->
  exists req f, qget (s_queue (w_s w1)) (number (s_cseq (w_s w)) b k) = Some req /\ q_verb req = bs "SETUP" /\
    nth_error (s_feeds (w_s w1)) k = Some f /\ fd_cseq f = number (s_cseq (w_s w)) b k + zlen (b k).
Proof.
  intros C P C0 B E k K. destruct (among_exact (s_cseq (w_s w)) b (s_feeds (w_s w)) w 0 w1) as (_ & _ & R3 & R4 & _); try assumption; try reflexivity; [cbn [number]; lia|].
  destruct (R3 k) as (f & F1 & F2); [lia|]. destruct (R4 k) as (req & G1 & G2); [lia|]. exists req, f. splits; assumption.
Qed.
Lemma among_nobody todo : forall w i b, (forall k, b k = []) -> setup_among w i todo b = setup_from w i todo.
Proof.
  induction todo as [|f todo IH]; intros w i b H; cbn [setup_among setup_from]; [reflexivity|]. destruct (setup_uri _ _); try reflexivity. destruct (command _ _ _ _) as [w' [u|e| |]]; try reflexivity.
  rewrite H. apply IH. exact H.
Qed.

(* ---- never ready ---- *)
Lemma matching_none c l : ~ In c l -> matching c l = 0.
Proof. unfold matching. induction l as [|x l IH]; intros N; [reflexivity|]. cbn [filter]. destruct (x =? c) eqn:E; [exfalso; apply N; left; lia|]. apply IH. intros X. apply N. right. exact X. Qed.
Definition stuck (w : world) (cs done : list Z) (lost : Z) (ask : Z -> Prop) : Prop :=
  map fd_cseq (s_feeds (w_s w)) = cs /\ s_feedidx (w_s w) = zlen done /\ NoDup done /\ incl done cs /\ ~ In lost done /\
  (forall c, In c done -> qget (s_queue (w_s w)) c = None) /\ (forall c req, ask c -> qget (s_queue (w_s w)) c = Some req -> q_verb req = bs "SETUP").
Lemma stuck_answer w cs done lost ask r w' : NoDup cs -> zlen cs < 2 ^ 63 -> In lost cs -> ~ ask lost -> stuck w cs done lost ask -> ask (p_cseq r) -> p_code r = 200 ->
  handle_response w r = (w', Ok tt) -> readies (w_log w') = readies (w_log w) /\ s_stage (w_s w') = s_stage (w_s w) /\ exists done', stuck w' cs done' lost ask.
Proof.
  intros N B IL NL (A1 & A2 & A3 & A4 & A5 & A6 & A7) AR CR E. unfold handle_response in E. cbv zeta in E. cbn [note w_s] in E.
  destruct (qget (s_queue (w_s w)) (p_cseq r)) as [req|] eqn:Q; [|discriminate]. pose proof (A7 _ _ AR Q) as V. rewrite CR in E. change (200 =? 401) with false in E. cbv iota in E.
  set (w0 := upd_s (upd_s (note w (Got r)) (fun s => set_queue s (qdel (s_queue s) (p_cseq r)))) (fun s => learn_session s r)) in E.
  assert (F : s_feeds (w_s w0) = s_feeds (w_s w) /\ s_feedidx (w_s w0) = s_feedidx (w_s w) /\ s_queue (w_s w0) = qdel (s_queue (w_s w)) (p_cseq r) /\ s_stage (w_s w0) = s_stage (w_s w)) by exact (learn_frame (set_queue (w_s w) (qdel (s_queue (w_s w)) (p_cseq r))) r).
  assert (L0 : readies (w_log w0) = readies (w_log w)) by (unfold w0, note; cbn [upd_s w_log]; rewrite readies_app; cbn; apply app_nil_r).
  clearbody w0. destruct F as (F1 & F2 & F3 & F4).
  unfold react in E. rewrite V in E. change (beq (bs "SETUP") (bs "OPTIONS")) with false in E. change (beq (bs "SETUP") (bs "DESCRIBE")) with false in E. change (beq (bs "SETUP") (bs "PAUSE")) with false in E.
  change (beq (bs "SETUP") (bs "PLAY")) with false in E. change (beq (bs "SETUP") (bs "TEARDOWN")) with false in E. change (beq (bs "SETUP") (bs "SETUP")) with true in E. cbv iota in E.
  unfold handle_setup in E. rewrite CR in E. change (200 =? 200) with true in E. cbv iota in E.
  destruct (setup_feeds w0 (p_cseq r) (header_get (p_header r) (bs "Transport")) 0 (s_feeds (w_s w0))) as [w1 [u|e| |]] eqn:SF; try discriminate. destruct u.
  assert (LD : zlen done + 1 <= zlen cs).
  { assert (X : NoDup (lost :: done)) by (constructor; assumption). assert (Y : incl (lost :: done) cs) by (intros x [<-|Hx]; [exact IL|apply A4; exact Hx]). pose proof (NoDup_incl_length X Y) as Z1. cbn [length] in Z1. unfold zlen. lia. }
  pose proof (zlen_nonneg done) as PD.
  apply setup_feeds_frame in SF; [|intros n f X; exact X|rewrite F2, A2; lia]. destruct SF as (S1 & S2 & S3 & S4 & new & S5 & S6). rewrite F1, A1 in S1, S2. rewrite F2, A2 in S2.
  assert (LF : zlen (s_feeds (w_s w1)) = zlen cs) by (rewrite <- S1; unfold zlen; rewrite map_length; reflexivity).
  assert (D : exists done', s_feedidx (w_s w1) = zlen done' /\ stuck w1 cs done' lost ask /\ zlen done' < zlen cs).
  { assert (QK : forall c rq, ask c -> qget (s_queue (w_s w1)) c = Some rq -> q_verb rq = bs "SETUP").
    { intros c rq Ac. rewrite S3, F3, qget_del. destruct (c =? p_cseq r); [discriminate|]. apply A7. exact Ac. }
    destruct (in_dec Z.eq_dec (p_cseq r) cs) as [I|I].
    - assert (ND : ~ In (p_cseq r) done) by (intros X; rewrite (A6 _ X) in Q; discriminate).
      assert (NR : p_cseq r <> lost) by (intros X; apply NL; rewrite <- X; exact AR).
      exists (p_cseq r :: done). rewrite zlen_cons.
      assert (LS : zlen done + 2 <= zlen cs).
      { assert (X : NoDup (lost :: p_cseq r :: done)) by (constructor; [intros [X|X]; [congruence|contradiction]|constructor; assumption]).
        assert (Y : incl (lost :: p_cseq r :: done) cs) by (intros x [<-|[<-|Hx]]; [exact IL|exact I|apply A4; exact Hx]). pose proof (NoDup_incl_length X Y) as Z1. cbn [length] in Z1. unfold zlen. lia. }
      assert (S2' : s_feedidx (w_s w1) = zlen done + 1) by (rewrite S2, (matching_one _ _ N I), i64_small by lia; lia).
      splits; [lia| |lia]. unfold stuck. rewrite zlen_cons. splits; [exact S1|lia|constructor; assumption|intros x [<-|Hx]; [exact I|apply A4; exact Hx]|intros [X|X]; [congruence|contradiction]| |exact QK].
      intros c Hc. rewrite S3, F3, qget_del. destruct (c =? p_cseq r) eqn:Ec; [reflexivity|]. destruct Hc as [Hc|Hc]; [lia|]. apply A6. exact Hc.
    - exists done. assert (S2' : s_feedidx (w_s w1) = zlen done) by (rewrite S2, (matching_none _ _ I), i64_small by lia; lia).
      splits; [exact S2'| |lia]. unfold stuck. splits; [exact S1|exact S2'|exact A3|exact A4|exact A5| |exact QK].
      intros c Hc. rewrite S3, F3, qget_del. destruct (c =? p_cseq r); [reflexivity|]. apply A6. exact Hc. }
  destruct D as (done' & D1 & D2 & D3). rewrite D1, LF in E. destruct (zlen done' >=? zlen cs) eqn:G; [lia|]. inversion E; subst w'. splits; [|congruence|exists done'; exact D2].
  rewrite S5, readies_app, S6, app_nil_r. exact L0.
Qed.
Lemma stuck_answers rs : forall w cs done lost ask w', NoDup cs -> zlen cs < 2 ^ 63 -> In lost cs -> ~ ask lost -> stuck w cs done lost ask -> Forall (fun r => ask (p_cseq r) /\ p_code r = 200) rs ->
  handled w rs w' -> readies (w_log w') = readies (w_log w) /\ s_stage (w_s w') = s_stage (w_s w).
Proof.
  induction rs as [|r rs IH]; intros w cs done lost ask w' N B IL NL S F H; inversion H; subst; [split; reflexivity|]. inversion F as [|? ? [F1 F2] F3]; subst.
  destruct (stuck_answer w cs done lost ask r w1) as (R & T & done' & S'); try assumption. destruct (IH w1 cs done' lost ask w') as (R2 & T2); try assumption. split; congruence.
Qed.
Lemma number_inj_mark c b j k : number c b j + zlen (b j) = number c b k -> j = k /\ b j = [].
Proof.
  intros E. pose proof (zlen_nonneg (b j)). pose proof (zlen_nonneg (b k)). destruct (lt_eq_lt_dec j k) as [[L|<-]|L].
  - pose proof (number_mono c b j k L). lia.
  - split; [reflexivity|]. destruct (b j); [reflexivity|]. rewrite zlen_cons in *. pose proof (zlen_nonneg l). lia.
  - pose proof (number_mono c b k j L). lia.
Qed.
Lemma number_mark_inj c b j k : number c b j + zlen (b j) = number c b k + zlen (b k) -> j = k.
Proof.
  intros E. pose proof (zlen_nonneg (b j)). pose proof (zlen_nonneg (b k)). destruct (lt_eq_lt_dec j k) as [[L|<-]|L]; [|reflexivity|].
  - pose proof (number_mono c b j k L). lia.
  - pose proof (number_mono c b k j L). lia.
Qed.
Lemma never_ready w b w1 rs w2 k : s_conn (w_s w) = true -> s_proto (w_s w) <> ProtoHTTP -> s_feedidx (w_s w) = 0 -> 0 <= s_cseq (w_s w) ->
  number (s_cseq (w_s w)) b (length (s_feeds (w_s w))) < 2 ^ 63 -> setup_among w 0 (s_feeds (w_s w)) b = (w1, Ok tt) ->
  (k < length (s_feeds (w_s w)))%nat -> b k <> [] ->
  Forall (fun r => (exists j, (j < length (s_feeds (w_s w)))%nat /\ p_cseq r = number (s_cseq (w_s w)) b j) /\ p_code r = 200) rs -> handled w1 rs w2 ->
  readies (w_log w2) = readies (w_log w) /\ s_stage (w_s w2) = s_stage (w_s w).
Proof.
  intros C P I0 C0 B E K NB F H. set (c := s_cseq (w_s w)) in *. set (n := length (s_feeds (w_s w))) in *.
  destruct (among_exact c b (s_feeds (w_s w)) w 0 w1) as (R1 & _ & R3 & R4 & _ & R6 & R7 & R8); try assumption; try reflexivity; [cbn [number]; unfold c; lia|]. fold n in R1, R3, R4. cbn [Nat.add] in *.
  assert (NT : forall j x, nth_error (map fd_cseq (s_feeds (w_s w1))) j = Some x -> (j < n)%nat /\ x = number c b j + zlen (b j)).
  { intros j x Hj. assert (J : (j < n)%nat) by (rewrite <- R1, <- (map_length fd_cseq); apply nth_error_Some; rewrite Hj; discriminate). split; [exact J|].
    destruct (R3 j) as (f & F1 & F2); [lia|]. rewrite (map_nth_error _ _ _ F1) in Hj. congruence. }
  assert (BN : forall m, Z.of_nat m <= number c b m).
  { induction m as [|m IH]; [cbn [number]; unfold c in *; lia|]. rewrite number_step. pose proof (zlen_nonneg (b m)). lia. }
  destruct (stuck_answers rs w1 (map fd_cseq (s_feeds (w_s w1))) [] (number c b k + zlen (b k)) (fun x => exists j, (j < n)%nat /\ x = number c b j) w2) as (A1 & A2).
  - apply NoDup_nth_error. intros i j Hi Hij. destruct (nth_error (map fd_cseq (s_feeds (w_s w1))) i) as [x|] eqn:Ei; [|exfalso; apply nth_error_None in Ei; lia].
    destruct (NT _ _ Ei) as (_ & X1). destruct (NT _ _ (eq_sym Hij)) as (_ & X2). eapply number_mark_inj. rewrite <- X1, <- X2. reflexivity.
  - unfold zlen. rewrite map_length, R1. specialize (BN n). lia.
  - destruct (R3 k) as (f & F1 & F2); [lia|]. rewrite <- F2. apply in_map. eapply nth_error_In. exact F1.
  - intros (j & _ & Ej). apply number_inj_mark in Ej. apply NB, Ej.
  - unfold stuck. change (zlen (@nil Z)) with 0. splits; try reflexivity; [congruence|constructor|intros x []|intros []|intros x []|].
    intros x req (j & J & ->) G. destruct (R4 j) as (rq & G1 & G2); [lia|]. congruence.
  - exact F.
  - exact H.
  - split; congruence.
Qed.
