(* What the client sends of itself. *)
From Coq Require Import String.
From Verif Require Import Base GoStrings M_conn M_message M_transport M_sdp M_digest M_sps M_session S_session S_tally S_entail L_base L_strings L_session L_flow L_serve L_tally.
From Coq Require Import ZifyBool.
Local Opaque digest_response.

(* ---- mentions ---- *)
Lemma starts_app p s t : starts p s = true -> starts p (s ++ t) = true.
Proof. revert s. induction p as [|a p IH]; intros [|b s]; cbn; try reflexivity; try discriminate. rewrite !andb_true_iff. intros [A B]. split; [exact A|apply IH; exact B]. Qed.
Lemma mentions_nonneg p s : 0 <= mentions p s.
Proof. induction s; cbn [mentions]; [lia|]. destruct (starts _ _); lia. Qed.
Lemma mentions_app p a b : mentions p a + mentions p b <= mentions p (a ++ b).
Proof.
  induction a as [|x a IH]; cbn [mentions app]; [lia|]. destruct (starts p (x :: a)) eqn:E.
  - apply (starts_app _ _ b) in E. cbn [app] in E. rewrite E. lia.
  - destruct (starts p (x :: a ++ b)); lia.
Qed.
Lemma mentions_mid p a s b : mentions p s <= mentions p (a ++ s ++ b).
Proof. pose proof (mentions_app p a (s ++ b)). pose proof (mentions_app p s b). pose proof (mentions_nonneg p a). pose proof (mentions_nonneg p b). lia. Qed.
Lemma split_on_head c s p ps : split_on c s = p :: ps -> exists t, s = p ++ t.
Proof.
  revert p ps. induction s as [|x s IH]; intros p ps; cbn [split_on]; [intros [= <- _]; exists []; reflexivity|].
  destruct (x =? c); [intros [= <- _]; eexists; reflexivity|]. destruct (split_on c s) as [|q qs]; intros [= <- _]; [exists s; reflexivity|].
  destruct (IH q qs eq_refl) as (t & ->). exists t. reflexivity.
Qed.
Definition all_mentions (p : bytes) (ls : list bytes) : Z := fold_right (fun l n => mentions p l + n) 0 ls.
Lemma mentions_split p c s : all_mentions p (split_on c s) <= mentions p s.
Proof.
  induction s as [|x s IH]; [cbn; lia|]. cbn [split_on]. pose proof (mentions_app p [x] s) as MA. pose proof (mentions_nonneg p [x]). cbn [app] in MA.
  destruct (x =? c); [cbn [all_mentions fold_right mentions] in *; unfold all_mentions in IH; lia|].
  destruct (split_on c s) as [|q qs] eqn:E; [cbn [all_mentions fold_right] in *; pose proof (mentions_nonneg p s); lia|].
  destruct (split_on_head _ _ _ _ E) as (t & ->). cbn [all_mentions fold_right] in *. cbn [mentions]. destruct (starts p (x :: q)) eqn:S.
  - apply (starts_app _ _ t) in S. cbn [app] in S. rewrite S. unfold all_mentions in IH. lia.
  - unfold all_mentions in IH. destruct (starts p (x :: q ++ t)); lia.
Qed.
Lemma trim_left_tail s : exists a, s = a ++ trim_left s.
Proof.
  assert (H : forall n s, (length s <= n)%nat -> exists a, s = a ++ trim_left s).
  { clear s. induction n as [|n IH]; intros [|a r] L; try (exists []; reflexivity); cbn [length] in L; [lia|]. cbn [trim_left].
    destruct (sp1 a). { destruct (IH r) as (t & E); [lia|]. exists (a :: t). cbn [app]. congruence. }
    destruct r as [|b r2]; [exists []; reflexivity|]. cbn [length] in L. destruct (sp2 a b). { destruct (IH r2) as (t & E); [lia|]. exists (a :: b :: t). cbn [app]. congruence. }
    destruct r2 as [|c r3]; [exists []; reflexivity|]. cbn [length] in L. destruct (sp3 a b c); [|exists []; reflexivity]. destruct (IH r3) as (t & E); [lia|]. exists (a :: b :: c :: t). cbn [app]. congruence. }
  apply (H (length s)). lia.
Qed.
Lemma trim_rev_tail s : exists a, s = a ++ trim_rev s.
Proof.
  assert (H : forall n s, (length s <= n)%nat -> exists a, s = a ++ trim_rev s).
  { clear s. induction n as [|n IH]; intros [|a r] L; try (exists []; reflexivity); cbn [length] in L; [lia|]. cbn [trim_rev].
    destruct (sp1 a). { destruct (IH r) as (t & E); [lia|]. exists (a :: t). cbn [app]. congruence. }
    destruct r as [|b r2]; [exists []; reflexivity|]. cbn [length] in L. destruct (sp2 b a). { destruct (IH r2) as (t & E); [lia|]. exists (a :: b :: t). cbn [app]. congruence. }
    destruct r2 as [|c r3]; [exists []; reflexivity|]. cbn [length] in L. destruct (sp3 c b a); [|exists []; reflexivity]. destruct (IH r3) as (t & E); [lia|]. exists (a :: b :: c :: t). cbn [app]. congruence. }
  apply (H (length s)). lia.
Qed.
Lemma trim_space_mid s : exists a b, s = a ++ trim_space s ++ b.
Proof.
  unfold trim_space. destruct (trim_left_tail s) as (a & E). destruct (trim_rev_tail (rev (trim_left s))) as (b & F). exists a, (rev b).
  rewrite <- rev_app_distr, <- F, rev_involutive. exact E.
Qed.
Lemma cut_some c s a b : cut c s = Some (a, b) -> s = a ++ c :: b.
Proof.
  revert a b. induction s as [|x s IH]; intros a b; cbn [cut]; [discriminate|]. destruct (x =? c) eqn:E; [intros [= <- <-]; cbn; f_equal; lia|].
  destruct (cut c s) as [[a' b']|]; [|discriminate]. intros [= <- <-]. cbn. f_equal. apply IH. reflexivity.
Qed.
Lemma split2_head c s : exists t, s = hd [] (split2 c s) ++ t.
Proof. unfold split2. destruct (cut c s) as [[a b]|] eqn:E; cbn [hd]; [apply cut_some in E; eexists; exact E|exists []; rewrite app_nil_r; reflexivity]. Qed.

Lemma sdp_line_count s line s' : sdp_line s line = Ok s' -> zlen (all_feeds s') <= zlen (all_feeds s) + mentions (bs "m=video") line.
Proof.
  pose proof (mentions_nonneg (bs "m=video") line) as NN. unfold sdp_line. intros E.
  assert (Same : s' = s -> zlen (all_feeds s') <= zlen (all_feeds s) + mentions (bs "m=video") line) by (intros ->; lia).
  unfold split2 at 1 in E. destruct (cut 61 (trim_space line)) as [[key val]|] eqn:C; [|apply Same; congruence]. apply cut_some in C. cbv zeta in E.
  destruct (beq key (bs "m")) eqn:B.
  - destruct (beq (hd [] (split2 32 val)) (bs "video")) eqn:V.
    + apply beq_eq in B, V. subst key. destruct (split2_head 32 val) as (t & EV). rewrite V in EV.
      assert (M : 1 <= mentions (bs "m=video") line).
      { destruct (trim_space_mid line) as (a & b & EL). rewrite EL, C, EV. eapply Z.le_trans; [|apply mentions_mid]. change (bs "m" ++ 61 :: bs "video" ++ t) with (bs "m=video" ++ t).
        eapply Z.le_trans; [|apply mentions_app]. pose proof (mentions_nonneg (bs "m=video") t). change (mentions (bs "m=video") (bs "m=video")) with 1. lia. }
      destruct (split2 32 val) as [|f0 [|f1 [|? ?]]]; try discriminate E. injection E as <-. cbn [all_feeds]. rewrite L_serve.zlen_app. change (zlen [_]) with 1. lia.
    + injection E as <-. destruct s as [d [m|]]; cbn [all_feeds]; lia.
  - destruct (beq key (bs "a")); [|injection E as <-; apply Same; reflexivity]. destruct s as [d [m|]]; injection E as <-; cbn [all_feeds]; rewrite ?L_serve.zlen_app, ?zlen_cons; lia.
Qed.
Lemma sdp_lines_count ls : forall s s', sdp_lines s ls = Ok s' -> zlen (all_feeds s') <= zlen (all_feeds s) + all_mentions (bs "m=video") ls.
Proof.
  induction ls as [|l ls IH]; intros s s'; cbn [sdp_lines all_mentions fold_right]; [intros [= <-]; lia|].
  destruct (sdp_line s l) as [s1| | |] eqn:E; cbn [bind]; try discriminate. intros F. apply sdp_line_count in E. apply IH in F. unfold all_mentions in F. lia.
Qed.
Lemma make_feeds_zlen proto l : forall i, zlen (make_feeds proto i l) = zlen l.
Proof. induction l as [|m l IH]; intros i; cbn [make_feeds]; [reflexivity|]. rewrite !zlen_cons, IH. reflexivity. Qed.
Lemma parse_feeds_count proto b fs : parse_feeds proto b = Ok fs -> zlen fs <= mentions (bs "m=video") b.
Proof.
  unfold parse_feeds, sdp_parse. destruct (sdp_lines ([], None) (split_on 10 b)) as [s| | |] eqn:E; cbn [bind]; try discriminate. intros [= <-]. rewrite make_feeds_zlen.
  apply sdp_lines_count in E. pose proof (mentions_split (bs "m=video") 10 b). change (zlen (all_feeds ([], None))) with 0 in E. lia.
Qed.

(* ---- an account: what an effect costs, and what a waiting request is good for ---- *)
Definition cost := effect -> Z.
Definition worth := bytes -> Z.
Definition spent (f : cost) (log : list effect) : Z := fold_right (fun e n => f e + n) 0 log.
Definition owed (g : worth) (q : list (Z * request)) : Z := fold_right (fun e n => g (q_verb (snd e)) + n) 0 q.
Definition account (f : cost) (g : worth) (w : world) : Z := spent f (w_log w) + owed g (s_queue (w_s w)).
(* a new request costs this much, whatever else is in it *)
Record rates (f : cost) (g : worth) (F : bytes -> Z) : Prop := mkRates {
  r_worth : forall v, 0 <= g v;
  r_sent : forall r, f (Sent false r) = F (q_verb r);
  r_plain : forall e, (match e with Listening _ _ | Started | Delivered _ _ => True | _ => False end) -> f e <= 0;
  r_got : forall r, f (Got r) <= 0;
  r_alive : forall t1 t2, f (Alive t1 t2) + F (bs "OPTIONS") + g (bs "OPTIONS") <= 0;
  r_options : forall r, f (Got r) + F (bs "DESCRIBE") + g (bs "DESCRIBE") <= g (bs "OPTIONS");
  r_describe : forall r n, 0 <= n <= streams_in r -> f (Got r) + n * (F (bs "SETUP") + g (bs "SETUP")) <= g (bs "DESCRIBE");
  r_again : forall r q, p_code r = 401 -> f (Got r) + f (Sent true q) <= 0;
  r_notified : forall r st, 1 <= st <= 4 -> f (Got r) + f (Notified st) <= g (verb_of st) }.

Lemma spent_app f a b : spent f (a ++ b) = spent f a + spent f b.
Proof. unfold spent. induction a as [|x a IH]; cbn [app fold_right]; [lia|]. rewrite IH. lia. Qed.
Lemma spent_one f x : spent f [x] = f x.
Proof. unfold spent. cbn. lia. Qed.
Lemma owed_cons g k r q : owed g ((k, r) :: q) = g (q_verb r) + owed g q.
Proof. reflexivity. Qed.
Lemma owed_del g q k : (forall v, 0 <= g v) -> owed g (qdel q k) <= owed g q.
Proof. intros G. unfold qdel. induction q as [|[a r] q IH]; cbn [filter]; [lia|]. pose proof (G (q_verb r)). destruct (negb _); rewrite ?owed_cons; lia. Qed.
Lemma owed_got g q k r : (forall v, 0 <= g v) -> qget q k = Some r -> owed g (qdel q k) + g (q_verb r) <= owed g q.
Proof.
  intros G. unfold qdel. induction q as [|[a x] q IH]; cbn [qget filter fst]; [discriminate|]. destruct (a =? k); cbn [negb].
  - intros [= ->]. pose proof (owed_del g q k G) as Q. unfold qdel in Q. rewrite owed_cons. lia.
  - intros E. specialize (IH E). rewrite !owed_cons. lia.
Qed.
Lemma owed_set g q k r : (forall v, 0 <= g v) -> owed g (qset q k r) <= owed g q + g (q_verb r).
Proof. intros G. unfold qset. rewrite owed_cons. pose proof (owed_del g q k G). lia. Qed.
Lemma account_same f g w w' : s_queue (w_s w') = s_queue (w_s w) -> w_log w' = w_log w -> account f g w' = account f g w.
Proof. intros Q L. unfold account. rewrite Q, L. reflexivity. Qed.
Lemma account_note f g w e : account f g (note w e) = account f g w + f e.
Proof. unfold account, note. cbn [w_s w_log]. rewrite spent_app, spent_one. lia. Qed.

Lemma command_account f g F w verb u hs w' o : rates f g F -> s_conn (w_s w) = true -> s_proto (w_s w) <> ProtoHTTP -> command w verb u hs = (w', o) -> account f g w' <= account f g w + F verb + g verb.
Proof.
  intros R C P. unfold command. rewrite C. cbn [negb].
  cbv zeta. destruct (call_auth (w_s w) verb) as [s1 auth] eqn:A. destruct (call_auth_frame _ _ _ _ A) as (a & -> & _).
  unfold enqueue. cbv zeta beta iota. set (r := mkReq _ _ _ _ _ _). unfold write, upd_s. cbn [w_s w_in w_writes w_listens w_rand w_log set_queue set_cseq set_auth s_proto].
  destruct (s_proto (w_s w) =? ProtoHTTP) eqn:EP; [lia|]. cbv zeta. intros E.
  assert (w_log w' = w_log w ++ [Sent false r] /\ exists k, s_queue (w_s w') = qset (s_queue (w_s w)) k r) as (L & k & Q) by (destruct (w_writes w) as [|[e|] ?]; inversion E; split; try reflexivity; eexists; reflexivity).
  unfold account. rewrite L, Q, spent_app, spent_one, (r_sent _ _ _ R). pose proof (owed_set g (s_queue (w_s w)) k r (r_worth _ _ _ R)) as QS. change (q_verb r) with verb in *. lia.
Qed.
Lemma command_conn w verb u hs w' o : s_proto (w_s w) <> ProtoHTTP -> command w verb u hs = (w', o) -> s_conn (w_s w') = s_conn (w_s w) /\ s_proto (w_s w') = s_proto (w_s w).
Proof. intros P E. apply (command_prims _ _ _ _ _ _ None) in E; [|exact P]. apply prims_proto in E. split; apply E. Qed.
Lemma setup_from_account f g F todo : rates f g F -> forall w i w' o, s_conn (w_s w) = true -> s_proto (w_s w) <> ProtoHTTP -> setup_from w i todo = (w', o) ->
  exists n, 0 <= n <= zlen todo /\ account f g w' <= account f g w + n * (F (bs "SETUP") + g (bs "SETUP")).
Proof.
  intros R. induction todo as [|x todo IH]; intros w i w' o C P E; cbn [setup_from] in E; [inversion E; subst; exists 0; change (zlen []) with 0; lia|].
  pose proof (zlen_nonneg todo) as NN. rewrite zlen_cons.
  destruct (setup_uri (w_s w) (m_control (fd_media x))) as [uri|e| |]; try (inversion E; subst; exists 0; lia).
  destruct (command w (bs "SETUP") uri _) as [w1 o1] eqn:EC. destruct (command_conn _ _ _ _ _ _ P EC) as [C1 P1]. apply (command_account f g F) in EC; [|assumption..].
  destruct o1 as [y|e| |]; try (inversion E; subst; exists 1; lia). apply IH in E.
  - destruct E as (n & B & E). rewrite (account_same f g w1 (upd_s w1 (mark_feed i))) in E; [exists (n + 1); lia| |reflexivity]. unfold upd_s, mark_feed. cbn [w_s]. destruct (nth_error _ _); reflexivity.
  - unfold upd_s, mark_feed. cbn [w_s]. destruct (nth_error _ _); cbn [set_feeds s_conn]; congruence.
  - unfold upd_s, mark_feed. cbn [w_s]. destruct (nth_error _ _); cbn [set_feeds s_proto]; congruence.
Qed.
Lemma keepalive_account f g F w t1 t2 w' o : rates f g F -> s_conn (w_s w) = true -> s_proto (w_s w) <> ProtoHTTP -> keepalive w t1 t2 = (w', o) -> account f g w' <= account f g w.
Proof.
  intros R C P. unfold keepalive, with_conn. rewrite C.
  destruct (_ && _ && _ && _); [|intros E; inversion E; subst; lia]. destruct (match s_last (w_s w) with None => true | Some l => t1 - l >=? keepAliveTimeout end); [|intros E; inversion E; subst; lia].
  intros E. apply (command_account f g F) in E; [|assumption..]. rewrite account_note in E. pose proof (r_alive _ _ _ R t1 t2). change (account f g (upd_s w (fun s => set_last s (Some t2)))) with (account f g w) in E. lia.
Qed.
(* what a call of the application may cost *)
Definition price (F : bytes -> Z) (g : worth) (c : cmd) : Z :=
  match c with
  | COptions => F (bs "OPTIONS") + g (bs "OPTIONS") | CDescribe => F (bs "DESCRIBE") + g (bs "DESCRIBE") | CPlay => F (bs "PLAY") + g (bs "PLAY")
  | CPause => F (bs "PAUSE") + g (bs "PAUSE") | CTeardown => F (bs "TEARDOWN") + g (bs "TEARDOWN") | CSetup | CKeepAlive _ _ => 0
  end.
Lemma do_cmd_account f g F w c w' o : rates f g F -> s_conn (w_s w) = true -> s_proto (w_s w) <> ProtoHTTP -> (c = CSetup -> F (bs "SETUP") + g (bs "SETUP") <= 0) -> do_cmd w c = (w', o) ->
  account f g w' <= account f g w + price F g c.
Proof.
  intros R C P N. destruct c; cbn [do_cmd price]; unfold options, describe, play, pause, teardown, with_conn; rewrite ?C;
    try (intros E; apply (command_account f g F) in E; [lia|assumption..]); [|intros E; apply (keepalive_account f g F) in E; [lia|assumption..]].
  unfold setup. intros E. apply (setup_from_account f g F) in E; [|assumption..]. destruct E as (n & B & E). specialize (N eq_refl). nia.
Qed.

Lemma add_sink_account f g F w ch port w' o : rates f g F -> add_sink w ch port = (w', o) -> account f g w' <= account f g w.
Proof.
  intros R. pose proof (r_plain _ _ _ R (Listening ch port) Logic.I) as PL. unfold add_sink. destruct (w_listens w) as [|[e|] l]; intros E; inversion E; subst.
  - rewrite account_note. unfold account in *. cbn [w_s w_log set_sinks s_queue]. lia.
  - unfold account. cbn [w_s w_log]. lia.
  - rewrite account_note. unfold account in *. cbn [w_s w_log set_sinks s_queue]. lia.
Qed.
Lemma setup_feeds_account f g F todo : rates f g F -> forall w cseq x i w' o, setup_feeds w cseq x i todo = (w', o) -> account f g w' <= account f g w.
Proof.
  intros R. induction todo as [|y todo IH]; intros w cseq x i w' o E; cbn [setup_feeds] in E; [inversion E; subst; lia|].
  destruct (fd_cseq y =? cseq); [|eapply IH; exact E]. cbv zeta in E.
  assert (P1 : forall f', account f g (upd_s (upd_s w (fun s => set_feedidx s (i64 (s_feedidx s + 1)))) (put_feed i f')) = account f g w) by (intros; apply account_same; reflexivity).
  destruct (transport_setup y x) as [f' [u|e| |]]; try (inversion E; subst; rewrite P1; lia).
  destruct (t_tcp (fd_transp f')); [apply IH in E; rewrite P1 in E; exact E|].
  match type of E with context [add_sink ?a ?b ?p] => destruct (add_sink a b p) as [w1 [u1|e1| |]] eqn:E1; apply (add_sink_account f g F _ _ _ _ _ R) in E1 end; rewrite P1 in E1; try (inversion E; subst; exact E1).
  match type of E with context [add_sink ?a ?b ?p] => destruct (add_sink a b p) as [w2 [u2|e2| |]] eqn:E2; apply (add_sink_account f g F _ _ _ _ _ R) in E2 end; try (inversion E; subst; lia).
  apply IH in E. lia.
Qed.
Lemma handle_setup_account f g F w r w' o : rates f g F -> handle_setup w r = (w', o) -> account f g w' + f (Got r) <= account f g w + g (bs "SETUP").
Proof.
  intros R. pose proof (r_got _ _ _ R r) as GT. pose proof (r_worth _ _ _ R (bs "SETUP")) as WT. unfold handle_setup.
  assert (Fi : forall w1, account f g w1 <= account f g w -> (if s_feedidx (w_s w1) >=? zlen (s_feeds (w_s w1)) then (note (notify w1 StageReady) Started, @Ok unit tt) else (w1, Ok tt)) = (w', o) -> account f g w' + f (Got r) <= account f g w + g (bs "SETUP")).
  { intros w1 T E. pose proof (r_notified _ _ _ R r 1 ltac:(lia)) as K. change (verb_of 1) with (bs "SETUP") in K. pose proof (r_plain _ _ _ R Started Logic.I) as PL.
    destruct (s_feedidx (w_s w1) >=? zlen (s_feeds (w_s w1))); inversion E; subst; [|lia]. unfold notify. rewrite !account_note. change (account f g (upd_s w1 (fun s => set_stage s StageReady))) with (account f g w1). change StageReady with 1. lia. }
  destruct (p_code r =? 200).
  - destruct (setup_feeds w (p_cseq r) _ 0 (s_feeds (w_s w))) as [w1 x] eqn:E. apply (setup_feeds_account f g F _ R) in E. destruct x as [u|e| |]; [apply Fi; exact E|intros X; inversion X; subst; lia..].
  - destruct (negb (p_code r =? 401)); apply Fi; unfold account, upd_s; cbn [w_s w_log set_feedidx s_queue]; lia.
Qed.
Lemma react_account f g F w req r w' o : rates f g F -> s_conn (w_s w) = true -> s_proto (w_s w) <> ProtoHTTP -> react w req r = (w', o) -> account f g w' + f (Got r) <= account f g w + g (q_verb req).
Proof.
  intros R C P. pose proof (r_got _ _ _ R r) as GT. pose proof (r_worth _ _ _ R (q_verb req)) as WT.
  unfold react. destruct (beq (q_verb req) (bs "OPTIONS")) eqn:B.
  { apply beq_eq in B. destruct (s_stage (w_s w) =? StageInit); [|intros E; inversion E; subst; lia]. unfold describe, with_conn. cbn [upd_s w_s set_verbs s_conn]. rewrite C. intros E.
    apply (command_account f g F) in E; [|assumption..]. pose proof (r_options _ _ _ R r). rewrite B. 
    match type of E with _ <= account f g ?x + _ + _ => change (account f g x) with (account f g w) in E end. lia. }
  clear B. destruct (beq (q_verb req) (bs "DESCRIBE")) eqn:B.
  { apply beq_eq in B. destruct (p_body r) as [body|] eqn:EB; [|intros E; inversion E; subst; lia].
    destruct (parse_feeds (s_proto (w_s w)) body) as [fs| | |] eqn:EF; intros E; try (inversion E; subst; lia).
    unfold setup in E. apply (setup_from_account f g F _ R) in E; [|assumption..]. destruct E as (n & N & E). cbn [upd_s w_s set_feeds s_feeds] in N. apply parse_feeds_count in EF.
    pose proof (r_describe _ _ _ R r n) as D. unfold streams_in in D. rewrite EB in D. specialize (D ltac:(lia)). rewrite B.
    match type of E with _ <= account f g ?x + _ => change (account f g x) with (account f g w) in E end. lia. }
  assert (K : forall st, 1 <= st <= 4 -> beq (q_verb req) (verb_of st) = true -> forall w' o, (if p_code r =? 200 then notify w st else w, @Ok unit tt) = (w', o) -> account f g w' + f (Got r) <= account f g w + g (q_verb req)).
  { intros st S1 B0 w2 o2 E. apply beq_eq in B0. pose proof (r_notified _ _ _ R r st S1). destruct (p_code r =? 200); inversion E; subst; [|lia]. unfold notify. rewrite account_note, B0.
    change (account f g (upd_s w (fun s => set_stage s st))) with (account f g w). lia. }
  destruct (beq (q_verb req) (bs "PAUSE")) eqn:B1; [apply (K 3); [lia|exact B1]|].
  destruct (beq (q_verb req) (bs "PLAY")) eqn:B2; [apply (K 2); [lia|exact B2]|].
  destruct (beq (q_verb req) (bs "TEARDOWN")) eqn:B3; [apply (K 4); [lia|exact B3]|].
  destruct (beq (q_verb req) (bs "SETUP")) eqn:B4; [apply beq_eq in B4; rewrite B4; apply (handle_setup_account f g F); exact R|].
  intros E; inversion E; subst; lia.
Qed.
Lemma retry_account f g F w req r w' o : rates f g F -> p_code r = 401 -> s_proto (w_s w) <> ProtoHTTP -> retry w req r = (w', o) -> account f g w' + f (Got r) <= account f g w + g (q_verb req).
Proof.
  intros R N P. pose proof (r_got _ _ _ R r) as GT. pose proof (r_worth _ _ _ R (q_verb req)) as WT.
  unfold retry, authorize. destruct (new_digest (s_uri (w_s w)) (header_get (p_header r) (bs "WWW-Authenticate"))) as [d| | |]; try (intros E; inversion E; subst; lia).
  destruct (s_user (w_s w)) as [[user pass]|]; [|intros E; inversion E; subst; lia].
  destruct (authenticate d user pass (hd [] (w_rand w))) as [d' text]. unfold call_auth. cbn [w_s set_auth s_auth]. destruct (auth_call text d' (q_verb req) []) as [d2 out2].
  unfold enqueue. cbv zeta. cbn [q_verb q_uri q_auth q_header set_auth s_cseq s_session s_queue]. set (rq := mkReq _ _ _ _ _ _).
  unfold write, upd_s. cbn [w_s w_in w_writes w_listens w_rand w_log set_queue set_auth s_proto]. destruct (s_proto (w_s w) =? ProtoHTTP) eqn:EP; [lia|]. cbv zeta. intros E.
  assert (w_log w' = w_log w ++ [Sent true rq] /\ exists k, s_queue (w_s w') = qset (s_queue (w_s w)) k rq) as (L & k & Q) by (destruct (w_writes w) as [|[e|] ?]; inversion E; split; try reflexivity; eexists; reflexivity).
  unfold account. rewrite L, Q, spent_app, spent_one. pose proof (owed_set g (s_queue (w_s w)) k rq (r_worth _ _ _ R)) as QS. change (q_verb rq) with (q_verb req) in QS. pose proof (r_again _ _ _ R r rq N). lia.
Qed.
Lemma handle_response_account f g F w r w' o : rates f g F -> s_conn (w_s w) = true -> s_proto (w_s w) <> ProtoHTTP -> handle_response w r = (w', o) -> account f g w' <= account f g w.
Proof.
  intros R C P. pose proof (r_got _ _ _ R r) as GT. unfold handle_response. cbv zeta. pose proof (account_note f g w (Got r)) as AN. change (w_s (note w (Got r))) with (w_s w).
  destruct (qget (s_queue (w_s w)) (p_cseq r)) as [req|] eqn:G; [|intros E; inversion E; subst; lia].
  set (w1 := upd_s _ _). assert (T : account f g w1 + g (q_verb req) <= account f g w + f (Got r)).
  { unfold w1, account, upd_s, note. cbn [w_s w_log set_queue s_queue]. rewrite spent_app, spent_one. pose proof (owed_got g _ _ _ (r_worth _ _ _ R) G). lia. }
  assert (P1 : s_proto (w_s w1) <> ProtoHTTP) by exact P. assert (C1 : s_conn (w_s w1) = true) by exact C. clearbody w1. destruct (p_code r =? 401) eqn:E4; intros E.
  - apply (retry_account f g F) in E; [lia|exact R|lia|exact P1].
  - assert (LS : forall s, s_queue (learn_session s r) = s_queue s /\ s_proto (learn_session s r) = s_proto s /\ s_conn (learn_session s r) = s_conn s) by (intros s; unfold learn_session; cbv zeta; destruct (beq _ []); repeat split; reflexivity).
    set (w2 := upd_s w1 (fun s => learn_session s r)) in E. assert (T2 : account f g w2 = account f g w1) by (apply account_same; [apply LS|reflexivity]).
    apply (react_account f g F) in E; [lia|exact R|unfold w2, upd_s; cbn [w_s]; rewrite (proj2 (proj2 (LS (w_s w1)))); exact C1|unfold w2, upd_s; cbn [w_s]; rewrite (proj1 (proj2 (LS (w_s w1)))); exact P1].
Qed.
Lemma receive_account f g F w w' o : rates f g F -> s_conn (w_s w) = true -> s_proto (w_s w) <> ProtoHTTP -> receive w = (w', o) -> account f g w' <= account f g w.
Proof.
  intros R C P. unfold receive.
  assert (D : forall s w' (o : res unit) x, (upd_in w s, x) = (w', o) -> account f g w' <= account f g w).
  { intros s w2 o2 x E. inversion E; subst. change (account f g (upd_in w s)) with (account f g w). lia. }
  assert (H : forall s w' o, match unpack_response s with
      | (s1, Ok r) => handle_response (upd_in w s1) r | (s1, Err e) => (upd_in w s1, Err e) | (s1, Panic) => (upd_in w s1, Panic) | (s1, Fuel) => (upd_in w s1, Fuel) end = (w', o) ->
      account f g w' <= account f g w).
  { intros s w2 o2. destruct (unpack_response s) as [s1 [r|e| |]]; try apply D. intros E. apply (handle_response_account f g F) in E; [exact E|exact R|exact C|exact P]. }
  destruct (peek 1 (w_in w)) as [s0 [b|e| |]]; try apply D.
  destruct b as [|b0 bt]; [apply H|]. destruct (Z.eq_dec b0 36) as [->|N].
  - destruct bt; [|apply H]. destruct (read_byte (discard 1 s0)) as [s1 [ch|e| |]]; try apply D. destruct (read_uint16 s1) as [s2 [len|e| |]]; try apply D.
    destruct (read_bytes len s2) as [s3 [p|e| |]]; try apply D. intros E. inversion E; subst. rewrite account_note. pose proof (r_plain _ _ _ R (Delivered ch p) Logic.I). change (account f g (upd_in w s3)) with (account f g w). lia.
  - destruct b0 as [|q|q]; try apply H. repeat (destruct q as [q|q|]; try apply H). contradiction N. reflexivity.
Qed.
Lemma turn_account f g F w t1 t2 w' o : rates f g F -> s_conn (w_s w) = true -> s_proto (w_s w) <> ProtoHTTP -> turn w t1 t2 = (w', o) -> account f g w' <= account f g w.
Proof.
  intros R0 C P. unfold turn. destruct (keepalive w t1 t2) as [w1 k] eqn:K. pose proof (keepalive_prims _ _ _ _ _ None P K) as KP. destruct (prims_proto _ _ KP) as [Q Q2]. cbn [fst] in Q, Q2. apply (keepalive_account f g F) in K; [|assumption..].
  assert (R : forall w' o, match receive w1 with (w, Ok _) => (w, Again) | (w, Err e) => (w, if is_timeout e then Again else Stop) | (w, Panic) | (w, Fuel) => (w, Crash) end = (w', o) -> account f g w' <= account f g w).
  { intros w2 o2 E. destruct (receive w1) as [w3 x] eqn:R. apply (receive_account f g F) in R; [|exact R0|congruence|congruence]. assert (w2 = w3) by (destruct x; inversion E; reflexivity). subst. lia. }
  destruct k as [u|e| |]; [apply R| | |]; try (intros E; inversion E; subst; exact K).
  destruct (s_stage (w_s w1) =? StageDone); [|apply R]. intros E; inversion E; subst; exact K.
Qed.
Definition prices (F : bytes -> Z) (g : worth) (es : list event) : Z := fold_right (fun e n => match e with App c => price F g c + n | Turn _ _ => n end) 0 es.
Lemma run_dead w es : M_session.run (w, Dead) es = (w, Dead).
Proof. induction es as [|e es IH]; [reflexivity|]. exact IH. Qed.
Lemma prices_nonneg F g es : (forall c, 0 <= price F g c) -> 0 <= prices F g es.
Proof. intros H. induction es as [|[c|a b] es IH]; cbn [prices fold_right] in *; [lia| |exact IH]. specialize (H c). unfold prices in IH. lia. Qed.
Lemma run_account f g F es : rates f g F -> forall w l w' l', s_conn (w_s w) = true -> s_proto (w_s w) <> ProtoHTTP -> (In (App CSetup) es -> F (bs "SETUP") + g (bs "SETUP") <= 0) ->
  l' <> Dead \/ (forall c, 0 <= price F g c) -> M_session.run (w, l) es = (w', l') -> account f g w' <= account f g w + prices F g es.
Proof.
  intros R. induction es as [|e es IH]; intros w l w' l' C P N D E; [cbn in E; inversion E; subst; cbn; lia|].
  destruct l; [| |rewrite run_dead in E; inversion E; subst; destruct D as [D|D]; [contradiction D; reflexivity|pose proof (prices_nonneg F g (e :: es) D); lia]].
  - change (M_session.run (step (w, Live) e) es = (w', l')) in E. destruct (step (w, Live) e) as [w1 l1] eqn:S. destruct (step_prims _ _ _ _ _ None P S) as (c1 & P1). destruct (prims_proto _ _ P1) as [Q Q2]. cbn [fst] in Q, Q2.
    apply IH in E; [|congruence|congruence|intros X; apply N; right; exact X|exact D]. destruct e as [c|t1 t2]; cbn [prices fold_right step] in *; fold (prices F g es).
    + destruct (do_cmd w c) as [w2 x] eqn:DC. apply (do_cmd_account f g F) in DC; [|assumption..|intros ->; apply N; left; reflexivity]. assert (w1 = w2) by (destruct x; inversion S; reflexivity). subst. lia.
    + destruct (turn w t1 t2) as [w2 x] eqn:DC. apply (turn_account f g F) in DC; [|assumption..]. assert (w1 = w2) by (destruct x; inversion S; reflexivity). subst. lia.
  - change (M_session.run (step (w, NoLoop) e) es = (w', l')) in E. destruct (step (w, NoLoop) e) as [w1 l1] eqn:S. destruct (step_prims _ _ _ _ _ None P S) as (c1 & P1). destruct (prims_proto _ _ P1) as [Q Q2]. cbn [fst] in Q, Q2.
    apply IH in E; [|congruence|congruence|intros X; apply N; right; exact X|exact D]. destruct e as [c|t1 t2]; cbn [prices fold_right step] in *; fold (prices F g es).
    + destruct (do_cmd w c) as [w2 x] eqn:DC. apply (do_cmd_account f g F) in DC; [|assumption..|intros ->; apply N; left; reflexivity]. assert (w1 = w2) by (destruct x; inversion S; reflexivity). subst. lia.
    + inversion S; subst. lia.
Qed.
Lemma opened_account f g w proto : opened w proto -> account f g w = 0 /\ s_conn (w_s w) = true /\ s_proto (w_s w) = proto.
Proof. intros (u & uri & S & L). unfold account. rewrite S, L. repeat split; reflexivity. Qed.
Lemma owed_nonneg g q : (forall v, 0 <= g v) -> 0 <= owed g q.
Proof. intros G. induction q as [|[k r] q IH]; [cbn; lia|]. rewrite owed_cons. specialize (G (q_verb r)). lia. Qed.

(* ---- the accounts ---- *)
Ltac verbs := repeat match goal with |- context [beq ?x ?y] => let b := eval vm_compute in (beq x y) in change (beq x y) with b end.
Definition pays (a : Z) (v : bytes) (x : bytes) : Z := a * one_if (beq x v).
Definition own_cost (a : Z) (v : bytes) (e : effect) : Z := match e with Sent false r => pays a v (q_verb r) | Alive _ _ => - pays a v (bs "OPTIONS") | _ => 0 end.
Lemma own_rates a v : beq (bs "DESCRIBE") v = false -> beq (bs "SETUP") v = false -> rates (own_cost a v) (fun _ => 0) (pays a v).
Proof.
  intros D S. split; unfold own_cost, pays; try (intros; lia).
  - intros []; cbn; intros; try contradiction; lia.
  - intros r. rewrite D. cbn. lia.
  - intros r n _. rewrite S. cbn. lia.
Qed.
Lemma own_spent a v log : spent (own_cost a v) log = a * (times_asked v log - one_if (beq (bs "OPTIONS") v) * times_kept_alive log).
Proof.
  unfold spent, times_asked, times_kept_alive. induction log as [|e log IH]; cbn [fold_right filter]; [cbn; lia|]. rewrite IH. destruct e as [[|] r| | | | | |]; cbn [own_cost]; unfold pays; rewrite ?zlen_cons; try lia.
  destruct (beq (q_verb r) v); rewrite ?zlen_cons; cbn [one_if]; lia.
Qed.
Definition call_of (c : cmd) : bytes := match c with COptions => bs "OPTIONS" | CDescribe => bs "DESCRIBE" | CSetup => bs "SETUP" | CPlay => bs "PLAY" | CPause => bs "PAUSE" | CTeardown => bs "TEARDOWN" | CKeepAlive _ _ => [] end.
Lemma own_prices a c es : c = COptions \/ c = CPlay \/ c = CPause \/ c = CTeardown -> prices (pays a (call_of c)) (fun _ => 0) es = a * times_called c es.
Proof.
  intros H. unfold times_called. induction es as [|e es IH]; [cbn; lia|]. cbn [prices fold_right filter]. fold (prices (pays a (call_of c)) (fun _ => 0) es).
  destruct e as [c'|t1 t2]; [|rewrite IH; destruct H as [->|[->|[->| ->]]]; reflexivity].
  assert (P : price (pays a (call_of c)) (fun _ => 0) c' = a * one_if (is_call c (App c'))) by (destruct H as [->|[->|[->| ->]]]; destruct c'; cbn [price call_of is_call]; unfold pays; verbs; cbn [one_if]; lia).
  rewrite P, IH. destruct (is_call c (App c')); rewrite ?zlen_cons; cbn [one_if]; lia.
Qed.
Lemma own_calls c proto w es w' l' : proto <> ProtoHTTP -> opened w proto -> c = COptions \/ c = CPlay \/ c = CPause \/ c = CTeardown -> M_session.run (w, Live) es = (w', l') ->
  let n := times_asked (call_of c) (w_log w') - one_if (beq (bs "OPTIONS") (call_of c)) * times_kept_alive (w_log w') in
  n <= times_called c es /\ (l' <> Dead -> n = times_called c es).
Proof.
  intros P O H E n. destruct (opened_account (own_cost 1 (call_of c)) (fun _ => 0) _ _ O) as (A1 & C & EP). destruct (opened_account (own_cost (-1) (call_of c)) (fun _ => 0) _ _ O) as (A2 & _ & _).
  assert (P' : s_proto (w_s w) <> ProtoHTTP) by congruence.
  assert (R : forall a, rates (own_cost a (call_of c)) (fun _ => 0) (pays a (call_of c))) by (intros a; apply own_rates; destruct H as [->|[->|[->| ->]]]; reflexivity).
  assert (NS : forall a, pays a (call_of c) (bs "SETUP") + 0 <= 0) by (intros a; destruct H as [->|[->|[->| ->]]]; unfold pays; cbn [call_of]; change (beq (bs "SETUP") _) with false; cbn [one_if]; lia).
  assert (OW : forall q, owed (fun _ => 0) q = 0) by (induction q as [|[k r] q IH]; [reflexivity|rewrite owed_cons; lia]).
  assert (UP : n <= times_called c es).
  { assert (D : l' <> Dead \/ (forall x, 0 <= price (pays 1 (call_of c)) (fun _ => 0) x)) by (right; intros x; destruct x; cbn [price]; unfold pays, one_if; repeat destruct (beq _ _); lia).
    pose proof (run_account _ _ _ es (R 1) w Live w' l' C P' (fun _ => NS 1) D E) as X. rewrite A1 in X. unfold account in X. rewrite OW, own_spent, own_prices in X by exact H. unfold n. lia. }
  split; [exact UP|]. intros ND. pose proof (run_account _ _ _ es (R (-1)) w Live w' l' C P' (fun _ => NS (-1)) (or_introl ND) E) as X. rewrite A2 in X. unfold account in X. rewrite OW, own_spent, own_prices in X by exact H. unfold n in *. lia.
Qed.

Definition described_cost (e : effect) : Z := match e with Sent false r => pays 1 (bs "DESCRIBE") (q_verb r) + pays (-1) (bs "OPTIONS") (q_verb r) | _ => 0 end.
Definition described_worth (v : bytes) : Z := pays 1 (bs "OPTIONS") v.
Definition described_price (v : bytes) : Z := pays 1 (bs "DESCRIBE") v + pays (-1) (bs "OPTIONS") v.
Lemma described_rates : rates described_cost described_worth described_price.
Proof.
  split; unfold described_cost, described_worth, described_price, pays.
  - intros v. unfold one_if. destruct (beq v _); lia.
  - reflexivity.
  - intros []; cbn; intros; try contradiction; lia.
  - intros; lia.
  - intros. verbs. cbn [one_if]. lia.
  - intros. verbs. cbn [one_if]. lia.
  - intros r n _. verbs. cbn [one_if]. lia.
  - intros. lia.
  - intros r st _. unfold one_if. destruct (beq _ _); lia.
Qed.
Lemma describe_calls proto w es w' l' : proto <> ProtoHTTP -> opened w proto -> M_session.run (w, Live) es = (w', l') ->
  times_asked (bs "DESCRIBE") (w_log w') <= times_asked (bs "OPTIONS") (w_log w') + times_called CDescribe es.
Proof.
  intros P O E. destruct (opened_account described_cost described_worth _ _ O) as (A & C & EP).
  assert (D : l' <> Dead \/ (forall x, 0 <= price described_price described_worth x)) by (right; intros x; destruct x; cbn [price]; unfold described_price, described_worth, pays; verbs; cbn [one_if]; lia).
  pose proof (run_account _ _ _ es described_rates w Live w' l' C ltac:(congruence) ltac:(intros _; unfold described_price, described_worth, pays; verbs; cbn [one_if]; lia) D E) as X. rewrite A in X. unfold account in X.
  pose proof (owed_nonneg described_worth (s_queue (w_s w')) (r_worth _ _ _ described_rates)) as OW.
  assert (SP : forall log, spent described_cost log = times_asked (bs "DESCRIBE") log - times_asked (bs "OPTIONS") log).
  { unfold spent, times_asked. induction log as [|e log IH]; [reflexivity|]. cbn [fold_right filter]. rewrite IH. destruct e as [[|] r| | | | | |]; cbn [described_cost]; unfold pays, one_if; try lia.
    destruct (beq (q_verb r) (bs "DESCRIBE")), (beq (q_verb r) (bs "OPTIONS")); rewrite ?zlen_cons; lia. }
  assert (PR : prices described_price described_worth es = times_called CDescribe es).
  { unfold times_called. clear. induction es as [|e es IH]; [reflexivity|]. cbn [prices fold_right filter]. fold (prices described_price described_worth es). rewrite IH. destruct e as [c|a b]; [|reflexivity]. destruct c; cbn [is_call price]; rewrite ?zlen_cons; unfold described_price, described_worth, pays; verbs; cbn [one_if]; lia. }
  rewrite SP, PR in X. lia.
Qed.

Definition setup_cost (e : effect) : Z := match e with Sent false r => pays 1 (bs "SETUP") (q_verb r) | Got r => - streams_in r | _ => 0 end.
Lemma streams_nonneg r : 0 <= streams_in r.
Proof. unfold streams_in. destruct (p_body r); [apply mentions_nonneg|lia]. Qed.
Lemma setup_rates : rates setup_cost (fun _ => 0) (pays 1 (bs "SETUP")).
Proof.
  split; unfold setup_cost.
  - intros; lia.
  - reflexivity.
  - intros []; cbn; intros; try contradiction; lia.
  - intros r. pose proof (streams_nonneg r). lia.
  - intros. unfold pays; verbs; cbn [one_if]; lia.
  - intros r. pose proof (streams_nonneg r). unfold pays; verbs; cbn [one_if]; lia.
  - intros r n N. unfold pays; verbs; cbn [one_if]; lia.
  - intros r q _. pose proof (streams_nonneg r). lia.
  - intros r st _. pose proof (streams_nonneg r). lia.
Qed.
Lemma setup_calls proto w es w' l' : proto <> ProtoHTTP -> opened w proto -> times_called CSetup es = 0 -> M_session.run (w, Live) es = (w', l') ->
  times_asked (bs "SETUP") (w_log w') <= streams_described (w_log w').
Proof.
  intros P O N E. destruct (opened_account setup_cost (fun _ => 0) _ _ O) as (A & C & EP).
  assert (D : l' <> Dead \/ (forall x, 0 <= price (pays 1 (bs "SETUP")) (fun _ => 0) x)) by (right; intros x; destruct x; cbn [price]; unfold pays; verbs; cbn [one_if]; lia).
  assert (N' : In (App CSetup) es -> pays 1 (bs "SETUP") (bs "SETUP") + 0 <= 0).
  { intros I. apply in_split in I. destruct I as (a & b & ->). unfold times_called in N. rewrite count_app in N. cbn [filter is_call] in N. rewrite zlen_cons in N.
    pose proof (zlen_nonneg (filter (is_call CSetup) a)). pose proof (zlen_nonneg (filter (is_call CSetup) b)). lia. }
  pose proof (run_account _ _ _ es setup_rates w Live w' l' C ltac:(congruence) N' D E) as X. rewrite A in X. unfold account in X.
  pose proof (owed_nonneg (fun _ => 0) (s_queue (w_s w')) (fun _ => Z.le_refl 0)) as OW.
  assert (SP : forall log, spent setup_cost log = times_asked (bs "SETUP") log - streams_described log).
  { unfold spent, times_asked, streams_described. induction log as [|e log IH]; [reflexivity|]. cbn [fold_right filter]. rewrite IH. destruct e as [[|] r| | | | | |]; cbn [setup_cost]; unfold pays, one_if; try lia.
    destruct (beq (q_verb r) (bs "SETUP")); rewrite ?zlen_cons; lia. }
  assert (PR : prices (pays 1 (bs "SETUP")) (fun _ => 0) es = 0).
  { clear. induction es as [|e es IH]; [reflexivity|]. cbn [prices fold_right]. fold (prices (pays 1 (bs "SETUP")) (fun _ => 0) es). rewrite IH. destruct e as [c|a b]; [|reflexivity]. destruct c; reflexivity. }
  rewrite SP, PR in X. lia.
Qed.

Definition repeat_cost (e : effect) : Z := match e with Sent again _ => one_if again | Got r => - one_if (p_code r =? 401) | _ => 0 end.
Lemma repeat_rates : rates repeat_cost (fun _ => 0) (fun _ => 0).
Proof.
  assert (O : forall b, 0 <= one_if b) by (intros []; cbn; lia).
  split; unfold repeat_cost; try (intros; lia).
  - reflexivity.
  - intros []; cbn; intros; try contradiction; lia.
  - intros r. specialize (O (p_code r =? 401)). lia.
  - intros r. specialize (O (p_code r =? 401)). lia.
  - intros r n _. specialize (O (p_code r =? 401)). lia.
  - intros r q ->. cbn. lia.
  - intros r st _. specialize (O (p_code r =? 401)). lia.
Qed.
Lemma repeat_calls proto w es w' l' : proto <> ProtoHTTP -> opened w proto -> M_session.run (w, Live) es = (w', l') ->
  times_repeated (w_log w') <= times_answered 401 (w_log w').
Proof.
  intros P O E. destruct (opened_account repeat_cost (fun _ => 0) _ _ O) as (A & C & EP).
  assert (D : l' <> Dead \/ (forall x, 0 <= price (fun _ => 0) (fun _ => 0) x)) by (right; intros x; destruct x; cbn; lia).
  pose proof (run_account _ _ _ es repeat_rates w Live w' l' C ltac:(congruence) ltac:(intros; lia) D E) as X. rewrite A in X. unfold account in X.
  pose proof (owed_nonneg (fun _ => 0) (s_queue (w_s w')) (fun _ => Z.le_refl 0)) as OW.
  assert (SP : forall log, spent repeat_cost log = times_repeated log - times_answered 401 log).
  { unfold spent, times_repeated, times_answered. induction log as [|e log IH]; [reflexivity|]. cbn [fold_right filter]. rewrite IH. destruct e as [[|] r|s|ch p|r|ch p| |a b]; cbn [repeat_cost]; unfold one_if; rewrite ?zlen_cons; try lia.
    destruct (p_code r =? 401); rewrite ?zlen_cons; lia. }
  assert (PR : prices (fun _ => 0) (fun _ => 0) es = 0).
  { clear. induction es as [|e es IH]; [reflexivity|]. cbn [prices fold_right]. fold (prices (fun _ => 0) (fun _ => 0) es). rewrite IH. destruct e as [c|a b]; [|reflexivity]. destruct c; reflexivity. }
  rewrite SP, PR in X. lia.
Qed.
