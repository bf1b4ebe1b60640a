(* Lemmas: a conversation with a server that grants everything. *)
From Coq Require Import String Permutation.
From Verif Require Import Base GoStrings M_conn S_message M_message M_transport M_sdp M_digest M_sps M_session S_session S_handshake
  L_base L_strings L_rtp L_digest L_message L_session L_frames L_flow.
From Coq Require Import ZifyBool ZifyNat.

Local Opaque digest_response.

(* ---- what is seen ---- *)
Lemma sent_requests_app a b : sent_requests (a ++ b) = sent_requests a ++ sent_requests b.
Proof. apply flat_map_app. Qed.
Lemma stages_app a b : stages (a ++ b) = stages a ++ stages b.
Proof. apply flat_map_app. Qed.
Lemma packets_app a b : packets (a ++ b) = packets a ++ packets b.
Proof. apply flat_map_app. Qed.
Lemma frames_app a b : frames (a ++ b) = frames a ++ frames b.
Proof. apply flat_map_app. Qed.
Lemma turns_at_app a b : turns_at (a ++ b) = turns_at a ++ turns_at b.
Proof. apply map_app. Qed.

(* a world whose log is seen as these *)
Definition seen (w : world) (rq : list request) (st : list Z) (pk : list (Z * bytes)) : Prop :=
  sent_requests (w_log w) = rq /\ stages (w_log w) = st /\ packets (w_log w) = pk.
Lemma seen_add w w' new rq st pk : w_log w' = w_log w ++ new -> seen w rq st pk ->
  seen w' (rq ++ sent_requests new) (st ++ stages new) (pk ++ packets new).
Proof. intros E (A & B & C). unfold seen. rewrite E, sent_requests_app, stages_app, packets_app, A, B, C. auto. Qed.

(* ---- items between the responses ---- *)
Lemma noise_end items : with_noise [] items -> Forall noise items.
Proof. intros W. remember [] as s eqn:E. induction W as [|i s t N W IH|i s t W IH]; [constructor|constructor; auto|discriminate]. Qed.
Lemma noise_next r rs items : with_noise (r :: rs) items -> exists pre post, items = pre ++ r :: post /\ Forall noise pre /\ with_noise rs post.
Proof.
  intros W. remember (r :: rs) as s eqn:E. induction W as [|i s t N W IH|i s t W IH]; [discriminate| |].
  - destruct (IH E) as (pre & post & -> & F & X). exists (i :: pre), post. splits; [reflexivity|constructor; auto|exact X].
  - inversion E; subst. exists [], t. splits; [reflexivity|constructor|exact W].
Qed.

(* ---- a turn over TCP ---- *)
Lemma turn_tcp w t1 t2 : s_conn (w_s w) = true -> s_proto (w_s w) = ProtoTCP ->
  turn w t1 t2 = match receive w with
                | (w, Ok _) => (w, Again)
                | (w, Err e) => (w, if is_timeout e then Again else Stop)
                | (w, Panic) | (w, Fuel) => (w, Crash)
                end.
Proof.
  intros C P. unfold turn. rewrite keepalive_exact by (try exact C; rewrite P; discriminate). rewrite P. change (ProtoTCP =? ProtoTCP) with true. cbn [negb andb]. reflexivity.
Qed.

Definition noise_log (i : item) : list effect := match i with Frame ch p => [Delivered ch p] | _ => [] end.
Lemma noise_turn w t1 t2 i rest : s_conn (w_s w) = true -> s_proto (w_s w) = ProtoTCP -> noise i -> item_ok i -> w_in w = item_stream i ++ rest ->
  turn w t1 t2 = (mkW (w_s w) rest (w_writes w) (w_listens w) (w_rand w) (w_log w ++ noise_log i), Again).
Proof.
  intros C P N K E. rewrite turn_tcp by assumption. destruct i as [ch p|code reason fs body|]; cbn [noise item_ok item_stream noise_log] in *; [|destruct N|].
  - destruct K as [_ L]. rewrite (receive_frame w ch p rest) by (try exact E; lia). destruct (zlen p <=? 2048) eqn:X; [|lia]. reflexivity.
  - unfold receive. rewrite E. cbn [app]. unfold peek. change (1 >? bufio_size) with false. change (Z.to_nat 1) with 1%nat. cbn [take_bytes]. rewrite app_nil_r. reflexivity.
Qed.

Lemma run_app st a b : run st (a ++ b) = run (run st a) b.
Proof. apply fold_left_app. Qed.

Lemma noise_run pre : forall w clocks rest, s_conn (w_s w) = true -> s_proto (w_s w) = ProtoTCP -> Forall noise pre -> Forall item_ok pre ->
  length clocks = length pre -> w_in w = flat_map item_stream pre ++ rest ->
  exists new, run (w, Live) (turns_at clocks) = (mkW (w_s w) rest (w_writes w) (w_listens w) (w_rand w) (w_log w ++ new), Live) /\
    sent_requests new = [] /\ stages new = [] /\ packets new = frames pre.
Proof.
  induction pre as [|i pre IH]; intros w clocks rest C P N K L E; destruct clocks as [|[t1 t2] clocks]; cbn [length] in L; try discriminate.
  { exists []. cbn [turns_at map run fold_left]. cbn [flat_map app] in E. rewrite app_nil_r, <- E. destruct w. splits; reflexivity. }
  apply Forall_cons_iff in N as [Ni N]. apply Forall_cons_iff in K as [Ki K]. cbn [flat_map] in E. rewrite <- app_assoc in E.
  cbn [turns_at map run fold_left step fst snd]. rewrite (noise_turn w t1 t2 i (flat_map item_stream pre ++ rest) C P Ni Ki E).
  fold (turns_at clocks). fold (run (mkW (w_s w) (flat_map item_stream pre ++ rest) (w_writes w) (w_listens w) (w_rand w) (w_log w ++ noise_log i), Live) (turns_at clocks)).
  destruct (IH (mkW (w_s w) (flat_map item_stream pre ++ rest) (w_writes w) (w_listens w) (w_rand w) (w_log w ++ noise_log i)) clocks rest C P N K ltac:(lia) eq_refl) as (new & R & A & B & D).
  cbn [w_s w_writes w_listens w_rand w_log] in R. exists (noise_log i ++ new). rewrite R, <- app_assoc, sent_requests_app, stages_app, packets_app, A, B, D.
  splits; [reflexivity|destruct i; reflexivity..|]. destruct i; reflexivity.
Qed.

(* the response of an item *)
Definition tells (r : response) (i : item) : Prop :=
  match i with
  | Resp code reason fields body => p_code r = code /\ p_body r = (match body with [] => None | _ => Some body end) /\
      (forall k, token k -> header_get (p_header r) k = field_value fields k) /\
      (forall n, 0 <= n < 2 ^ 63 -> field_value fields (bs "CSeq") = itoa n -> p_cseq r = n)
  | _ => False
  end.
Lemma any_turn w i rest : s_conn (w_s w) = true -> s_proto (w_s w) = ProtoTCP -> item_ok i -> ~ noise i -> w_in w = item_stream i ++ rest ->
  exists r, tells r i /\ forall w1 t1 t2, handle_response (upd_in w rest) r = (w1, Ok tt) -> turn w t1 t2 = (w1, Again).
Proof.
  intros C P K G E. destruct i as [ch p|code reason fs body|]; [destruct (G I)| |destruct (G I)]. cbn [item_ok item_stream] in *.
  destruct K as (Kc & Rn & F & Co & L).
  destruct (unpack_response_spec code reason fs body rest Kc Rn F Co L) as (r & U & H1 & H2 & H3 & H4). fold (sent (response_text (bs "RTSP/1.0") code reason fs body)) in U. rewrite <- E in U.
  exists r. split; [cbn [tells]; auto|]. intros w1 t1 t2 HR. rewrite turn_tcp by assumption. unfold receive.
  assert (Pk : peek 1 (w_in w) = (w_in w, Ok [82])).
  { rewrite E. unfold response_text. change (bs "RTSP/1.0") with (82 :: bs "TSP/1.0"). cbn [app]. rewrite sent_cons. reflexivity. }
  rewrite Pk. cbv beta iota. rewrite U, HR. reflexivity.
Qed.
Lemma resp_turn w i rest n : s_conn (w_s w) = true -> s_proto (w_s w) = ProtoTCP -> item_ok i -> grants n i -> w_in w = item_stream i ++ rest ->
  exists r, tells r i /\ forall w1 t1 t2, handle_response (upd_in w rest) r = (w1, Ok tt) -> turn w t1 t2 = (w1, Again).
Proof. intros C P K G E. apply any_turn; try assumption. destruct i; [destruct G|intros []|destruct G]. Qed.

(* noise and then a response *)
Lemma answered pre i : forall w clocks c rest n, s_conn (w_s w) = true -> s_proto (w_s w) = ProtoTCP -> Forall noise pre -> Forall item_ok (pre ++ [i]) -> grants n i ->
  length clocks = length pre -> w_in w = flat_map item_stream pre ++ item_stream i ++ rest ->
  exists new r, tells r i /\ sent_requests new = [] /\ stages new = [] /\ packets new = frames pre /\
    forall w1, handle_response (mkW (w_s w) rest (w_writes w) (w_listens w) (w_rand w) (w_log w ++ new)) r = (w1, Ok tt) ->
      run (w, Live) (turns_at (clocks ++ [c])) = (w1, Live).
Proof.
  intros w clocks c rest n C P N K G L E. apply Forall_app in K as [K Ki]. apply Forall_cons_iff in Ki as [Ki _].
  destruct (noise_run pre w clocks _ C P N K L E) as (new & R & A & B & D).
  destruct (resp_turn (mkW (w_s w) (item_stream i ++ rest) (w_writes w) (w_listens w) (w_rand w) (w_log w ++ new)) i rest n C P Ki G eq_refl) as (r & T & H).
  exists new, r. splits; try assumption. intros w1 HR. rewrite turns_at_app, run_app, R. cbn [turns_at map run fold_left step fst snd]. rewrite (H w1 (fst c) (snd c) HR). reflexivity.
Qed.

Lemma split_clocks (pre : list item) i post (clocks : list (Z * Z)) : length clocks = length (pre ++ i :: post) ->
  exists a c b, clocks = (a ++ [c]) ++ b /\ length a = length pre /\ length b = length post.
Proof.
  intros L. rewrite app_length in L. cbn [length] in L. exists (firstn (length pre) clocks).
  destruct (skipn (length pre) clocks) as [|c b] eqn:S.
  - pose proof (skipn_length (length pre) clocks) as X. rewrite S in X. cbn [length] in X. lia.
  - exists c, b. pose proof (skipn_length (length pre) clocks) as X. rewrite S in X. cbn [length] in X. splits; [|rewrite firstn_length; lia|lia].
    rewrite <- app_assoc. cbn [app]. rewrite <- S. symmetry. apply firstn_skipn.
Qed.

(* ---- the session, over TCP and without credentials in use ---- *)
Definition ses user uri sinks stage q id feeds idx verbs cseq : session := mkSes true ProtoTCP user uri sinks stage None q id feeds idx verbs None cseq.
Definition wor rnd s inn log : world := mkW s inn [] [] rnd log.

Lemma command_talk user uri rnd sinks stage q id feeds idx verbs c inn log verb u hs : 0 <= c < 2 ^ 63 - 1 ->
  let rq := mkReq verb (c + 1) u [] id (fold_left (fun h e => header_set h (fst e) (snd e)) hs []) in
  command (wor rnd (ses user uri sinks stage q id feeds idx verbs c) inn log) verb u hs =
  (wor rnd (ses user uri sinks stage (qset q (c + 1) rq) id feeds idx verbs (c + 1)) inn (log ++ [Sent false rq]), Ok tt).
Proof. intros B. cbv zeta. unfold command, wor, ses. cbn [w_s s_conn negb call_auth s_auth set_cseq s_cseq]. rewrite i64_small by lia. reflexivity. Qed.

Definition brings (id : bytes) (r : response) : bytes := match header_get (p_header r) (bs "Session") with [] => id | v => id_of v end.
Lemma hd_split v : hd [] (split_on 59 v) = id_of v.
Proof.
  unfold id_of. destruct (cut 59 v) as [[a b]|] eqn:E.
  - destruct (cut_some _ _ _ _ E) as (E1 & E2). rewrite E1, split_on_app by exact E2. reflexivity.
  - rewrite split_on_none; [reflexivity|]. intros I. apply in_split in I as (a & b & ->). revert E. clear. induction a as [|x a IH]; cbn [app cut].
    + rewrite Z.eqb_refl. discriminate.
    + destruct (x =? 59); [discriminate|]. destruct (cut 59 (a ++ 59 :: b)) as [[? ?]|]; [discriminate|]. intros _. apply IH. reflexivity.
Qed.
Lemma learn_talk user uri sinks stage q id feeds idx verbs c r :
  learn_session (ses user uri sinks stage q id feeds idx verbs c) r = ses user uri sinks stage q (brings id r) feeds idx verbs c.
Proof.
  unfold learn_session, brings, ses. destruct (header_get (p_header r) (bs "Session")) as [|x v] eqn:E; [reflexivity|].
  change (beq (x :: v) []) with false. cbv iota. unfold set_session. cbn [s_conn s_proto s_user s_uri s_sinks s_stage s_auth s_queue s_session s_feeds s_feedidx s_verbs s_last s_cseq].
  rewrite hd_split. reflexivity.
Qed.

(* a response that is expected and not a 401 *)
Lemma handle_talk user uri rnd sinks stage q id feeds idx verbs c inn log r req : qget q (p_cseq r) = Some req -> p_code r <> 401 ->
  handle_response (wor rnd (ses user uri sinks stage q id feeds idx verbs c) inn log) r =
  react (wor rnd (ses user uri sinks stage (qdel q (p_cseq r)) (brings id r) feeds idx verbs c) inn (log ++ [Got r])) req r.
Proof.
  intros Q C. unfold handle_response, wor. cbv zeta. cbn [note w_s]. unfold ses at 1. cbn [s_queue]. rewrite Q. destruct (p_code r =? 401) eqn:E; [lia|].
  transitivity (react (mkW (learn_session (ses user uri sinks stage (qdel q (p_cseq r)) id feeds idx verbs c) r) inn [] [] rnd (log ++ [Got r])) req r); [reflexivity|].
  rewrite learn_talk. reflexivity.
Qed.

Lemma react_options user uri rnd sinks q id feeds idx verbs c inn log req r : q_verb req = bs "OPTIONS" -> 0 <= c < 2 ^ 63 - 1 ->
  let rq := mkReq (bs "DESCRIBE") (c + 1) uri [] id [(bs "Accept", bs "application/sdp")] in
  exists verbs', react (wor rnd (ses user uri sinks 0 q id feeds idx verbs c) inn log) req r =
  (wor rnd (ses user uri sinks 0 (qset q (c + 1) rq) id feeds idx verbs' (c + 1)) inn (log ++ [Sent false rq]), Ok tt).
Proof.
  intros V B rq. unfold react. rewrite V. change (beq (bs "OPTIONS") (bs "OPTIONS")) with true. cbv iota. change (s_stage (w_s (wor rnd (ses user uri sinks 0 q id feeds idx verbs c) inn log)) =? StageInit) with true. cbv iota.
  exists (verbs ++ split_commasp [] (header_get (p_header r) (bs "Public"))).
  exact (command_talk user uri rnd sinks 0 q id feeds idx (verbs ++ split_commasp [] (header_get (p_header r) (bs "Public"))) c inn log (bs "DESCRIBE") uri [(bs "Accept", bs "application/sdp")] B).
Qed.

(* ---- SETUP of all feeds ---- *)
Definition blank : store := mkStore (fun _ => None) (fun _ => None).
Fixpoint new_feeds (i : Z) (ms : list media) : list feed :=
  match ms with [] => [] | m :: r => mkFeed m (new_transport ProtoTCP (i * 2)) 0 false blank :: new_feeds (i + 1) r end.
Fixpoint asked_feeds (i : Z) (ms : list media) : list feed :=
  match ms with [] => [] | m :: r => mkFeed m (new_transport ProtoTCP (i * 2)) (3 + i) false blank :: asked_feeds (i + 1) r end.
Lemma make_feeds_new ms : forall i, make_feeds ProtoTCP i ms = new_feeds i ms.
Proof. induction ms as [|m ms IH]; intros i; cbn [make_feeds new_feeds]; [reflexivity|]. rewrite IH. reflexivity. Qed.
Lemma offer_text i : 0 <= i < 2 ^ 61 -> transport_string (new_transport ProtoTCP (i * 2)) = offer i.
Proof.
  intros H. unfold transport_string, offer, new_transport. change ((ProtoTCP =? ProtoTCP) || (ProtoTCP =? ProtoHTTP)) with true. cbv iota.
  cbn [t_tcp t_multicast t_interleaved t_append t_interleave t_port t_client_port t_server_port t_layers t_ttl t_destination t_source t_ssrc t_mode].
  change (p_one pair0 >? 0) with false. change (0 >? 0) with false. change (beq [] []) with true. change (beq (bs "PLAY") (bs "PLAY")) with true. change (beq (bs "PLAY") []) with false. cbn [negb andb].
  unfold pair_string. cbn [p_one p_two]. rewrite i64_small by lia. rewrite !app_nil_r, !app_assoc. rewrite (Z.mul_comm i 2). reflexivity.
Qed.
Lemma upd_app {A} (pre : list A) x y post : upd (pre ++ x :: post) (length pre) y = pre ++ y :: post.
Proof. induction pre as [|z pre IH]; cbn [length app upd]; [reflexivity|]. rewrite IH. reflexivity. Qed.
Lemma nth_error_at {A} (pre : list A) x post : nth_error (pre ++ x :: post) (length pre) = Some x.
Proof. induction pre as [|z pre IH]; cbn [length app nth_error]; auto. Qed.
Lemma prefix_first p s : has_prefix p s = beq (firstn (length p) s) p.
Proof.
  reflexivity.
Qed.

Lemma setup_run user uri rnd ms : forall pre sinks stage q id idx verbs i inn log, 0 <= i -> i + zlen ms < 2 ^ 61 ->
  exists q', setup_from (wor rnd (ses user uri sinks stage q id (pre ++ new_feeds i ms) idx verbs (2 + i)) inn log) (length pre) (new_feeds i ms) =
    (wor rnd (ses user uri sinks stage q' id (pre ++ asked_feeds i ms) idx verbs (2 + i + zlen ms)) inn (log ++ map (Sent false) (setups uri id i ms)), Ok tt) /\
    (forall k, 2 + i < k <= 2 + i + zlen ms -> exists req, qget q' k = Some req /\ q_verb req = bs "SETUP") /\
    (forall k, ~ (2 + i < k <= 2 + i + zlen ms) -> qget q' k = qget q k).
Proof.
  induction ms as [|m ms IH]; intros pre sinks stage q id idx verbs i inn log H B.
  { exists q. cbn [new_feeds asked_feeds setups map setup_from]. rewrite !app_nil_r. change (zlen (@nil media)) with 0. rewrite Z.add_0_r. splits; [reflexivity|intros k; lia|reflexivity]. }
  rewrite zlen_cons in *. pose proof (zlen_nonneg ms) as Pm. cbn [new_feeds asked_feeds setups map setup_from fd_media fd_transp]. rewrite offer_text by lia.
  assert (U : setup_uri (w_s (wor rnd (ses user uri sinks stage q id (pre ++ mkFeed m (new_transport ProtoTCP (i * 2)) 0 false blank :: new_feeds (i + 1) ms) idx verbs (2 + i)) inn log)) (m_control m) = Ok (target uri (m_control m))).
  { unfold setup_uri, target. rewrite prefix_first. change (length (bs "rtsp://")) with 7%nat. cbn [wor ses w_s s_conn s_uri]. destruct (beq _ _); reflexivity. }
  rewrite U, command_talk by lia. cbv beta iota zeta.
  set (rq := mkReq (bs "SETUP") (2 + i + 1) (target uri (m_control m)) [] id (fold_left (fun h e => header_set h (fst e) (snd e)) [(bs "Transport", offer i)] [])).
  set (f1 := mkFeed m (new_transport ProtoTCP (i * 2)) (3 + i) false blank).
  assert (M : upd_s (wor rnd (ses user uri sinks stage (qset q (2 + i + 1) rq) id (pre ++ mkFeed m (new_transport ProtoTCP (i * 2)) 0 false blank :: new_feeds (i + 1) ms) idx verbs (2 + i + 1)) inn (log ++ [Sent false rq])) (mark_feed (length pre)) =
              wor rnd (ses user uri sinks stage (qset q (2 + i + 1) rq) id ((pre ++ [f1]) ++ new_feeds (i + 1) ms) idx verbs (2 + (i + 1))) inn (log ++ [Sent false rq])).
  { unfold upd_s, mark_feed, wor, ses. cbn [w_s w_in w_writes w_listens w_rand w_log s_feeds]. rewrite nth_error_at. unfold set_feeds.
    cbn [s_conn s_proto s_user s_uri s_sinks s_stage s_auth s_queue s_session s_feeds s_feedidx s_verbs s_last s_cseq fd_media fd_transp fd_set fd_sets].
    rewrite upd_app, <- app_assoc. cbn [app]. replace (2 + i + 1) with (3 + i) by lia. replace (2 + (i + 1)) with (3 + i) by lia. reflexivity. }
  rewrite M. destruct (IH (pre ++ [f1]) sinks stage (qset q (2 + i + 1) rq) id idx verbs (i + 1) inn (log ++ [Sent false rq])) as (q' & E & Q1 & Q2); [lia|lia|].
  rewrite app_length in E. cbn [length] in E. rewrite Nat.add_1_r in E. rewrite E. exists q'. splits.
  - rewrite <- !app_assoc. cbn [app]. unfold rq, f1. replace (2 + (i + 1) + zlen ms) with (2 + i + (zlen ms + 1)) by lia. replace (2 + i + 1) with (3 + i) by lia. reflexivity.
  - intros k Hk. destruct (Z.eq_dec k (3 + i)) as [->|N]; [|apply Q1; lia]. rewrite Q2 by lia. rewrite qget_set. destruct (3 + i =? 2 + i + 1) eqn:X; [|lia]. exists rq. split; reflexivity.
  - intros k Hk. rewrite Q2 by lia. rewrite qget_set. destruct (k =? 2 + i + 1) eqn:X; [lia|reflexivity].
Qed.

Lemma react_describe user uri rnd sinks q id idx verbs inn log req r body ms : q_verb req = bs "DESCRIBE" -> p_body r = Some body -> sdp_parse body = Ok ms -> zlen ms < 2 ^ 61 ->
  exists q', react (wor rnd (ses user uri sinks 0 q id [] idx verbs 2) inn log) req r =
    (wor rnd (ses user uri sinks 0 q' id (asked_feeds 0 ms) idx verbs (2 + zlen ms)) inn (log ++ map (Sent false) (setups uri id 0 ms)), Ok tt) /\
    (forall k, 2 < k <= 2 + zlen ms -> exists req, qget q' k = Some req /\ q_verb req = bs "SETUP") /\
    (forall k, ~ (2 < k <= 2 + zlen ms) -> qget q' k = qget q k).
Proof.
  intros V B P L. unfold react. rewrite V. change (beq (bs "DESCRIBE") (bs "OPTIONS")) with false. change (beq (bs "DESCRIBE") (bs "DESCRIBE")) with true. cbv iota. rewrite B.
  unfold parse_feeds. rewrite P. cbn [bind]. change (s_proto (w_s (wor rnd (ses user uri sinks 0 q id [] idx verbs 2) inn log))) with ProtoTCP. rewrite make_feeds_new.
  destruct (setup_run user uri rnd ms [] sinks 0 q id idx verbs 0 inn log ltac:(lia) ltac:(lia)) as (q' & E & Q). exists q'. split; [exact E|exact Q].
Qed.

(* ---- the answers to SETUP, in any order ---- *)
Definition configured (f : feed) : Prop := fd_set f = true /\ parse_sprops blank (m_sprops (fd_media f)) = (fd_sets f, Ok tt).
Lemma transport_setup_ok f v : transport_text_ok v -> fd_sets f = blank -> sets_ok (fd_media f) ->
  exists f', transport_setup f v = (f', Ok tt) /\ fd_cseq f' = fd_cseq f /\ fd_media f' = fd_media f /\ configured f'.
Proof.
  intros T B S. unfold transport_setup. specialize (T (fd_transp f)). destruct (transport_parse (fd_transp f) v) as [t e]. cbn [snd] in T. subst e.
  unfold sets_ok in S. fold blank in S. rewrite B. destruct (parse_sprops blank (m_sprops (fd_media f))) as [st o] eqn:EP. cbn [snd] in S. subst o. eexists. splits; try reflexivity. split; [reflexivity|exact EP].
Qed.

Lemma setup_feeds_one user uri rnd sinks stage q id pre f post f' idx verbs c inn log k v :
  fd_cseq f = k -> Forall (fun g => fd_cseq g <> k) (pre ++ post) -> transport_setup f v = (f', Ok tt) ->
  exists sinks' new, setup_feeds (wor rnd (ses user uri sinks stage q id (pre ++ f :: post) idx verbs c) inn log) k v 0 (pre ++ f :: post) =
    (wor rnd (ses user uri sinks' stage q id (pre ++ f' :: post) (i64 (idx + 1)) verbs c) inn (log ++ new), Ok tt) /\
    sent_requests new = [] /\ stages new = [] /\ packets new = [].
Proof.
  intros C FA T. apply Forall_app in FA as [FA1 FA2]. rewrite setup_feeds_skip_app by exact FA1. cbn [setup_feeds Nat.add]. rewrite C, Z.eqb_refl. cbv zeta. rewrite T.
  assert (M : upd_s (upd_s (wor rnd (ses user uri sinks stage q id (pre ++ f :: post) idx verbs c) inn log) (fun s => set_feedidx s (i64 (s_feedidx s + 1)))) (put_feed (length pre) f') =
    wor rnd (ses user uri sinks stage q id (pre ++ f' :: post) (i64 (idx + 1)) verbs c) inn log).
  { unfold upd_s, put_feed, wor, ses, set_feedidx, set_feeds. cbn [w_s w_in w_writes w_listens w_rand w_log s_conn s_proto s_user s_uri s_sinks s_stage s_auth s_queue s_session s_feeds s_feedidx s_verbs s_last s_cseq].
    rewrite upd_app. reflexivity. }
  rewrite M. destruct (t_tcp (fd_transp f')).
  - rewrite setup_feeds_skip by exact FA2. exists sinks, []. rewrite app_nil_r. splits; reflexivity.
  - unfold add_sink, note, wor, set_sinks, ses. cbn [w_s w_in w_writes w_listens w_rand w_log tl s_conn s_proto s_user s_uri s_sinks s_stage s_auth s_queue s_session s_feeds s_feedidx s_verbs s_last s_cseq].
    rewrite setup_feeds_skip by exact FA2. eexists. eexists [_; _]. rewrite <- !app_assoc. cbn [app]. splits; reflexivity.
Qed.

Lemma NoDup_app_cons_r (x : Z) l m : NoDup (x :: l ++ m) -> NoDup (l ++ x :: m).
Proof. apply Permutation_NoDup, Permutation_middle. Qed.

(* feeds waiting for the answers not in done *)
Definition waiting (fs : list feed) (cs done : list Z) : Prop :=
  map fd_cseq fs = cs /\ NoDup cs /\ (forall f, In f fs -> ~ In (fd_cseq f) done -> fd_sets f = blank /\ sets_ok (fd_media f)) /\
  forall f, In f fs -> In (fd_cseq f) done -> configured f.
Definition asking (q : list (Z * request)) (cs done : list Z) : Prop :=
  forall k, (In k cs -> ~ In k done -> exists req, qget q k = Some req /\ q_verb req = bs "SETUP") /\ (~ In k cs \/ In k done -> qget q k = None).

Lemma asked_cseqs ms : forall i, map fd_cseq (asked_feeds i ms) = from_z (2 + i) (length ms).
Proof. induction ms as [|m ms IH]; intros i; cbn [asked_feeds map length from_z fd_cseq]; [reflexivity|]. rewrite IH. f_equal; [lia|]. f_equal. lia. Qed.
Lemma asked_media ms : forall i f, In f (asked_feeds i ms) -> fd_sets f = blank /\ In (fd_media f) ms.
Proof. induction ms as [|m ms IH]; intros i f I; cbn [asked_feeds] in I; [destruct I|]. destruct I as [<-|I]; [split; [reflexivity|left; reflexivity]|]. destruct (IH _ _ I). split; [assumption|right; assumption]. Qed.
Lemma asked_medias ms : forall i, map fd_media (asked_feeds i ms) = ms.
Proof. induction ms as [|m ms IH]; intros i; cbn [asked_feeds map fd_media]; [reflexivity|]. rewrite IH. reflexivity. Qed.
Lemma asked_length ms : forall i, length (asked_feeds i ms) = length ms.
Proof. induction ms as [|m ms IH]; intros i; cbn [asked_feeds length]; [reflexivity|]. rewrite IH. reflexivity. Qed.

Lemma setup_granted user uri rnd sinks q id fs verbs c inn log r v cs done : 
  waiting fs cs done -> asking q cs done -> In (p_cseq r) cs -> ~ In (p_cseq r) done -> p_code r = 200 ->
  header_get (p_header r) (bs "Transport") = v -> transport_text_ok v -> zlen done < 2 ^ 62 ->
  exists sinks' q' fs' new, handle_response (wor rnd (ses user uri sinks 0 q id fs (zlen done) verbs c) inn log) r =
    (wor rnd (ses user uri sinks' (if zlen done + 1 >=? zlen cs then 1 else 0) q' (brings id r) fs' (zlen (p_cseq r :: done)) verbs c) inn (log ++ new), Ok tt) /\
    waiting fs' cs (p_cseq r :: done) /\ map fd_media fs' = map fd_media fs /\ asking q' cs (p_cseq r :: done) /\
    sent_requests new = [] /\ stages new = (if zlen done + 1 >=? zlen cs then [1] else []) /\ packets new = [].
Proof.
  intros (W1 & W2 & W3 & W4) Q Ik Nk C V T B. pose proof (zlen_nonneg done) as Pd.
  destruct (Q (p_cseq r)) as [Q1 _]. destruct (Q1 Ik Nk) as (req & Qr & Vr). clear Q1.
  rewrite (handle_talk user uri rnd sinks 0 q id fs (zlen done) verbs c inn log r req Qr) by lia.
  rewrite <- W1 in Ik. apply in_map_iff in Ik as (f & Cf & If). apply in_split in If as (pre & post & ->).
  assert (ND : Forall (fun g => fd_cseq g <> p_cseq r) (pre ++ post)).
  { apply Forall_forall. intros g Ig Eg. rewrite <- W1, map_app in W2. cbn [map] in W2. apply NoDup_remove_2 in W2. apply W2. rewrite <- map_app, Cf, <- Eg. apply in_map. exact Ig. }
  destruct (W3 f ltac:(apply in_or_app; right; left; reflexivity) ltac:(rewrite Cf; exact Nk)) as (Sb & So).
  destruct (transport_setup_ok f v T Sb So) as (f' & TS & Cf' & Mf' & Kf').
  unfold react. rewrite Vr. change (beq (bs "SETUP") (bs "OPTIONS")) with false. change (beq (bs "SETUP") (bs "DESCRIBE")) with false. change (beq (bs "SETUP") (bs "PAUSE")) with false.
  change (beq (bs "SETUP") (bs "PLAY")) with false. change (beq (bs "SETUP") (bs "TEARDOWN")) with false. change (beq (bs "SETUP") (bs "SETUP")) with true. cbv iota.
  unfold handle_setup. rewrite C. change (200 =? 200) with true. cbv iota zeta. rewrite V.
  change (s_feeds (w_s (wor rnd (ses user uri sinks 0 (qdel q (p_cseq r)) (brings id r) (pre ++ f :: post) (zlen done) verbs c) inn (log ++ [Got r])))) with (pre ++ f :: post).
  destruct (setup_feeds_one user uri rnd sinks 0 (qdel q (p_cseq r)) (brings id r) pre f post f' (zlen done) verbs c inn (log ++ [Got r]) (p_cseq r) v Cf ND TS) as (sinks' & new & E & A1 & A2 & A3).
  rewrite E. clear E.
  assert (L : zlen (pre ++ f' :: post) = zlen cs).
  { rewrite <- W1. unfold zlen. rewrite map_length, !app_length. reflexivity. }
  assert (W' : waiting (pre ++ f' :: post) cs (p_cseq r :: done)).
  { unfold waiting. splits; [|exact W2| |].
    - rewrite <- W1, !map_app. cbn [map]. rewrite Cf'. reflexivity.
    - intros g Ig Ng. apply W3; [|intros X; apply Ng; right; exact X]. apply in_app_or in Ig as [Ig|[<-|Ig]].
      + apply in_or_app. left. exact Ig.
      + exfalso. apply Ng. left. congruence.
      + apply in_or_app. right. right. exact Ig.
    - intros g Ig Dg. apply in_app_or in Ig as [Ig|[<-|Ig]]; [|exact Kf'|].
      + apply W4; [apply in_or_app; left; exact Ig|]. destruct Dg as [Dg|Dg]; [|exact Dg]. exfalso. rewrite Forall_forall in ND. apply (ND g); [apply in_or_app; left; exact Ig|congruence].
      + apply W4; [apply in_or_app; right; right; exact Ig|]. destruct Dg as [Dg|Dg]; [|exact Dg]. exfalso. rewrite Forall_forall in ND. apply (ND g); [apply in_or_app; right; exact Ig|congruence]. }
  assert (MM : map fd_media (pre ++ f' :: post) = map fd_media (pre ++ f :: post)) by (rewrite !map_app; cbn [map]; rewrite Mf'; reflexivity).
  assert (Q' : asking (qdel q (p_cseq r)) cs (p_cseq r :: done)).
  { intros k. rewrite qget_del. destruct (Q k) as [Qa Qb]. split.
    - intros Ik Nd. destruct (k =? p_cseq r) eqn:X; [exfalso; apply Nd; left; lia|]. apply Qa; [exact Ik|]. intros Y. apply Nd. right. exact Y.
    - intros [N|[Y|N]]; destruct (k =? p_cseq r) eqn:X; try reflexivity; [apply Qb; auto|lia|apply Qb; auto]. }
  cbn [wor ses w_s s_feedidx s_feeds]. rewrite L, i64_small, zlen_cons by lia.
  destruct (zlen done + 1 >=? zlen cs).
  - exists sinks', (qdel q (p_cseq r)), (pre ++ f' :: post), ([Got r] ++ new ++ [Notified 1; Started]). splits; [|exact W'|exact MM|exact Q'|..].
    + unfold notify, note, upd_s, wor, ses, set_stage. cbn [w_s w_in w_writes w_listens w_rand w_log s_conn s_proto s_user s_uri s_sinks s_stage s_auth s_queue s_session s_feeds s_feedidx s_verbs s_last s_cseq]. rewrite <- !app_assoc. reflexivity.
    + rewrite !sent_requests_app, A1. reflexivity.
    + rewrite !stages_app, A2. reflexivity.
    + rewrite !packets_app, A3. reflexivity.
  - exists sinks', (qdel q (p_cseq r)), (pre ++ f' :: post), ([Got r] ++ new). splits; [|exact W'|exact MM|exact Q'|..].
    + rewrite <- !app_assoc. reflexivity.
    + rewrite !sent_requests_app, A1. reflexivity.
    + rewrite !stages_app, A2. reflexivity.
    + rewrite !packets_app, A3. reflexivity.
Qed.

Lemma next_brings id r i : tells r i -> brings id r = next_id id i.
Proof.
  intros T. destruct i as [ch p|code reason fs body|]; [destruct T| |destruct T]. destruct T as (_ & _ & H & _). unfold brings, next_id, field_of_item. rewrite H; [reflexivity|].
  vm_compute. repeat constructor; congruence.
Qed.
Lemma tells_grants r i n : tells r i -> grants n i -> 0 <= n < 2 ^ 63 -> p_code r = 200 /\ p_cseq r = n.
Proof. intros T G B. destruct i as [ch p|code reason fs body|]; [destruct T| |destruct T]. destruct T as (H1 & _ & _ & H2). destruct G as [-> G]. split; [assumption|]. apply H2; assumption. Qed.
Lemma tells_field r i k : tells r i -> token k -> header_get (p_header r) k = field_of_item i k.
Proof. intros T K. destruct i as [ch p|code reason fs body|]; [destruct T| |destruct T]. destruct T as (_ & _ & H & _). apply H. exact K. Qed.
Lemma tells_body r i : tells r i -> body_of_item i <> [] -> p_body r = Some (body_of_item i).
Proof. intros T N. destruct i as [ch p|code reason fs body|]; [destruct T| |destruct T]. destruct T as (_ & H & _). cbn [body_of_item] in *. rewrite H. destruct body; [contradiction|reflexivity]. Qed.

Lemma setups_run user uri rnd verbs c cs rest : forall rsets ns items clocks sinks q id fs done log,
  with_noise rsets items -> Forall item_ok items -> length clocks = length items -> Forall2 grants ns rsets -> Forall names_transport rsets ->
  NoDup (ns ++ done) -> incl ns cs -> incl done cs -> Forall (fun n => 0 <= n < 2 ^ 63) cs -> zlen done + zlen ns = zlen cs -> zlen cs < 2 ^ 62 -> waiting fs cs done -> asking q cs done ->
  exists sinks' q' fs' new, run (wor rnd (ses user uri sinks (if zlen done >=? zlen cs then 1 else 0) q id fs (zlen done) verbs c) (flat_map item_stream items ++ rest) log, Live) (turns_at clocks) =
    (wor rnd (ses user uri sinks' 1 q' (fold_left next_id rsets id) fs' (zlen cs) verbs c) rest (log ++ new), Live) /\
    Forall configured fs' /\ map fd_media fs' = map fd_media fs /\
    (forall k, qget q' k = None) /\ sent_requests new = [] /\ stages new = (if zlen done >=? zlen cs then [] else [1]) /\ packets new = frames items.
Proof.
  induction rsets as [|i rsets IH]; intros ns items clocks sinks q id fs done log W K L G T ND I Id BN SZ B Wa As.
  - inversion G; subst. change (zlen (@nil Z)) with 0 in SZ. rewrite Z.add_0_r in SZ.
    destruct (noise_run items (wor rnd (ses user uri sinks (if zlen done >=? zlen cs then 1 else 0) q id fs (zlen done) verbs c) (flat_map item_stream items ++ rest) log) clocks rest eq_refl eq_refl (noise_end _ W) K L eq_refl) as (new & R & A1 & A2 & A3).
    rewrite R. destruct (zlen done >=? zlen cs) eqn:X; [|lia]. rewrite SZ. exists sinks, q, fs, new.
    assert (All : incl cs done) by (apply NoDup_length_incl; [exact ND|unfold zlen in SZ; lia|exact Id]).
    splits; try assumption; try reflexivity.
    { destruct Wa as (Wa1 & _ & _ & Wa4). apply Forall_forall. intros f If. apply Wa4; [exact If|]. apply All. rewrite <- Wa1. apply in_map. exact If. }
    intros k. destruct (As k) as [_ Q]. apply Q. destruct (in_dec Z.eq_dec k cs) as [Ik|Nk]; [right; apply All; exact Ik|left; exact Nk].
  - inversion G as [|n i' ns' r' Gi G' ]; subst. apply Forall_cons_iff in T as [Ti T]. rewrite zlen_cons in SZ. pose proof (zlen_nonneg ns') as Pn.
    destruct (noise_next _ _ _ W) as (pre & post & -> & Np & Wp). destruct (split_clocks pre i post clocks L) as (c1 & cc & c2 & -> & L1 & L2).
    assert (In1 : In n cs) by (apply I; left; reflexivity). assert (Bn : 0 <= n < 2 ^ 63) by (rewrite Forall_forall in BN; apply BN; exact In1).
    apply Forall_app in K as [K1 K2]. apply Forall_cons_iff in K2 as [Ki K2].
    destruct (zlen done >=? zlen cs) eqn:X; [lia|].
    rewrite turns_at_app, run_app, flat_map_app. cbn [flat_map]. rewrite <- !(app_assoc (A := option Z)).
    destruct (answered pre i (wor rnd (ses user uri sinks 0 q id fs (zlen done) verbs c) (flat_map item_stream pre ++ item_stream i ++ flat_map item_stream post ++ rest) log) c1 cc (flat_map item_stream post ++ rest) n eq_refl eq_refl Np) as (new1 & r & Tr & A1 & A2 & A3 & H);
      [apply Forall_app; split; [exact K1|constructor; [exact Ki|constructor]]|exact Gi|exact L1|reflexivity|].
    destruct (tells_grants _ _ _ Tr Gi Bn) as (Cr & Qr).
    cbn [wor w_s w_writes w_listens w_rand w_log] in H. fold (wor rnd (ses user uri sinks 0 q id fs (zlen done) verbs c) (flat_map item_stream post ++ rest) (log ++ new1)) in H.
    assert (Nd : ~ In (p_cseq r) done). { rewrite Qr. cbn [app] in ND. inversion ND; subst. intros Y. apply H2. apply in_or_app. right. exact Y. }
    destruct (setup_granted user uri rnd sinks q id fs verbs c (flat_map item_stream post ++ rest) (log ++ new1) r (field_of_item i (bs "Transport")) cs done) as (s1 & q1 & f1 & new2 & E & Wa1 & Mm1 & As1 & B1 & B2 & B3); try assumption;
      [rewrite Qr; exact In1|apply tells_field; [exact Tr|vm_compute; repeat constructor; congruence]|lia|].
    rewrite (H _ E), Qr, (next_brings _ _ _ Tr). clear H E. rewrite Qr in *.
    replace (if zlen done + 1 >=? zlen cs then 1 else 0) with (if zlen (n :: done) >=? zlen cs then 1 else 0) by (rewrite zlen_cons; reflexivity).
    destruct (IH ns' post c2 s1 q1 (next_id id i) f1 (n :: done) ((log ++ new1) ++ new2)) as (s2 & q2 & f2 & new3 & E & Cf2 & Mm2 & Q2 & C1 & C2 & C3); try assumption.
    + cbn [app] in ND. apply NoDup_app_cons_r. exact ND.
    + intros x Hx. apply I. right. exact Hx.
    + intros x [<-|Hx]; [exact In1|apply Id; exact Hx].
    + rewrite zlen_cons. lia.
    + exists s2, q2, f2, (new1 ++ new2 ++ new3). splits.
      * rewrite E, <- !app_assoc. cbn [fold_left]. reflexivity.
      * exact Cf2.
      * congruence.
      * exact Q2.
      * rewrite !sent_requests_app, A1, B1, C1. reflexivity.
      * rewrite !stages_app, A2, B2, C2, zlen_cons. destruct (zlen done + 1 >=? zlen cs); reflexivity.
      * rewrite !packets_app, A3, B3, C3, frames_app. cbn [frames flat_map app]. destruct i; [destruct Gi| |destruct Gi]. reflexivity.
Qed.

(* ---- PLAY, PAUSE, TEARDOWN ---- *)
Lemma react_order user uri rnd sinks stage q id fs idx verbs c inn log req r o : q_verb req = order_verb o -> p_code r = 200 ->
  react (wor rnd (ses user uri sinks stage q id fs idx verbs c) inn log) req r =
  (wor rnd (ses user uri sinks (order_stage o) q id fs idx verbs c) inn (log ++ [Notified (order_stage o)]), Ok tt).
Proof. intros V C. unfold react. rewrite V, C. destruct o; reflexivity. Qed.

Definition order_request (o : order) (n : Z) (uri id : bytes) : request := mkReq (order_verb o) n uri [] id [].
Lemma order_sent user uri rnd sinks stage q id fs idx verbs c inn log o : 0 <= c < 2 ^ 63 - 1 ->
  run (wor rnd (ses user uri sinks stage q id fs idx verbs c) inn log, Live) [App (order_cmd o)] =
  (wor rnd (ses user uri sinks stage (qset q (c + 1) (order_request o (c + 1) uri id)) id fs idx verbs (c + 1)) inn (log ++ [Sent false (order_request o (c + 1) uri id)]), Live).
Proof.
  intros B. cbn [run fold_left step]. replace (do_cmd (wor rnd (ses user uri sinks stage q id fs idx verbs c) inn log) (order_cmd o))
    with (command (wor rnd (ses user uri sinks stage q id fs idx verbs c) inn log) (order_verb o) uri []) by (destruct o; reflexivity).
  rewrite command_talk by lia. reflexivity.
Qed.
Lemma order_answered user uri rnd sinks stage q id fs idx verbs c rest log o i items clocks : (forall k, qget q k = None) -> 0 <= c < 2 ^ 63 - 1 ->
  grants (c + 1) i -> with_noise [i] items -> Forall item_ok items -> length clocks = length items ->
  exists q' new, run (wor rnd (ses user uri sinks stage (qset q (c + 1) (order_request o (c + 1) uri id)) id fs idx verbs (c + 1)) (flat_map item_stream items ++ rest) log, Live) (turns_at clocks) =
    (wor rnd (ses user uri sinks (order_stage o) q' (next_id id i) fs idx verbs (c + 1)) rest (log ++ new), Live) /\
    (forall k, qget q' k = None) /\ sent_requests new = [] /\ stages new = [order_stage o] /\ packets new = frames items.
Proof.
  intros Q B G W K L. set (rq := order_request o (c + 1) uri id).
  destruct (noise_next _ _ _ W) as (pre & post & -> & Np & Wp). destruct (split_clocks pre i post clocks L) as (c1 & cc & c2 & -> & L1 & L2).
  apply Forall_app in K as [K1 K2]. apply Forall_cons_iff in K2 as [Ki K2].
  rewrite turns_at_app, run_app, flat_map_app. cbn [flat_map]. rewrite <- !(app_assoc (A := option Z)).
  destruct (answered pre i (wor rnd (ses user uri sinks stage (qset q (c + 1) rq) id fs idx verbs (c + 1)) (flat_map item_stream pre ++ item_stream i ++ flat_map item_stream post ++ rest) log) c1 cc (flat_map item_stream post ++ rest) (c + 1) eq_refl eq_refl Np) as (new1 & r & Tr & A1 & A2 & A3 & H);
      [apply Forall_app; split; [exact K1|constructor; [exact Ki|constructor]]|exact G|exact L1|reflexivity|].
  destruct (tells_grants _ _ _ Tr G ltac:(lia)) as (Cr & Qr).
  cbn [wor w_s w_writes w_listens w_rand w_log] in H. fold (wor rnd (ses user uri sinks stage (qset q (c + 1) rq) id fs idx verbs (c + 1)) (flat_map item_stream post ++ rest) (log ++ new1)) in H.
  pose proof (handle_talk user uri rnd sinks stage (qset q (c + 1) rq) id fs idx verbs (c + 1) (flat_map item_stream post ++ rest) (log ++ new1) r rq) as E.
  rewrite Qr, qget_set, Z.eqb_refl in E. specialize (E eq_refl ltac:(lia)). rewrite (react_order _ _ _ _ _ _ _ _ _ _ _ _ _ rq r o eq_refl Cr), (next_brings _ _ _ Tr) in E.
  rewrite (H _ E). clear H E.
  edestruct (noise_run post (wor rnd (ses user uri sinks (order_stage o) (qdel (qset q (c + 1) rq) (c + 1)) (next_id id i) fs idx verbs (c + 1)) (flat_map item_stream post ++ rest) (((log ++ new1) ++ [Got r]) ++ [Notified (order_stage o)])) c2 rest eq_refl eq_refl (noise_end _ Wp) K2 L2 eq_refl) as (new2 & R & B1 & B2 & B3).
  rewrite R. exists (qdel (qset q (c + 1) rq) (c + 1)), (new1 ++ [Got r] ++ [Notified (order_stage o)] ++ new2). splits.
  - cbn [wor w_s w_writes w_listens w_rand w_log]. rewrite <- !app_assoc. reflexivity.
  - intros k. rewrite qget_del, qget_set. destruct (k =? c + 1); [reflexivity|apply Q].
  - rewrite !sent_requests_app, A1, B1. reflexivity.
  - rewrite !stages_app, A2, B2. reflexivity.
  - rewrite !packets_app, A3, B3, frames_app. cbn [frames flat_map packets app]. destruct i; [destruct G| |destruct G]. reflexivity.
Qed.
Lemma order_run user uri rnd sinks stage q id fs idx verbs c rest log r : (forall k, qget q k = None) -> 0 <= c < 2 ^ 63 - 1 ->
  grants (c + 1) (r_answer r) -> with_noise [r_answer r] (r_items r) -> Forall item_ok (r_items r) -> length (r_clocks r) = length (r_items r) ->
  exists q' new, run (wor rnd (ses user uri sinks stage q id fs idx verbs c) (flat_map item_stream (r_items r) ++ rest) log, Live) (round_events r) =
    (wor rnd (ses user uri sinks (order_stage (r_order r)) q' (next_id id (r_answer r)) fs idx verbs (c + 1)) rest (log ++ new), Live) /\
    (forall k, qget q' k = None) /\ sent_requests new = [mkReq (order_verb (r_order r)) (c + 1) uri [] id []] /\
    stages new = [order_stage (r_order r)] /\ packets new = frames (r_items r).
Proof.
  intros Q B G W K L. unfold round_events. change (App (order_cmd (r_order r)) :: turns_at (r_clocks r)) with ([App (order_cmd (r_order r))] ++ turns_at (r_clocks r)).
  rewrite run_app, order_sent by exact B.
  destruct (order_answered user uri rnd sinks stage q id fs idx verbs c rest (log ++ [Sent false (order_request (r_order r) (c + 1) uri id)]) (r_order r) (r_answer r) (r_items r) (r_clocks r) Q B G W K L) as (q' & new & E & Q' & A1 & A2 & A3).
  rewrite E. exists q', ([Sent false (order_request (r_order r) (c + 1) uri id)] ++ new). splits; try assumption.
  - rewrite <- app_assoc. reflexivity.
  - rewrite sent_requests_app, A1. reflexivity.
Qed.

Lemma rounds_run user uri rnd sinks fs idx verbs rest rs : forall stage q id c log, (forall k, qget q k = None) -> 0 <= c -> c + zlen rs < 2 ^ 63 -> rounds_ok (c + 1) rs ->
  exists w' new, run (wor rnd (ses user uri sinks stage q id fs idx verbs c) (flat_map (fun r => flat_map item_stream (r_items r)) rs ++ rest) log, Live) (flat_map round_events rs) = (w', Live) /\
    w_in w' = rest /\ s_feeds (w_s w') = fs /\ w_log w' = log ++ new /\ sent_requests new = round_requests uri id (c + 1) rs /\
    stages new = map (fun r => order_stage (r_order r)) rs /\ packets new = flat_map (fun r => frames (r_items r)) rs.
Proof.
  induction rs as [|r rs IH]; intros stage q id c log Q P B K.
  { eexists. exists []. cbn [flat_map run fold_left]. splits; try reflexivity. cbn [wor w_log]. rewrite app_nil_r. reflexivity. }
  rewrite zlen_cons in B. pose proof (zlen_nonneg rs) as Pr. cbn [rounds_ok] in K. destruct K as (K1 & K2 & K3 & K4 & K5). cbn [flat_map]. rewrite run_app, <- app_assoc.
  destruct (order_run user uri rnd sinks stage q id fs idx verbs c (flat_map (fun r => flat_map item_stream (r_items r)) rs ++ rest) log r Q ltac:(lia) K1 K2 K3 K4) as (q' & new1 & E & Q' & A1 & A2 & A3).
  rewrite E. destruct (IH (order_stage (r_order r)) q' (next_id id (r_answer r)) (c + 1) (log ++ new1) Q' ltac:(lia) ltac:(lia) K5) as (w' & new2 & R & I & Fd & Lg & B1 & B2 & B3).
  exists w', (new1 ++ new2). splits; try assumption.
  - rewrite Lg, app_assoc. reflexivity.
  - rewrite sent_requests_app, A1, B1. reflexivity.
  - rewrite stages_app, A2, B2. reflexivity.
  - rewrite packets_app, A3, B3. reflexivity.
Qed.

(* ---- the opening ---- *)
Lemma feeds_few l : forall s s', sdp_lines s l = Ok s' -> (length (all_feeds s') <= length (all_feeds s) + length l)%nat.
Proof.
  induction l as [|x l IH]; intros s s' E; cbn [sdp_lines] in E; [inversion E; subst; cbn [length]; lia|].
  destruct (sdp_line s x) as [s1|e| |] eqn:E1; cbn [bind] in E; try discriminate. apply IH in E. cbn [length].
  enough (length (all_feeds s1) <= length (all_feeds s) + 1)%nat by lia. clear - E1. unfold sdp_line in E1.
  destruct (split2 61 (trim_space x)) as [|key [|val [|]]]; try (inversion E1; subst; lia).
  destruct (beq key (bs "m")).
  - destruct (beq _ (bs "video")); [|inversion E1; subst; cbn [all_feeds]; lia].
    destruct (split2 32 val) as [|? [|? [|]]]; try discriminate. inversion E1; subst. cbn [all_feeds]. rewrite app_length. cbn [length]. lia.
  - destruct (beq key (bs "a")); [|inversion E1; subst; lia]. destruct s as [d [m|]]; inversion E1; subst; cbn [all_feeds]; rewrite ?app_length; cbn [length]; lia.
Qed.
Lemma split_on_count c s : (length (split_on c s) <= length s + 1)%nat.
Proof.
  induction s as [|x s IH]; cbn [split_on length]; [lia|]. destruct (split_on_nonempty c s) as (p & ps & E). rewrite E in *. cbn [length] in IH. destruct (x =? c); cbn [length]; lia.
Qed.
Lemma parse_few body ms : sdp_parse body = Ok ms -> zlen ms <= zlen body + 1.
Proof.
  unfold sdp_parse. destruct (sdp_lines ([], None) (split_on 10 body)) as [s|e| |] eqn:E; cbn [bind]; try discriminate. intros X. inversion X; subst.
  apply feeds_few in E. cbn [all_feeds length] in E. pose proof (split_on_count 10 body). unfold zlen. lia.
Qed.

(* the answer to OPTIONS *)
Definition options_request (uri : bytes) : request := mkReq (bs "OPTIONS") 1 uri [] [] [].
Definition describe_request (uri id : bytes) : request := mkReq (bs "DESCRIBE") 2 uri [] id [(bs "Accept", bs "application/sdp")].
Lemma options_phase user uri rnd ropt pre clocks c rest log : grants 1 ropt -> Forall noise pre -> Forall item_ok (pre ++ [ropt]) -> length clocks = length pre ->
  exists verbs new, run (wor rnd (ses user uri [] 0 (qset [] 1 (options_request uri)) [] [] 0 [] 1) (flat_map item_stream pre ++ item_stream ropt ++ rest) log, Live) (turns_at (clocks ++ [c])) =
    (wor rnd (ses user uri [] 0 (qset (qdel (qset [] 1 (options_request uri)) 1) 2 (describe_request uri (next_id [] ropt))) (next_id [] ropt) [] 0 verbs 2) rest (log ++ new), Live) /\
    sent_requests new = [describe_request uri (next_id [] ropt)] /\ stages new = [] /\ packets new = frames pre.
Proof.
  intros O1 Np1 K L1. set (rq1 := options_request uri).
  destruct (answered pre ropt (wor rnd (ses user uri [] 0 (qset [] 1 rq1) [] [] 0 [] 1) (flat_map item_stream pre ++ item_stream ropt ++ rest) log) clocks c rest 1 eq_refl eq_refl Np1 K O1 L1 eq_refl) as (new1 & r1 & T1 & A1 & A2 & A3 & H).
  destruct (tells_grants _ _ _ T1 O1 ltac:(lia)) as (C1 & Q1).
  cbn [wor w_s w_writes w_listens w_rand w_log] in H. fold (wor rnd (ses user uri [] 0 (qset [] 1 rq1) [] [] 0 [] 1) rest (log ++ new1)) in H.
  pose proof (handle_talk user uri rnd [] 0 (qset [] 1 rq1) [] [] 0 [] 1 rest (log ++ new1) r1 rq1) as E.
  rewrite Q1 in E. specialize (E eq_refl ltac:(lia)). rewrite (next_brings _ _ _ T1) in E.
  destruct (react_options user uri rnd [] (qdel (qset [] 1 rq1) 1) (next_id [] ropt) [] 0 [] 1 rest ((log ++ new1) ++ [Got r1]) rq1 r1 eq_refl ltac:(lia)) as (verbs & E').
  rewrite E' in E. rewrite (H _ E). clear H E E'. change (1 + 1) with 2. exists verbs, (new1 ++ [Got r1] ++ [Sent false (describe_request uri (next_id [] ropt))]). splits.
  - rewrite <- !app_assoc. reflexivity.
  - rewrite !sent_requests_app, A1. reflexivity.
  - rewrite !stages_app, A2. reflexivity.
  - rewrite !packets_app, A3. cbn [packets flat_map app]. rewrite app_nil_r. reflexivity.
Qed.

(* the answer to DESCRIBE *)
Lemma sent_all l : sent_requests (map (Sent false) l) = l /\ stages (map (Sent false) l) = [] /\ packets (map (Sent false) l) = [].
Proof.
  induction l as [|x l (X1 & X2 & X3)]; cbn [map sent_requests stages packets flat_map app]; [splits; reflexivity|].
  fold (sent_requests (map (Sent false) l)) (stages (map (Sent false) l)) (packets (map (Sent false) l)). rewrite X1, X2, X3. splits; reflexivity.
Qed.
Lemma described_from user uri rnd ms rdesc rsets items clocks rest q2 id verbs log2 : grants 2 rdesc -> body_of_item rdesc <> [] -> sdp_parse (body_of_item rdesc) = Ok ms ->
  qget q2 2 = Some (describe_request uri id) -> (forall k, k <> 2 -> qget q2 k = None) ->
  with_noise (rdesc :: rsets) items -> Forall item_ok items -> length clocks = length items ->
  exists q3 new pre2 post2 d2, run (wor rnd (ses user uri [] 0 q2 id [] 0 verbs 2) (flat_map item_stream items ++ rest) log2, Live) (turns_at clocks) =
    run (wor rnd (ses user uri [] 0 q3 (next_id id rdesc) (asked_feeds 0 ms) 0 verbs (2 + zlen ms)) (flat_map item_stream post2 ++ rest) (log2 ++ new), Live) (turns_at d2) /\
    items = pre2 ++ post2 /\ with_noise rsets post2 /\ Forall item_ok post2 /\ length d2 = length post2 /\ zlen ms <= 2049 /\
    (forall k, 2 < k <= 2 + zlen ms -> exists req, qget q3 k = Some req /\ q_verb req = bs "SETUP") /\
    (forall k, ~ (2 < k <= 2 + zlen ms) -> qget q3 k = None) /\
    sent_requests new = setups uri (next_id id rdesc) 0 ms /\ stages new = [] /\ packets new = frames pre2.
Proof.
  intros O2 O3 O4 G2 N2 W1 K M1.
  destruct (noise_next _ _ _ W1) as (pre2 & post2 & -> & Np2 & W2). destruct (split_clocks pre2 rdesc post2 clocks M1) as (c2 & cc2 & d2 & -> & L2 & M2).
  apply Forall_app in K as [K2 K]. apply Forall_cons_iff in K as [Kd K].
  assert (BF : zlen ms <= 2049).
  { pose proof (parse_few _ _ O4) as X. destruct rdesc as [ch p|code reason f body|]; [destruct O2| |destruct O2]. cbn [item_ok body_of_item] in *. destruct Kd as (_ & _ & _ & _ & Y). lia. }
  rewrite turns_at_app, run_app, flat_map_app. cbn [flat_map]. rewrite <- !(app_assoc (A := option Z)).
  set (rq2 := describe_request uri id) in *.
  destruct (answered pre2 rdesc (wor rnd (ses user uri [] 0 q2 id [] 0 verbs 2) (flat_map item_stream pre2 ++ item_stream rdesc ++ flat_map item_stream post2 ++ rest) log2) c2 cc2 (flat_map item_stream post2 ++ rest) 2 eq_refl eq_refl Np2) as (new2 & r2 & T2 & A1 & A2 & A3 & H);
    [apply Forall_app; split; [exact K2|constructor; [exact Kd|constructor]]|exact O2|exact L2|reflexivity|].
  destruct (tells_grants _ _ _ T2 O2 ltac:(lia)) as (C2 & Q2).
  cbn [wor w_s w_writes w_listens w_rand w_log] in H. fold (wor rnd (ses user uri [] 0 q2 id [] 0 verbs 2) (flat_map item_stream post2 ++ rest) (log2 ++ new2)) in H.
  pose proof (handle_talk user uri rnd [] 0 q2 id [] 0 verbs 2 (flat_map item_stream post2 ++ rest) (log2 ++ new2) r2 rq2) as E.
  rewrite Q2 in E. specialize (E G2 ltac:(lia)). rewrite (next_brings _ _ _ T2) in E.
  destruct (react_describe user uri rnd [] (qdel q2 2) (next_id id rdesc) 0 verbs (flat_map item_stream post2 ++ rest) ((log2 ++ new2) ++ [Got r2]) rq2 r2 (body_of_item rdesc) ms eq_refl (tells_body _ _ T2 O3) O4 ltac:(lia)) as (q3 & E' & Qa & Qb).
  rewrite E' in E. rewrite (H _ E). clear H E E'.
  destruct (sent_all (setups uri (next_id id rdesc) 0 ms)) as (X1 & X2 & X3).
  exists q3, (new2 ++ [Got r2] ++ map (Sent false) (setups uri (next_id id rdesc) 0 ms)), (pre2 ++ [rdesc]), post2, d2. splits; try assumption.
  - rewrite <- !app_assoc. reflexivity.
  - rewrite <- app_assoc. reflexivity.
  - intros k Hk. rewrite Qb by exact Hk. rewrite qget_del. destruct (k =? 2) eqn:X; [reflexivity|]. apply N2. lia.
  - rewrite !sent_requests_app, A1, X1. reflexivity.
  - rewrite !stages_app, A2, X2. reflexivity.
  - rewrite !packets_app, A3, X3, frames_app. destruct rdesc; [destruct O2| |destruct O2]. reflexivity.
Qed.

Lemma described_run user uri rnd ms ropt rdesc rsets items clocks rest : grants 1 ropt -> grants 2 rdesc -> body_of_item rdesc <> [] -> sdp_parse (body_of_item rdesc) = Ok ms ->
  with_noise (ropt :: rdesc :: rsets) items -> Forall item_ok items -> length clocks = length items ->
  exists q3 verbs log3 pre2 post2 d2, run (wor rnd (dialled ProtoTCP user uri) (flat_map item_stream items ++ rest) [], Live) (App COptions :: turns_at clocks) =
    run (wor rnd (ses user uri [] 0 q3 (next_id (next_id [] ropt) rdesc) (asked_feeds 0 ms) 0 verbs (2 + zlen ms)) (flat_map item_stream post2 ++ rest) log3, Live) (turns_at d2) /\
    items = pre2 ++ post2 /\ with_noise rsets post2 /\ Forall item_ok post2 /\ length d2 = length post2 /\ zlen ms <= 2049 /\
    (forall k, 2 < k <= 2 + zlen ms -> exists req, qget q3 k = Some req /\ q_verb req = bs "SETUP") /\
    (forall k, ~ (2 < k <= 2 + zlen ms) -> qget q3 k = None) /\
    sent_requests log3 = opening uri (next_id [] ropt) (next_id (next_id [] ropt) rdesc) ms /\ stages log3 = [] /\ packets log3 = frames pre2.
Proof.
  intros O1 O2 O3 O4 W K L.
  change (App COptions :: turns_at clocks) with ([App COptions] ++ turns_at clocks). rewrite run_app.
  change (run (wor rnd (dialled ProtoTCP user uri) (flat_map item_stream items ++ rest) [], Live) [App COptions]) with
    (wor rnd (ses user uri [] 0 (qset [] 1 (options_request uri)) [] [] 0 [] 1) (flat_map item_stream items ++ rest) [Sent false (options_request uri)], Live).
  destruct (noise_next _ _ _ W) as (pre1 & post1 & -> & Np1 & W1). destruct (split_clocks pre1 ropt post1 clocks L) as (c1 & cc1 & d1 & -> & L1 & M1).
  apply Forall_app in K as [K1 K]. apply Forall_cons_iff in K as [Ko K].
  rewrite turns_at_app, run_app, flat_map_app. cbn [flat_map]. rewrite <- !(app_assoc (A := option Z)).
  destruct (options_phase user uri rnd ropt pre1 c1 cc1 (flat_map item_stream post1 ++ rest) [Sent false (options_request uri)] O1 Np1
    ltac:(apply Forall_app; split; [exact K1|constructor; [exact Ko|constructor]]) L1) as (verbs & new1 & E & A1 & A2 & A3).
  rewrite E. clear E.
  destruct (described_from user uri rnd ms rdesc rsets post1 d1 rest (qset (qdel (qset [] 1 (options_request uri)) 1) 2 (describe_request uri (next_id [] ropt))) (next_id [] ropt) verbs
    ([Sent false (options_request uri)] ++ new1) O2 O3 O4 eq_refl) as (q3 & new & pre2 & post2 & d2 & E & -> & W2 & K2 & L2 & BF & Qa & Qb & B1 & B2 & B3); try assumption.
  { intros k Hk. rewrite qget_set. destruct (k =? 2) eqn:X; [lia|]. rewrite qget_del, qget_set. destruct (k =? 1); reflexivity. }
  rewrite E. exists q3, verbs, (([Sent false (options_request uri)] ++ new1) ++ new), (pre1 ++ ropt :: pre2), post2, d2. splits; try assumption; try reflexivity.
  - rewrite <- app_assoc. reflexivity.
  - rewrite !sent_requests_app, A1, B1. reflexivity.
  - rewrite !stages_app, A2, B2. reflexivity.
  - rewrite !packets_app, A3, B3, frames_app. destruct ropt; [destruct O1| |destruct O1]. reflexivity.
Qed.

(* the answers to SETUP, after the description *)
Lemma asked_run user uri rnd ms rsets items clocks rest q3 id verbs log3 : ms <> [] -> Forall sets_ok ms ->
  (exists ns, Permutation ns (map (fun i => 3 + Z.of_nat i) (seq 0 (length ms))) /\ Forall2 grants ns rsets) -> Forall names_transport rsets ->
  zlen ms <= 2049 -> (forall k, 2 < k <= 2 + zlen ms -> exists req, qget q3 k = Some req /\ q_verb req = bs "SETUP") ->
  (forall k, ~ (2 < k <= 2 + zlen ms) -> qget q3 k = None) ->
  with_noise rsets items -> Forall item_ok items -> length clocks = length items ->
  exists sinks q fs new, run (wor rnd (ses user uri [] 0 q3 id (asked_feeds 0 ms) 0 verbs (2 + zlen ms)) (flat_map item_stream items ++ rest) log3, Live) (turns_at clocks) =
    (wor rnd (ses user uri sinks 1 q (fold_left next_id rsets id) fs (zlen ms) verbs (2 + zlen ms)) rest (log3 ++ new), Live) /\
    Forall configured fs /\ map fd_media fs = ms /\ (forall k, qget q k = None) /\ sent_requests new = [] /\ stages new = [1] /\ packets new = frames items.
Proof.
  intros O5 O6 (ns & PN & GN) O8 BF Qa Qb W2 K2 M2.
  set (cs := from_z 2 (length ms)).
  assert (LC : zlen cs = zlen ms) by (unfold zlen, cs; rewrite from_z_len; reflexivity).
  assert (CS : cs = map (fun i => 3 + Z.of_nat i) (seq 0 (length ms))).
  { unfold cs. clear. enough (G : forall n k j, k = 2 + Z.of_nat j -> from_z k n = map (fun i => 3 + Z.of_nat i) (seq j n)) by (apply G; reflexivity).
    induction n as [|n IH]; intros k j E; cbn [from_z seq map]; [reflexivity|]. rewrite (IH (k + 1) (S j)) by lia. f_equal. lia. }
  rewrite <- CS in PN.
  assert (LN : zlen ns = zlen cs) by (unfold zlen; rewrite (Permutation_length PN); reflexivity).
  assert (Pm : 0 < zlen ms) by (destruct ms as [|m ms']; [contradiction|rewrite zlen_cons; pose proof (zlen_nonneg ms'); lia]).
  assert (Z0 : (if zlen (@nil Z) >=? zlen cs then 1 else 0) = 0) by (rewrite LC; change (zlen (@nil Z)) with 0; destruct (0 >=? zlen ms) eqn:X; [lia|reflexivity]).
  destruct (setups_run user uri rnd verbs (2 + zlen ms) cs rest rsets ns items clocks [] q3 id (asked_feeds 0 ms) [] log3) as (s4 & q4 & f4 & new4 & E & Cf4 & Mm4 & Q4 & B1 & B2 & B3); try assumption.
  - rewrite app_nil_r. apply (Permutation_NoDup (Permutation_sym PN)). apply from_z_nodup.
  - intros x Hx. apply (Permutation_in _ PN). exact Hx.
  - intros x [].
  - apply Forall_forall. intros x Hx. apply from_z_in in Hx. unfold zlen in BF. lia.
  - lia.
  - unfold waiting. splits; [apply asked_cseqs|apply from_z_nodup| |intros f _ []]. intros f If _. destruct (asked_media _ _ _ If) as (X & Y). split; [exact X|]. rewrite Forall_forall in O6. apply O6. exact Y.
  - intros k. split.
    + intros Ik _. apply from_z_in in Ik. apply Qa. unfold zlen. lia.
    + intros [Nk|[]]. apply Qb. intros X. apply Nk. apply from_z_in. unfold zlen in X. lia.
  - rewrite Z0 in E. change (zlen (@nil Z)) with 0 in E. rewrite E. exists s4, q4, f4, new4. splits; try assumption.
    + rewrite LC. reflexivity.
    + rewrite Mm4. apply asked_medias.
    + rewrite B2. change (zlen (@nil Z)) with 0. rewrite LC. destruct (0 >=? zlen ms) eqn:X; [lia|reflexivity].
Qed.

Lemma opening_run user uri rnd ms ropt rdesc rsets items clocks rest : opening_ok ms ropt rdesc rsets ->
  with_noise (ropt :: rdesc :: rsets) items -> Forall item_ok items -> length clocks = length items ->
  exists sinks q fs verbs new, run (wor rnd (dialled ProtoTCP user uri) (flat_map item_stream items ++ rest) [], Live) (App COptions :: turns_at clocks) =
    (wor rnd (ses user uri sinks 1 q (fold_left next_id (ropt :: rdesc :: rsets) []) fs (zlen ms) verbs (2 + zlen ms)) rest new, Live) /\
    Forall configured fs /\ map fd_media fs = ms /\
    (forall k, qget q k = None) /\ sent_requests new = opening uri (next_id [] ropt) (next_id (next_id [] ropt) rdesc) ms /\
    stages new = [1] /\ packets new = frames items /\ zlen ms <= 2049.
Proof.
  intros [O1 O2 O3 O4 O5 O6 O7 O8] W K L.
  destruct (described_run user uri rnd ms ropt rdesc rsets items clocks rest O1 O2 O3 O4 W K L) as (q3 & verbs & log3 & pre2 & post2 & d2 & E0 & -> & W2 & K2 & M2 & BF & Qa & Qb & Sa & Sb & Sc).
  rewrite E0. clear E0.
  destruct (asked_run user uri rnd ms rsets post2 d2 rest q3 (next_id (next_id [] ropt) rdesc) verbs log3 O5 O6 O7 O8 BF Qa Qb W2 K2 M2) as (s4 & q4 & f4 & new4 & E & Cf4 & Mm4 & Q4 & B1 & B2 & B3).
  rewrite E. exists s4, q4, f4, verbs, (log3 ++ new4). splits; try assumption.
  - reflexivity.
  - rewrite sent_requests_app, Sa, B1, app_nil_r. reflexivity.
  - rewrite stages_app, Sb, B2. reflexivity.
  - rewrite packets_app, Sc, B3, frames_app. reflexivity.
Qed.

Lemma conversation_run user uri rnd ms ropt rdesc rsets items clocks rounds rest : opening_ok ms ropt rdesc rsets ->
  with_noise (ropt :: rdesc :: rsets) items -> Forall item_ok items -> length clocks = length items ->
  rounds_ok (3 + zlen ms) rounds -> zlen rounds < 2 ^ 62 ->
  exists w', run (mkW (dialled ProtoTCP user uri) (flat_map item_stream (items ++ flat_map r_items rounds) ++ rest) [] [] rnd [], Live)
                 ((App COptions :: turns_at clocks) ++ flat_map round_events rounds) = (w', Live) /\
    w_in w' = rest /\
    sent_requests (w_log w') = opening uri (next_id [] ropt) (next_id (next_id [] ropt) rdesc) ms ++
                               round_requests uri (fold_left next_id (ropt :: rdesc :: rsets) []) (3 + zlen ms) rounds /\
    stages (w_log w') = 1 :: map (fun r => order_stage (r_order r)) rounds /\
    packets (w_log w') = frames (items ++ flat_map r_items rounds) /\
    map fd_media (s_feeds (w_s w')) = ms /\ Forall configured (s_feeds (w_s w')).
Proof.
  intros O W K L R B. assert (X : forall rs, flat_map item_stream (flat_map r_items rs) = flat_map (fun r => flat_map item_stream (r_items r)) rs).
  { induction rs as [|r rs IH]; [reflexivity|]. cbn [flat_map]. rewrite flat_map_app, IH. reflexivity. }
  assert (Y : forall rs, frames (flat_map r_items rs) = flat_map (fun r => frames (r_items r)) rs).
  { induction rs as [|r rs IH]; [reflexivity|]. cbn [flat_map]. rewrite frames_app, IH. reflexivity. }
  rewrite flat_map_app, X, frames_app, Y, <- app_assoc, run_app.
  destruct (opening_run user uri rnd ms ropt rdesc rsets items clocks (flat_map (fun r => flat_map item_stream (r_items r)) rounds ++ rest) O W K L) as (sinks & q & fs & verbs & new & E & C1 & C2 & Q & A1 & A2 & A3 & BF).
  unfold wor in E at 1. rewrite E. pose proof (zlen_nonneg ms) as Pm.
  destruct (rounds_run user uri rnd sinks fs (zlen ms) verbs rest rounds 1 q (fold_left next_id (ropt :: rdesc :: rsets) []) (2 + zlen ms) new Q ltac:(lia) ltac:(lia)) as (w' & new2 & E2 & I & Fd & Lg & B1 & B2 & B3).
  { replace (2 + zlen ms + 1) with (3 + zlen ms) by lia. exact R. }
  replace (2 + zlen ms + 1) with (3 + zlen ms) in B1 by lia.
  exists w'. rewrite Lg, sent_requests_app, stages_app, packets_app, A1, A2, A3, B1, B2, B3, Fd. splits; try assumption; reflexivity.
Qed.

(* a description whose parameter sets cannot be read: the loop ends at the answer to SETUP *)
Lemma run_noloop es : forall w, exists w', run (w, NoLoop) es = (w', NoLoop) \/ run (w, NoLoop) es = (w', Dead).
Proof.
  induction es as [|e es IH]; intros w; cbn [run fold_left]; [eauto|]. fold (run (step (w, NoLoop) e) es).
  destruct e as [c|t1 t2]; cbn [step]; [|apply IH]. destruct (do_cmd w c) as [w1 [u|x| |]]; try apply IH; exists w1; right; clear; induction es as [|e es IH]; cbn [run fold_left step]; auto.
Qed.

Lemma unreadable_run user uri rnd m ropt rdesc rset items clocks rest st e : grants 1 ropt -> grants 2 rdesc -> body_of_item rdesc <> [] -> sdp_parse (body_of_item rdesc) = Ok [m] ->
  grants 3 rset -> names_transport rset -> parse_sprops blank (m_sprops m) = (st, Err e) -> is_timeout e = false ->
  with_noise [ropt; rdesc; rset] items -> Forall item_ok items -> length clocks = length items ->
  exists w', run (mkW (dialled ProtoTCP user uri) (flat_map item_stream items ++ rest) [] [] rnd [], Live) (App COptions :: turns_at clocks) = (w', NoLoop) /\ stages (w_log w') = [] /\ s_stage (w_s w') = 0.
Proof.
  intros O1 O2 O3 O4 G T S NT W K L.
  destruct (described_run user uri rnd [m] ropt rdesc [rset] items clocks rest O1 O2 O3 O4 W K L) as (q3 & verbs & log3 & pre2 & post2 & d2 & E0 & -> & W2 & K2 & M2 & BF & Qa & Qb & _ & S3 & _).
  unfold wor in E0 at 1. rewrite E0. clear E0.
  destruct (noise_next _ _ _ W2) as (pre & post & -> & Np & Wp). destruct (split_clocks pre rset post d2 M2) as (c1 & cc & c2 & -> & L1 & L2).
  apply Forall_app in K2 as [K1 K2]. apply Forall_cons_iff in K2 as [Ki K2].
  rewrite !turns_at_app, !run_app, flat_map_app. cbn [flat_map]. rewrite <- !(app_assoc (A := option Z)).
  set (id := next_id (next_id [] ropt) rdesc).
  destruct (noise_run pre (wor rnd (ses user uri [] 0 q3 id (asked_feeds 0 [m]) 0 verbs (2 + zlen [m])) (flat_map item_stream pre ++ item_stream rset ++ flat_map item_stream post ++ rest) log3) c1 (item_stream rset ++ flat_map item_stream post ++ rest) eq_refl eq_refl Np K1 L1 eq_refl) as (new & R & A1 & A2 & A3).
  rewrite R. clear R. cbn [wor w_s w_writes w_listens w_rand w_log].
  set (w1 := mkW (ses user uri [] 0 q3 id (asked_feeds 0 [m]) 0 verbs (2 + zlen [m])) (item_stream rset ++ flat_map item_stream post ++ rest) [] [] rnd (log3 ++ new)).
  destruct rset as [ch p|code reason fs body|]; [destruct G| |destruct G]. cbn [grants item_ok item_stream names_transport field_of_item] in *. destruct G as [-> G]. unfold names_transport in T. cbn [field_of_item] in T.
  destruct Ki as (Kc & Rn & F & Co & Lb).
  destruct (unpack_response_spec 200 reason fs body (flat_map item_stream post ++ rest) Kc Rn F Co Lb) as (r & U & H1 & H2 & H3 & H4). fold (sent (response_text (bs "RTSP/1.0") 200 reason fs body)) in U.
  specialize (H4 3 ltac:(lia) G). specialize (H3 (bs "Transport") ltac:(vm_compute; repeat constructor; congruence)).
  assert (Tn : exists w2, turn w1 (fst cc) (snd cc) = (w2, Stop) /\ stages (w_log w2) = [] /\ s_stage (w_s w2) = 0).
  { rewrite turn_tcp by reflexivity.
    set (w0 := wor rnd (ses user uri [] 0 q3 id (asked_feeds 0 [m]) 0 verbs (2 + zlen [m])) (flat_map item_stream post ++ rest) (log3 ++ new)).
    assert (RX : receive w1 = handle_response w0 r).
    { unfold receive. change (w_in w1) with (sent (response_text (bs "RTSP/1.0") 200 reason fs body) ++ flat_map item_stream post ++ rest).
      assert (Pk : forall x, peek 1 (sent (response_text (bs "RTSP/1.0") 200 reason fs body) ++ x) = (sent (response_text (bs "RTSP/1.0") 200 reason fs body) ++ x, Ok [82])).
      { intros x. unfold response_text. change (bs "RTSP/1.0") with (82 :: bs "TSP/1.0"). cbn [app]. rewrite sent_cons. reflexivity. }
      rewrite Pk. cbv beta iota. rewrite U. reflexivity. }
    destruct (Qa 3 ltac:(change (zlen [m]) with 1; lia)) as (req & Qr & Vr).
    pose proof (handle_talk user uri rnd [] 0 q3 id (asked_feeds 0 [m]) 0 verbs (2 + zlen [m]) (flat_map item_stream post ++ rest) (log3 ++ new) r req) as E. rewrite H4 in E. specialize (E Qr ltac:(lia)). fold w0 in E.
    rewrite RX, E. unfold react. rewrite Vr. change (beq (bs "SETUP") (bs "OPTIONS")) with false. change (beq (bs "SETUP") (bs "DESCRIBE")) with false. change (beq (bs "SETUP") (bs "PAUSE")) with false.
    change (beq (bs "SETUP") (bs "PLAY")) with false. change (beq (bs "SETUP") (bs "TEARDOWN")) with false. change (beq (bs "SETUP") (bs "SETUP")) with true. cbv iota.
    unfold handle_setup. rewrite H1. change (200 =? 200) with true. cbv iota zeta. rewrite H3, H4. cbn [wor ses w_s s_feeds asked_feeds setup_feeds fd_cseq]. change (3 + 0 =? 3) with true. cbv iota zeta.
    unfold transport_setup. cbn [fd_transp fd_media fd_sets fd_cseq fd_set]. specialize (T (new_transport ProtoTCP (0 * 2))). destruct (transport_parse (new_transport ProtoTCP (0 * 2)) (field_value fs (bs "Transport"))) as [t x]. cbn [snd] in T. subst x.
    rewrite S. rewrite NT. eexists. split; [reflexivity|]. split; [|reflexivity]. cbn [upd_s wor w_log]. rewrite !stages_app, S3, A2. reflexivity. }
  destruct Tn as (w2 & Tn & T2 & T3). cbn [turns_at map run fold_left step fst snd]. rewrite Tn.
  assert (X : forall l, run (w2, NoLoop) (turns_at l) = (w2, NoLoop)) by (induction l as [|x l IH]; [reflexivity|exact IH]).
  fold (turns_at c2). fold (run (w2, NoLoop) (turns_at c2)). rewrite X. exists w2. auto.
Qed.

(* ---- the parameter sets ---- *)
Lemma configured_two m h1 b1 h2 b2 f : fd_media f = m -> m_sprops m = [h1 :: b1; h2 :: b2] -> Z.land h1 31 = 7 -> Z.land h2 31 = 8 -> configured f ->
  fd_set f = true /\ fd_sets f = fst (parse_pps (fst (parse_sps blank b1)) b2).
Proof.
  intros E M H1 H2 (F & C). rewrite E, M in C. cbn [parse_sprops] in C. unfold parse_sprop in C. rewrite H1, H2 in C. change (7 =? 7) with true in C. change (8 =? 7) with false in C. change (8 =? 8) with true in C. cbv iota in C.
  split; [exact F|]. destruct (parse_sps blank b1) as [s1 [u|e| |]]; try discriminate. cbn [fst]. destruct (parse_pps s1 b2) as [s2 [u2|e| |]]; try discriminate. inversion C. reflexivity.
Qed.
