(* Properties: C79-C80, whole conversations over TCP. *)
From Coq Require Import String Permutation.
From Verif Require Import Base GoStrings S_bits M_bits S_sps M_sps S_spsrel S_sdp M_sdp S_transport S_message M_message M_transport M_session S_session S_handshake
  L_base L_strings L_transport L_bits L_sps L_spsdec P_sps L_handshake.
From Coq Require Import ZifyBool ZifyNat.

(* ---- C79 ---- *)
(* A server that grants everything: the requests, the stages and the packets, in order.  The answers to SETUP may come in any
   order, frames and silences anywhere; afterwards PLAY, PAUSE and TEARDOWN as often as one likes. *)
Theorem C79_conversation : forall user uri rnd ms ropt rdesc rsets items clocks rounds rest,
  opening_ok ms ropt rdesc rsets -> with_noise (ropt :: rdesc :: rsets) items -> Forall item_ok items -> length clocks = length items ->
  rounds_ok (3 + zlen ms) rounds -> zlen rounds < 2 ^ 62 ->
  exists w', M_session.run (mkW (dialled ProtoTCP user uri) (flat_map item_stream (items ++ flat_map r_items rounds) ++ rest) [] [] rnd [], Live)
                 ((App COptions :: turns_at clocks) ++ flat_map round_events rounds) = (w', Live) /\
    w_in w' = rest /\
    sent_requests (w_log w') = opening uri (next_id [] ropt) (next_id (next_id [] ropt) rdesc) ms ++
                               round_requests uri (fold_left next_id (ropt :: rdesc :: rsets) []) (3 + zlen ms) rounds /\
    stages (w_log w') = 1 :: map (fun r => order_stage (r_order r)) rounds /\
    packets (w_log w') = frames (items ++ flat_map r_items rounds) /\
    map fd_media (s_feeds (w_s w')) = ms /\ Forall (fun f => fd_set f = true) (s_feeds (w_s w')).
Proof.
  intros user uri rnd ms ropt rdesc rsets items clocks rounds rest O W K L R B.
  destruct (conversation_run user uri rnd ms ropt rdesc rsets items clocks rounds rest O W K L R B) as (w' & E & A1 & A2 & A3 & A4 & A5 & A6).
  exists w'. splits; try assumption. eapply Forall_impl; [|exact A6]. intros f (X & _). exact X.
Qed.
Print Assumptions C79_conversation.

(* the Transport field of an answer may be the text of any transport *)
Theorem C79_transports : forall t, transport_ok t -> transport_text_ok (transport_string t).
Proof. intros t H u. rewrite (parse_transport_string u t H). reflexivity. Qed.
Print Assumptions C79_transports.

(* a conversation with two feeds, the answers to SETUP in reverse order *)
Definition field (k v : bytes) : sfield := mkField k [32] v.
Definition ok_resp (n : Z) (more : list sfield) (body : bytes) : item :=
  Resp 200 (bs "OK") (field (bs "CSeq") (itoa n) :: more ++ (match body with [] => [] | _ => [field (bs "Content-Length") (itoa (zlen body))] end)) body.
Definition two_feeds : bytes := body_of [bs "v=0"; bs "m=video 0 RTP/AVP 96"; bs "a=control:track1"; bs "m=audio 0 RTP/AVP 0"; bs "m=video 0 RTP/AVP 97"; bs "a=control:rtsp://h/t2"].
Definition the_items : list item :=
  [Quiet; ok_resp 1 [field (bs "Public") (bs "DESCRIBE, SETUP")] []; ok_resp 2 [] two_feeds; Quiet;
   ok_resp 4 [field (bs "Session") (bs "77;timeout=60"); field (bs "Transport") (bs "RTP/AVP/TCP;unicast;interleaved=2-3")] [];
   ok_resp 3 [field (bs "Session") (bs "77;timeout=60"); field (bs "Transport") (bs "RTP/AVP/TCP;unicast;interleaved=0-1")] []].
Definition the_rounds : list round :=
  [mkRound Play (ok_resp 5 [] []) [ok_resp 5 [] []; Frame 0 [1; 2; 3]; Quiet] [(0, 0); (0, 0); (0, 0)];
   mkRound Teardown (ok_resp 6 [] []) [Frame 2 [4]; ok_resp 6 [] []] [(0, 0); (0, 0)]].
Example C79_case :
  let '(w', l) := M_session.run (mkW (dialled ProtoTCP None (bs "rtsp://h/s")) (flat_map item_stream (the_items ++ flat_map r_items the_rounds)) [] [] [] [], Live)
    ((App COptions :: turns_at (repeat (0, 0) 6)) ++ flat_map round_events the_rounds) in
  l = Live /\ stages (w_log w') = [1; 2; 4] /\ packets (w_log w') = [(0, [1; 2; 3]); (2, [4])] /\
  map (fun q => (q_verb q, q_cseq q, q_uri q, q_session q, q_header q)) (sent_requests (w_log w')) =
   [(bs "OPTIONS", 1, bs "rtsp://h/s", [], []); (bs "DESCRIBE", 2, bs "rtsp://h/s", [], [(bs "Accept", bs "application/sdp")]);
    (bs "SETUP", 3, bs "rtsp://h/s/track1", [], [(bs "Transport", bs "RTP/AVP/TCP;interleaved=0-1")]);
    (bs "SETUP", 4, bs "rtsp://h/t2", [], [(bs "Transport", bs "RTP/AVP/TCP;interleaved=2-3")]);
    (bs "PLAY", 5, bs "rtsp://h/s", bs "77", []); (bs "TEARDOWN", 6, bs "rtsp://h/s", bs "77", [])].
Proof. vm_compute. repeat split. Qed.

(* ---- C80 ---- *)
(* What the description says about the parameter sets of a feed is in the feed's store when the session is ready... *)
Theorem C80_stored_partial : forall user uri rnd ms ropt rdesc rsets items clocks rest n m y z t rest1 rest2 h1 b1 h2 b2,
  opening_ok ms ropt rdesc rsets -> with_noise (ropt :: rdesc :: rsets) items -> Forall item_ok items -> length clocks = length items ->
  nth_error ms n = Some m -> m_sprops m = [h1 :: b1; h2 :: b2] -> Z.land h1 31 = 7 -> Z.land h2 31 = 8 -> buf_ok b1 -> buf_ok b2 ->
  sps_legal y -> profile_known (y_profile y) -> poc_readable (y_poc y) -> y_field y = None -> bits_of b1 = sps_bits y ++ rest1 ->
  z_tail z = Some t -> z_sps z = y_id y -> pps_legal (y_idc y) z -> groups_readable (z_groups z) -> bits_of b2 = pps_bits z ++ rest2 ->
  exists w' f i j, M_session.run (mkW (dialled ProtoTCP user uri) (flat_map item_stream items ++ rest) [] [] rnd [], Live) (App COptions :: turns_at clocks) = (w', Live) /\
    nth_error (s_feeds (w_s w')) n = Some f /\ fd_media f = m /\
    get_sps (fd_sets f) (y_id y) = Some i /\ sps_matches y i /\ get_pps (fd_sets f) (z_id z) = Some j /\ pps_matches z j.
Proof.
  intros user uri rnd ms ropt rdesc rsets items clocks rest n m y z t rest1 rest2 h1 b1 h2 b2 O W K L N M H1 H2 B1 B2 Ly Py Ry Fy E1 Tz Sz Lz Gz E2.
  destruct (conversation_run user uri rnd ms ropt rdesc rsets items clocks [] rest O W K L I eq_refl) as (w' & E & _ & _ & _ & _ & A5 & A6).
  cbn [flat_map] in E. rewrite !app_nil_r in E. exists w'.
  assert (X : exists f, nth_error (s_feeds (w_s w')) n = Some f /\ fd_media f = m).
  { rewrite <- A5, nth_error_map in N. destruct (nth_error (s_feeds (w_s w')) n) as [f|]; [|discriminate]. exists f. split; [reflexivity|cbn in N; congruence]. }
  destruct X as (f & Nf & Mf). exists f.
  rewrite Forall_forall in A6. specialize (A6 f (nth_error_In _ _ Nf)).
  destruct (configured_two m h1 b1 h2 b2 f Mf M H1 H2 A6) as (_ & S).
  destruct (C26_sps_fields_partial blank y rest1 b1 Ly Py Ry Fy B1 E1) as (P1 & i & G1 & M1 & _).
  assert (C : pps_chroma (fst (parse_sps blank b1)) z = y_idc y).
  { unfold pps_chroma. rewrite Sz, G1. destruct M1 as (_ & _ & _ & _ & MC & _). exact MC. }
  destruct (C29_pps_fields_partial (fst (parse_sps blank b1)) z t rest2 b2 Tz ltac:(rewrite C; exact Lz) Gz B2 E2) as (P2 & j & G2 & M2).
  exists i, j. splits; try assumption.
  - rewrite S. destruct (C28_parse_pps_exact (fst (parse_sps blank b1)) b2 B2) as [_ _]. unfold parse_pps. destruct (parse_pps_body (st_sps (fst (parse_sps blank b1))) (new_reader b2)) as [r [p|e| |]]; exact G1.
  - rewrite S. exact G2.
Qed.
Print Assumptions C80_stored_partial.

(* ...but with a picture parameter set of the plain kind, which ends in the usual trailing bits (C29), the session never gets ready:
   the loop ends at the answer to SETUP. *)
Theorem C80_plain_pps_refuted : forall user uri rnd m ropt rdesc rset items clocks rest y z k rest1 h1 b1 h2 b2,
  grants 1 ropt -> grants 2 rdesc -> body_of_item rdesc <> [] -> sdp_parse (body_of_item rdesc) = Ok [m] -> grants 3 rset -> names_transport rset ->
  with_noise [ropt; rdesc; rset] items -> Forall item_ok items -> length clocks = length items ->
  m_sprops m = [h1 :: b1; h2 :: b2] -> Z.land h1 31 = 7 -> Z.land h2 31 = 8 -> buf_ok b1 -> buf_ok b2 ->
  sps_legal y -> profile_known (y_profile y) -> poc_readable (y_poc y) -> y_field y = None -> bits_of b1 = sps_bits y ++ rest1 ->
  z_tail z = None -> pps_legal (y_idc y) z -> groups_readable (z_groups z) -> bits_of b2 = pps_bits z ++ trailing k ->
  exists w', M_session.run (mkW (dialled ProtoTCP user uri) (flat_map item_stream items ++ rest) [] [] rnd [], Live) (App COptions :: turns_at clocks) = (w', NoLoop) /\
    stages (w_log w') = [].
Proof.
  intros user uri rnd m ropt rdesc rset items clocks rest y z k rest1 h1 b1 h2 b2 O1 O2 O3 O4 G T W K L M H1 H2 B1 B2 Ly Py Ry Fy E1 Tz Lz Gz E2.
  destruct (C26_sps_fields_partial blank y rest1 b1 Ly Py Ry Fy B1 E1) as (P1 & _).
  assert (Lz' : pps_legal (pps_chroma (fst (parse_sps blank b1)) z) z) by (unfold pps_legal in *; rewrite Tz in *; exact Lz).
  pose proof (C29_pps_trailing_refuted (fst (parse_sps blank b1)) z k b2 Tz Lz' Gz B2 E2) as P2.
  assert (S : parse_sprops blank (m_sprops m) = (fst (parse_sps blank b1), Err ErrUnexpectedEOF)).
  { rewrite M. cbn [parse_sprops]. unfold parse_sprop. rewrite H1, H2. change (7 =? 7) with true. change (8 =? 7) with false. change (8 =? 8) with true. cbv iota.
    destruct (parse_sps blank b1) as [s1 o]. cbn [fst snd] in *. subst o. rewrite P2. reflexivity. }
  destruct (unreadable_run user uri rnd m ropt rdesc rset items clocks rest _ _ O1 O2 O3 O4 G T S eq_refl W K L) as (w' & E & A & _). exists w'. split; assumption.
Qed.
Print Assumptions C80_plain_pps_refuted.

(* the parameter sets of C26 and C29, in a description; and a plain one *)
Definition described_with (sets : list bytes) : bytes := body_of [bs "m=video 0 RTP/AVP 96"; bs "a=fmtp:96 packetization-mode=1;" ++ fparam_text (PSprops sets)].
Definition session_with (sets : list bytes) : world * life :=
  M_session.run (mkW (dialled ProtoTCP None (bs "rtsp://h/s")) (flat_map item_stream
    [ok_resp 1 [] []; ok_resp 2 [] (described_with sets); ok_resp 3 [field (bs "Transport") (bs "RTP/AVP/TCP;interleaved=0-1")] []]) [] [] [] [], Live)
    (App COptions :: turns_at (repeat (0, 0) 3)).
Example C80_case :
  let good := [[103; 100; 0; 40; 172; 217; 64; 120; 2; 39; 229; 64]; [104; 238; 56; 176]] in
  let plain := [[103; 100; 0; 40; 172; 217; 64; 120; 2; 39; 229; 64]; [104; 206; 56; 128]] in
  snd (session_with good) = Live /\ stages (w_log (fst (session_with good))) = [1] /\
  snd (session_with plain) = NoLoop /\ stages (w_log (fst (session_with plain))) = [].
Proof. vm_compute. repeat split. Qed.
