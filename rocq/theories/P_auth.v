(* Properties: C91, conversations with a server that asks for credentials. *)
From Coq Require Import String Permutation.
From Verif Require Import Base GoStrings S_digest S_sdp S_message M_message M_transport M_session S_session S_handshake S_auth
  L_base L_handshake L_auth P_handshake.

(* ---- C91 ---- *)
(* Full statement: whatever challenges a server makes, each is answered as RFC 2617 says, the session goes on, and all later
   requests carry the answer.  It holds for Basic and for Digest with MD5, with challenges made while OPTIONS, DESCRIBE, PLAY, PAUSE
   or TEARDOWN is to be answered, as often as one likes.  The digests are those for the URI of the session (see C76). *)
Theorem C91_authorized_partial : forall user pass uri rnd ms ropt rdesc rsets cs1 asked1 items1 cs2 asked2 items2 clocks arounds rest,
  opening_ok ms ropt rdesc rsets ->
  challenged 1 cs1 asked1 -> with_noise [ropt] items1 -> challenged 2 cs2 asked2 -> with_noise (rdesc :: rsets) items2 ->
  let items := asked1 ++ items1 ++ asked2 ++ items2 in
  Forall item_ok items -> length clocks = length items -> arounds_ok (3 + zlen ms) arounds -> zlen arounds < 2 ^ 62 ->
  let id1 := next_id [] ropt in
  let p0 := mkPurse none rnd in
  let p1 := learns uri user pass p0 cs1 in
  let p2 := learns uri user pass p1 cs2 in
  exists w', M_session.run (mkW (dialled ProtoTCP (Some (user, pass)) uri) (flat_map item_stream (items ++ flat_map around_items arounds) ++ rest) [] [] rnd [], Live)
                 ((App COptions :: turns_at clocks) ++ flat_map around_events arounds) = (w', Live) /\
    w_in w' = rest /\
    sent_requests (w_log w') =
      tellings uri user pass p0 cs1 (mkReq (bs "OPTIONS") 1 uri [] [] []) ++
      tellings uri user pass p1 cs2 (mkReq (bs "DESCRIBE") 2 uri [] id1 [(bs "Accept", bs "application/sdp")]) ++
      map (dress (pu_now p2)) (setups uri (next_id id1 rdesc) 0 ms) ++
      around_requests uri user pass (fold_left next_id (ropt :: rdesc :: rsets) []) p2 (3 + zlen ms) arounds /\
    stages (w_log w') = 1 :: map (fun a => order_stage (r_order (ar_round a))) arounds /\
    packets (w_log w') = frames (items ++ flat_map around_items arounds) /\
    map fd_media (s_feeds (w_s w')) = ms /\ Forall (fun f => fd_set f = true) (s_feeds (w_s w')).
Proof.
  intros user pass uri rnd ms ropt rdesc rsets cs1 asked1 items1 cs2 asked2 items2 clocks arounds rest O C1 W1 C2 W2 items K L A B id1 p0 p1 p2.
  destruct (authorized_run user pass uri rnd ms ropt rdesc rsets cs1 asked1 items1 cs2 asked2 items2 clocks arounds rest O C1 W1 C2 W2 K L A B) as (w' & E & A1 & A2 & A3 & A4 & A5 & A6).
  exists w'. splits; try assumption. eapply Forall_impl; [|exact A6]. intros f (X & _). exact X.
Qed.
Print Assumptions C91_authorized_partial.

(* With MD5-sess the repeated OPTIONS is right and the DESCRIBE after it is not. *)
Definition challenge_resp (n : Z) (c : challenge) : item :=
  Resp 401 (bs "Unauthorized") [field (bs "CSeq") (itoa n); field (bs "WWW-Authenticate") (scheme (ch_basic c) ++ items_text (ch_attrs c))] [].
Definition item_of (name val : string) : aitem := mkItem [32] (bs name) (bs val).
Definition sess_challenge : challenge := mkChallenge false [mkItem [] (bs "realm") (bs "r"); item_of "nonce" "n"; item_of "qop" "auth"; item_of "algorithm" "MD5-sess"].
Definition eight : bytes := [1; 2; 3; 4; 5; 6; 7; 8].
Theorem C91_sess_refuted :
  let uri := bs "rtsp://h/s" in
  let right := credentials uri (bs "u") (bs "p") eight sess_challenge in
  let '(w', l) := M_session.run (mkW (dialled ProtoTCP (Some (bs "u", bs "p")) uri) (flat_map item_stream [challenge_resp 1 sess_challenge; ok_resp 1 [] []]) [] [] [eight] [], Live)
    (App COptions :: turns_at [(0, 0); (0, 0)]) in
  l = Live /\ exists r1 r2 r3, sent_requests (w_log w') = [r1; r2; r3] /\ q_verb r2 = bs "OPTIONS" /\ q_auth r2 = right (bs "OPTIONS") /\
    q_verb r3 = bs "DESCRIBE" /\ q_auth r3 <> right (bs "DESCRIBE") /\ q_auth r3 <> [].
Proof.
  vm_compute. split; [reflexivity|]. do 3 eexists. split; [reflexivity|]. repeat split; discriminate.
Qed.
Print Assumptions C91_sess_refuted.

(* a conversation with three challenges: Basic at OPTIONS, Digest at DESCRIBE, and another nonce at PLAY *)
Definition basic_challenge : challenge := mkChallenge true [mkItem [] (bs "realm") (bs "r")].
Definition digest_challenge (nonce : string) : challenge := mkChallenge false [mkItem [] (bs "Realm") (bs "a b"); item_of "nonce" nonce; item_of "qop" "auth"].
Definition asked_one : list item := [Quiet; challenge_resp 1 basic_challenge; Quiet].
Definition granted_one : list item := [ok_resp 1 [] []].
Definition asked_two : list item := [challenge_resp 2 (digest_challenge "n1")].
Definition granted_two : list item := [ok_resp 2 [] two_feeds;
  ok_resp 4 [field (bs "Session") (bs "77;timeout=60"); field (bs "Transport") (bs "RTP/AVP/TCP;unicast;interleaved=2-3")] []; Quiet;
  ok_resp 3 [field (bs "Session") (bs "77;timeout=60"); field (bs "Transport") (bs "RTP/AVP/TCP;unicast;interleaved=0-1")] []].
Definition the_arounds : list around :=
  [mkAround [digest_challenge "n2"] [Frame 0 [9]; challenge_resp 5 (digest_challenge "n2")] [(0, 0); (0, 0)]
     (mkRound Play (ok_resp 5 [] []) [ok_resp 5 [] []; Frame 0 [1; 2; 3]] [(0, 0); (0, 0)]);
   mkAround [] [] [] (mkRound Teardown (ok_resp 6 [] []) [ok_resp 6 [] []] [(0, 0)])].
Definition authorized_case : world * life :=
  M_session.run (mkW (dialled ProtoTCP (Some (bs "u", bs "p")) (bs "rtsp://h/s"))
    (flat_map item_stream ((asked_one ++ granted_one ++ asked_two ++ granted_two) ++ flat_map around_items the_arounds)) [] [] [eight; eight; rev eight] [], Live)
    ((App COptions :: turns_at (repeat (0, 0) 9)) ++ flat_map around_events the_arounds).
Example C91_case :
  let digest n rnd verb := credentials (bs "rtsp://h/s") (bs "u") (bs "p") rnd (digest_challenge n) verb in
  snd authorized_case = Live /\ stages (w_log (fst authorized_case)) = [1; 2; 4] /\ packets (w_log (fst authorized_case)) = [(0, [9]); (0, [1; 2; 3])] /\
  map (fun q => (q_verb q, q_cseq q, q_auth q)) (sent_requests (w_log (fst authorized_case))) =
   [(bs "OPTIONS", 1, []); (bs "OPTIONS", 1, bs "Basic dTpw"); (bs "DESCRIBE", 2, bs "Basic dTpw"); (bs "DESCRIBE", 2, digest "n1"%string eight (bs "DESCRIBE"));
    (bs "SETUP", 3, digest "n1"%string eight (bs "SETUP")); (bs "SETUP", 4, digest "n1"%string eight (bs "SETUP"));
    (bs "PLAY", 5, digest "n1"%string eight (bs "PLAY")); (bs "PLAY", 5, digest "n2"%string (rev eight) (bs "PLAY"));
    (bs "TEARDOWN", 6, digest "n2"%string (rev eight) (bs "TEARDOWN"))].
Proof. vm_compute. repeat split. Qed.
(* the conditions of C91 hold in this case *)
Ltac good_item := split; [repeat constructor|split; [vm_compute; repeat (apply Forall_cons; [(left; split; discriminate) || (right; split; discriminate)|]); apply Forall_nil|split; [vm_compute; tauto|split; vm_compute; intuition discriminate]]].
Ltac noisy := repeat (apply wn_end || apply wn_keep || (apply wn_noise; [exact I|])).
Example C91_case_ok : challenged 1 [basic_challenge] asked_one /\ with_noise [ok_resp 1 [] []] granted_one /\ challenged 2 [digest_challenge "n1"] asked_two /\
  challenged 5 [digest_challenge "n2"] [Frame 0 [9]; challenge_resp 5 (digest_challenge "n2")] /\ zlen the_arounds < 2 ^ 62.
Proof.
  assert (K : forall c, Forall S_digest.item_ok (ch_attrs c) -> ch_attrs c <> [] -> to_lower (attr c (bs "algorithm") (bs "md5")) = bs "md5" -> challenge_ok c) by (intros c X Y Z; split; [exact Y|split; [exact X|exact Z]]).
  splits.
  - exists [challenge_resp 1 basic_challenge]. split; [|noisy]. constructor; [|constructor]. split; [reflexivity|]. split; [reflexivity|]. split; [vm_compute; reflexivity|].
    apply K; [|discriminate|reflexivity]. repeat (apply Forall_cons; [good_item|]). constructor.
  - noisy.
  - exists [challenge_resp 2 (digest_challenge "n1")]. split; [|noisy]. constructor; [|constructor]. split; [reflexivity|]. split; [reflexivity|]. split; [vm_compute; reflexivity|].
    apply K; [|discriminate|reflexivity]. repeat (apply Forall_cons; [good_item|]). constructor.
  - exists [challenge_resp 5 (digest_challenge "n2")]. split; [|noisy]. constructor; [|constructor]. split; [reflexivity|]. split; [reflexivity|]. split; [vm_compute; reflexivity|].
    apply K; [|discriminate|reflexivity]. repeat (apply Forall_cons; [good_item|]). constructor.
  - reflexivity.
Qed.
