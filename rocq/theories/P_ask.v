(* Property C116: the whole program with a server that asks for credentials. *)
From Coq Require Import String.
From Verif Require Import Base GoStrings S_rtp S_nal M_nal M_conn S_digest S_message M_message M_transport M_sdp M_session S_session S_handshake S_auth M_main S_main S_serve S_ask
  L_base L_annexb L_nal L_handshake L_serve L_ask.
From Coq Require Import ZifyBool.

(* Full statement: whatever request the server asks credentials for, as often as it likes, the client repeats it with them and gets
   through its agenda.  It holds if the server does so only when no other request is under way (it fails otherwise, below): apart from
   repetitions the client asks for what is planned, in order; what it repeats is what was planned under that number; it ends in one way
   only, by itself, when all is done and answered. *)
Theorem C116_agenda_partial : forall user pass uri rnd (ms : list media) (es : list gevent) (g : gscene), ms <> [] -> Forall sets_ok ms ->
  grun ms true (mkG (launch (mkW (dialled ProtoTCP (Some (user, pass)) uri) [] [] [] rnd [])) [] []) es g ->
  let log := w_log (y_w (g_y g)) in
  map wish_of (firsts log) = firstn (length (firsts log)) (plan uri ms) /\ map q_cseq (firsts log) = map Z.of_nat (seq 1 (length (firsts log))) /\
  Forall (fun r => nth_error (plan uri ms) (Z.to_nat (q_cseq r - 1)) = Some (wish_of r)) (retransmissions log) /\
  y_loop (g_y g) = Live /\ (y_fate (g_y g) = Goes \/ y_fate (g_y g) = Returns /\ map wish_of (firsts log) = plan uri ms /\ ~ gowed g).
Proof.
  intros user pass uri rnd ms es g Ne So R log. destruct (glink_all _ _ _ _ _ _ _ Ne So R) as (xp & cs & pd & w & I & L & _). exact (linked_orderly _ _ _ _ _ _ _ _ _ _ L I).
Qed.
Print Assumptions C116_agenda_partial.

(* The credentials: none at first; every repeated request, in order, is the one of the next challenge and carries the credentials of
   that challenge, which every new request carries from then on. *)
Theorem C116_credentials_partial : forall user pass uri rnd (ms : list media) (es : list gevent) (g : gscene), ms <> [] -> Forall sets_ok ms ->
  grun ms true (mkG (launch (mkW (dialled ProtoTCP (Some (user, pass)) uri) [] [] [] rnd [])) [] []) es g ->
  pays uri user pass (mkPurse none rnd) (challenges es) (w_log (y_w (g_y g))).
Proof.
  intros user pass uri rnd ms es g Ne So R. destruct (glink_all _ _ _ _ _ _ _ Ne So R) as (xp & cs & pd & w & I & L & C & _). rewrite C. apply pays_more. exact (lk_pays _ _ _ _ _ _ _ _ L).
Qed.
Print Assumptions C116_credentials_partial.

(* As long as it has not ended, it can do something, or it waits for a reaction the server owes. *)
Theorem C116_goes_on_partial : forall user pass uri rnd (ms : list media) (es : list gevent) (g : gscene), ms <> [] -> Forall sets_ok ms ->
  grun ms true (mkG (launch (mkW (dialled ProtoTCP (Some (user, pass)) uri) [] [] [] rnd [])) [] []) es g -> y_fate (g_y g) = Goes -> gowed g \/ gmoves g.
Proof.
  intros user pass uri rnd ms es g Ne So R F. destruct (glink_all _ _ _ _ _ _ _ Ne So R) as (xp & cs & pd & w & I & L & _). exact (linked_moves _ _ _ _ _ _ _ _ _ _ L I F).
Qed.
Print Assumptions C116_goes_on_partial.

(* And it goes on for ever only if the server does: two more events for each challenge. *)
Theorem C116_ends_partial : forall user pass uri rnd (ms : list media) (es : list gevent) (g : gscene), ms <> [] -> Forall sets_ok ms ->
  grun ms true (mkG (launch (mkW (dialled ProtoTCP (Some (user, pass)) uri) [] [] [] rnd [])) [] []) es g ->
  gproper es <= 20 + 2 * zlen ms + 2 * gnoises es + 2 * zlen (challenges es).
Proof.
  intros user pass uri rnd ms es g Ne So R. destruct (glink_all _ _ _ _ _ _ _ Ne So R) as (xp & cs & pd & w & _ & _ & _ & B). exact B.
Qed.
Print Assumptions C116_ends_partial.

(* One stream; credentials are asked for at OPTIONS, at SETUP (twice) and at PLAY. *)
Definition field (k v : bytes) : sfield := mkField k [32] v.
Definition ok_resp (n : Z) (more : list sfield) (body : bytes) : item :=
  Resp 200 (bs "OK") (field (bs "CSeq") (itoa n) :: more ++ (match body with [] => [] | _ => [field (bs "Content-Length") (itoa (zlen body))] end)) body.
Definition ask_resp (n : Z) (c : challenge) : item :=
  Resp 401 (bs "Unauthorized") [field (bs "CSeq") (itoa n); field (bs "WWW-Authenticate") (scheme (ch_basic c) ++ items_text (ch_attrs c))] [].
Definition body_of (lines : list bytes) : bytes := flat_map (fun l => l ++ [13; 10]) lines.
Definition one_feed : bytes := body_of [bs "v=0"; bs "m=video 0 RTP/AVP 96"; bs "a=control:track1"].
Definition two_feeds : bytes := body_of [bs "v=0"; bs "m=video 0 RTP/AVP 96"; bs "a=control:track1"; bs "m=video 0 RTP/AVP 97"; bs "a=control:track2"].
Definition media_in (body : bytes) : list media := match sdp_parse body with Ok ms => ms | _ => [] end.
Definition item_of (name val : string) : aitem := mkItem [32] (bs name) (bs val).
Definition basic : challenge := mkChallenge true [mkItem [] (bs "realm") (bs "r")].
Definition digest (nonce : string) : challenge := mkChallenge false [mkItem [] (bs "realm") (bs "a b"); item_of "nonce" nonce; item_of "qop" "auth"].
Definition ask (n : Z) (c : challenge) : gevent := GAsk n c (ask_resp n c).
Definition turn := GClient (YTurn 0 0).
Definition transport_field (v : string) : sfield := field (bs "Transport") (bs v).
Definition the_run : list gevent :=
  [GNoise Quiet; ask 1 basic; GNoise Quiet; turn; turn; GAnswer 1 (ok_resp 1 [] []); turn; turn; GAnswer 2 (ok_resp 2 [] one_feed); turn;
   ask 3 (digest "n1"); turn; ask 3 (digest "n2"); turn; GAnswer 3 (ok_resp 3 [transport_field "RTP/AVP/TCP;interleaved=0-1"; field (bs "Session") (bs "9")] []); turn; GClient YStage;
   ask 4 basic; turn; GAnswer 4 (ok_resp 4 [] []); turn; GClient YStage; GClient YExpire; GClient YTick; GAnswer 5 (ok_resp 5 [] []); turn; GClient YStage; GClient YExpire; GClient YTick;
   GAnswer 6 (ok_resp 6 [] []); turn; GClient YStage; GClient YExpire; GClient YTick].
Definition eight : bytes := [1; 2; 3; 4; 5; 6; 7; 8].
Definition first_scene : gscene := mkG (launch (mkW (dialled ProtoTCP (Some (bs "u", bs "p")) (bs "rtsp://h/s")) [] [] [] [eight; eight; rev eight] [])) [] [].
Ltac good_item := split; [repeat constructor|split; [vm_compute; repeat (apply Forall_cons; [(left; split; discriminate) || (right; split; discriminate)|]); apply Forall_nil|split; [vm_compute; tauto|split; vm_compute; intuition discriminate]]].
Lemma basic_asks n : 0 <= n <= 9 -> asks n basic (ask_resp n basic) /\ item_ok (ask_resp n basic).
Proof.
  intros H. split; [|apply resp_fine_ok; assert (n = 0 \/ n = 1 \/ n = 2 \/ n = 3 \/ n = 4 \/ n = 5 \/ n = 6 \/ n = 7 \/ n = 8 \/ n = 9) as X by lia; repeat destruct X as [->|X]; subst; vm_compute; reflexivity].
  split; [reflexivity|]. split; [reflexivity|]. split; [vm_compute; reflexivity|]. split; [discriminate|]. split; [|reflexivity]. repeat (apply Forall_cons; [good_item|]). constructor.
Qed.
Lemma digest_asks n nonce : 0 <= n <= 9 -> nonce = "n1"%string \/ nonce = "n2"%string -> asks n (digest nonce) (ask_resp n (digest nonce)) /\ item_ok (ask_resp n (digest nonce)).
Proof.
  intros H N. split; [|apply resp_fine_ok; assert (n = 0 \/ n = 1 \/ n = 2 \/ n = 3 \/ n = 4 \/ n = 5 \/ n = 6 \/ n = 7 \/ n = 8 \/ n = 9) as X by lia; destruct N as [->| ->]; repeat destruct X as [->|X]; subst; vm_compute; reflexivity].
  destruct N as [->| ->]; (split; [reflexivity|]; split; [reflexivity|]; split; [vm_compute; reflexivity|]; split; [discriminate|]; split; [|reflexivity]; repeat (apply Forall_cons; [good_item|]); constructor).
Qed.
Ltac ans := apply answer_fits; [vm_compute; reflexivity|intros X; first [vm_compute in X; discriminate X|clear X; split; [vm_compute; discriminate|vm_compute; reflexivity]]|
  intros X; first [vm_compute in X; discriminate X|clear X]].
Example C116_case : media_in one_feed <> [] /\ Forall sets_ok (media_in one_feed) /\ gproper the_run = 32 /\ gnoises the_run = 2 /\ zlen (challenges the_run) = 4 /\
  exists g, grun (media_in one_feed) true first_scene the_run g /\ y_fate (g_y g) = Returns /\
    let d nonce rnd verb := credentials (bs "rtsp://h/s") (bs "u") (bs "p") rnd (digest nonce) verb in
    map (fun r => (q_verb r, q_cseq r, q_auth r)) (sent_requests (w_log (y_w (g_y g)))) =
      [(bs "OPTIONS", 1, []); (bs "OPTIONS", 1, bs "Basic dTpw"); (bs "DESCRIBE", 2, bs "Basic dTpw"); (bs "SETUP", 3, bs "Basic dTpw"); (bs "SETUP", 3, d "n1"%string eight (bs "SETUP"));
       (bs "SETUP", 3, d "n2"%string (rev eight) (bs "SETUP")); (bs "PLAY", 4, d "n2"%string (rev eight) (bs "PLAY")); (bs "PLAY", 4, bs "Basic dTpw"); (bs "PAUSE", 5, bs "Basic dTpw"); (bs "TEARDOWN", 6, bs "Basic dTpw")].
Proof.
  assert (P : option_map (fun g => (y_fate (g_y g), map (fun r => (q_verb r, q_cseq r, q_auth r)) (sent_requests (w_log (y_w (g_y g)))))) (gperform (media_in one_feed) true first_scene the_run) =
    let d nonce rnd verb := credentials (bs "rtsp://h/s") (bs "u") (bs "p") rnd (digest nonce) verb in
    Some (Returns, [(bs "OPTIONS", 1, []); (bs "OPTIONS", 1, bs "Basic dTpw"); (bs "DESCRIBE", 2, bs "Basic dTpw"); (bs "SETUP", 3, bs "Basic dTpw"); (bs "SETUP", 3, d "n1"%string eight (bs "SETUP"));
       (bs "SETUP", 3, d "n2"%string (rev eight) (bs "SETUP")); (bs "PLAY", 4, d "n2"%string (rev eight) (bs "PLAY")); (bs "PLAY", 4, bs "Basic dTpw"); (bs "PAUSE", 5, bs "Basic dTpw"); (bs "TEARDOWN", 6, bs "Basic dTpw")])) by (vm_compute; reflexivity).
  cbv zeta in *. splits; [vm_compute; discriminate|let m := eval vm_compute in (media_in one_feed) in change (media_in one_feed) with m; repeat (apply Forall_cons; [vm_compute; reflexivity|]); constructor|vm_compute; reflexivity|vm_compute; reflexivity|vm_compute; reflexivity|].
  destruct (gperform (media_in one_feed) true first_scene the_run) as [g|] eqn:E; [|discriminate P]. exists g. cbn [option_map] in P.
  split; [|split; congruence]. apply gperform_run; [|exact E]. clear. unfold the_run.
  repeat (apply Forall_cons; [first [exact I|split; exact I|apply basic_asks; lia|apply digest_asks; [lia|tauto]|idtac]|]); [..|constructor]; cbn [gallowed].
  - ans.
  - ans.
  - ans. apply (channels_named 0); [lia|vm_compute; reflexivity].
  - ans.
  - ans.
  - ans.
Qed.

(* With two streams the SETUPs are sent one behind the other.  Asked for credentials at both, the client repeats the first twice, with
   the number of the second, and the second not at all; the server answers what it got, and then nobody has anything to do. *)
Definition both_asked : list gevent :=
  [GAnswer 1 (ok_resp 1 [] []); turn; GAnswer 2 (ok_resp 2 [] two_feeds); turn; ask 3 basic; ask 4 basic; turn; turn;
   GAnswer 4 (ok_resp 4 [transport_field "RTP/AVP/TCP;interleaved=0-1"] []); turn].
Theorem C116_setups_refuted : exists g, grun (media_in two_feeds) false first_scene both_asked g /\ y_fate (g_y g) = Goes /\ ~ gowed g /\ ~ gmoves g /\
  map (fun r => (q_verb r, q_cseq r, q_uri r)) (sent_requests (w_log (y_w (g_y g)))) =
    [(bs "OPTIONS", 1, bs "rtsp://h/s"); (bs "DESCRIBE", 2, bs "rtsp://h/s"); (bs "SETUP", 3, bs "rtsp://h/s/track1"); (bs "SETUP", 4, bs "rtsp://h/s/track2");
     (bs "SETUP", 4, bs "rtsp://h/s/track1"); (bs "SETUP", 4, bs "rtsp://h/s/track1")].
Proof.
  assert (P : option_map (fun g => let y := g_y g in (y_fate y, map (fun r => (q_verb r, q_cseq r, q_uri r)) (sent_requests (w_log (y_w y))), numbers_sent y, g_done g, g_asked g, (w_in (y_w y), y_stage y, y_data y, c_running (y_c y), c_ticked (y_c y))))
    (gperform (media_in two_feeds) false first_scene both_asked) = Some (Goes, [(bs "OPTIONS", 1, bs "rtsp://h/s"); (bs "DESCRIBE", 2, bs "rtsp://h/s"); (bs "SETUP", 3, bs "rtsp://h/s/track1"); (bs "SETUP", 4, bs "rtsp://h/s/track2");
     (bs "SETUP", 4, bs "rtsp://h/s/track1"); (bs "SETUP", 4, bs "rtsp://h/s/track1")], [1; 2; 3; 4; 4; 4], [4; 2; 1], [3; 4], ([], None, [], false, false))) by (vm_compute; reflexivity).
  destruct (gperform (media_in two_feeds) false first_scene both_asked) as [g|] eqn:E; [|discriminate P]. exists g. cbn [option_map] in P. cbv zeta in P.
  injection P as F V N D A WI St Da Ru Ti. splits; [|exact F| | |exact V].
  - apply gperform_run; [|exact E]. unfold both_asked. repeat (apply Forall_cons; [first [exact I|apply basic_asks; lia|idtac]|]); [..|constructor]; cbn [gallowed].
    + ans.
    + ans.
    + ans. apply (channels_named 0); [lia|vm_compute; reflexivity].
  - clear E. intros (r & Ir & Nr & Tr). apply (in_map q_cseq) in Ir. fold (numbers_sent (g_y g)) in Ir. rewrite N, A in Tr. rewrite N in Ir. rewrite D in Nr.
    destruct Ir as [X|[X|[X|[X|[X|[X|[]]]]]]]; rewrite <- X in Nr, Tr; try (apply Nr; cbn; tauto). vm_compute in Tr. lia.
  - clear E. intros (e & y' & T & S). unfold ystep in S. rewrite F in S. destruct e as [t1 t2| | | |]; [apply T; [reflexivity|exact WI]|rewrite St in S|rewrite Da in S|rewrite Ti in S|rewrite Ru in S]; discriminate S.
Qed.
Print Assumptions C116_setups_refuted.
