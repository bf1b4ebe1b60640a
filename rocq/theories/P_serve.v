(* Property C97: the whole program with a server that grants what it is asked for. *)
From Coq Require Import String.
From Verif Require Import Base GoStrings S_rtp S_nal M_nal M_conn S_message M_message M_transport M_sdp M_session S_session S_handshake M_main S_main S_serve
  L_base L_annexb L_nal L_handshake L_serve.
From Coq Require Import ZifyBool.

(* In every execution the client goes through its agenda, in order and with the numbers 1, 2, 3, ...; it ends in one way only: by
   itself, when all of it is done and answered. *)
Theorem C97_agenda : forall user uri rnd (ms : list media) (es : list xevent) (x : scene), ms <> [] -> Forall sets_ok ms ->
  xrun ms (mkX (launch (mkW (dialled ProtoTCP user uri) [] [] [] rnd [])) []) es x ->
  verbs_sent (x_y x) = firstn (length (verbs_sent (x_y x))) (agenda ms) /\ numbers_sent (x_y x) = map Z.of_nat (seq 1 (length (verbs_sent (x_y x)))) /\
  y_loop (x_y x) = Live /\ (y_fate (x_y x) = Goes \/ y_fate (x_y x) = Returns /\ verbs_sent (x_y x) = agenda ms /\ ~ owed x).
Proof.
  intros user uri rnd ms es x Ne So R. destruct (run_inv _ user uri rnd _ _ _ R Ne So _ (inv_start ms user uri rnd)) as (w & I & _).
  destruct (inv_orderly _ _ _ _ _ _ I) as (A & B & C & D). splits; try assumption. destruct D as [D|(D & E & _)]; [left; exact D|right]. splits; try assumption. eapply inv_settled; eauto.
Qed.
Print Assumptions C97_agenda.

(* What it asks for, with the URIs and the fields: the base URI, for SETUP the one of the stream with the channels offered for it. *)
Theorem C97_requests : forall user uri rnd (ms : list media) (es : list xevent) (x : scene), ms <> [] -> Forall sets_ok ms ->
  xrun ms (mkX (launch (mkW (dialled ProtoTCP user uri) [] [] [] rnd [])) []) es x ->
  wishes (x_y x) = firstn (length (wishes (x_y x))) (plan uri ms) /\ Forall (fun r => q_auth r = []) (sent_requests (w_log (y_w (x_y x)))).
Proof.
  intros user uri rnd ms es x Ne So R. destruct (run_inv _ user uri rnd _ _ _ R Ne So _ (inv_start ms user uri rnd)) as (w & I & _). eapply inv_plan; eauto.
Qed.
Print Assumptions C97_requests.

(* As long as it has not ended, it can do something, or it waits for an answer the server owes. *)
Theorem C97_goes_on : forall user uri rnd (ms : list media) (es : list xevent) (x : scene), ms <> [] -> Forall sets_ok ms ->
  xrun ms (mkX (launch (mkW (dialled ProtoTCP user uri) [] [] [] rnd [])) []) es x -> y_fate (x_y x) = Goes -> owed x \/ can_move x.
Proof.
  intros user uri rnd ms es x Ne So R F. destruct (run_inv _ user uri rnd _ _ _ R Ne So _ (inv_start ms user uri rnd)) as (w & I & _). eapply inv_moves; eauto.
Qed.
Print Assumptions C97_goes_on.

(* And it does not go on for ever: apart from frames and silences, and two events for each of them, there are at most 20 events and
   two for each stream. *)
Theorem C97_ends : forall user uri rnd (ms : list media) (es : list xevent) (x : scene), ms <> [] -> Forall sets_ok ms ->
  xrun ms (mkX (launch (mkW (dialled ProtoTCP user uri) [] [] [] rnd [])) []) es x -> proper es <= 20 + 2 * zlen ms + 2 * noises es.
Proof.
  intros user uri rnd ms es x Ne So R. destruct (run_inv _ user uri rnd _ _ _ R Ne So _ (inv_start ms user uri rnd)) as (w & I & L). apply inv_pos in I. lia.
Qed.
Print Assumptions C97_ends.

(* Two streams, their SETUPs answered in reverse order, a frame of each kind and a silence. *)
Definition field (k v : bytes) : sfield := mkField k [32] v.
Definition ok_resp (n : Z) (more : list sfield) (body : bytes) : item :=
  Resp 200 (bs "OK") (field (bs "CSeq") (itoa n) :: more ++ (match body with [] => [] | _ => [field (bs "Content-Length") (itoa (zlen body))] end)) body.
Definition body_of (lines : list bytes) : bytes := flat_map (fun l => l ++ [13; 10]) lines.
Definition two_feeds : bytes := body_of [bs "v=0"; bs "m=video 0 RTP/AVP 96"; bs "a=control:track1"; bs "m=audio 0 RTP/AVP 0"; bs "m=video 0 RTP/AVP 97"; bs "a=control:rtsp://h/t2"].
Definition two_media : list media := match sdp_parse two_feeds with Ok ms => ms | _ => [] end.
Example C97_plan : plan (bs "rtsp://h/s") two_media =
  [(bs "OPTIONS", bs "rtsp://h/s", []); (bs "DESCRIBE", bs "rtsp://h/s", [(bs "Accept", bs "application/sdp")]);
   (bs "SETUP", bs "rtsp://h/s/track1", [(bs "Transport", bs "RTP/AVP/TCP;interleaved=0-1")]); (bs "SETUP", bs "rtsp://h/t2", [(bs "Transport", bs "RTP/AVP/TCP;interleaved=2-3")]);
   (bs "PLAY", bs "rtsp://h/s", []); (bs "PAUSE", bs "rtsp://h/s", []); (bs "TEARDOWN", bs "rtsp://h/s", [])].
Proof. vm_compute. reflexivity. Qed.
Definition transport_field (v : string) : sfield := field (bs "Transport") (bs v).
Definition picture : bytes := rtp_layout (mkRtpH false true 96 1 2 3 [] None) [101; 1; 2].
Definition turn := XClient (YTurn 0 0).
Definition the_run : list xevent :=
  [XAnswer 1 (ok_resp 1 [] []); turn; XAnswer 2 (ok_resp 2 [] two_feeds); turn;
   XAnswer 4 (ok_resp 4 [transport_field "RTP/AVP/TCP;interleaved=2-3"] []); XAnswer 3 (ok_resp 3 [transport_field "RTP/AVP/TCP;interleaved=0-1"] []); turn; turn; XClient YStage;
   XNoise Quiet; turn; XNoise (Frame 0 picture); XAnswer 5 (ok_resp 5 [] []); turn; turn; XClient YStage; XClient YPacket; XClient YExpire; XClient YTick;
   XNoise (Frame 1 [128; 201; 0; 1; 0; 0; 0; 7]); turn; XAnswer 6 (ok_resp 6 [] []); XClient YPacket; turn; XClient YStage; XClient YExpire; XClient YTick;
   XAnswer 7 (ok_resp 7 [] []); turn; XClient YStage; XClient YExpire; XClient YTick].
Definition first_scene : scene := mkX (launch (mkW (dialled ProtoTCP None (bs "rtsp://h/s")) [] [] [] [] [])) [].
Ltac ans := apply answer_fits; [vm_compute; reflexivity|intros X; first [vm_compute in X; discriminate X|clear X; split; [vm_compute; discriminate|vm_compute; reflexivity]]|
  intros X; first [vm_compute in X; discriminate X|clear X]].
Example C97_case : two_media <> [] /\ Forall sets_ok two_media /\ proper the_run = 29 /\ noises the_run = 3 /\
  exists x, xrun two_media first_scene the_run x /\ y_fate (x_y x) = Returns /\
    verbs_sent (x_y x) = [bs "OPTIONS"; bs "DESCRIBE"; bs "SETUP"; bs "SETUP"; bs "PLAY"; bs "PAUSE"; bs "TEARDOWN"].
Proof.
  assert (P : option_map (fun x => (y_fate (x_y x), verbs_sent (x_y x))) (perform two_media first_scene the_run) =
    Some (Returns, [bs "OPTIONS"; bs "DESCRIBE"; bs "SETUP"; bs "SETUP"; bs "PLAY"; bs "PAUSE"; bs "TEARDOWN"])) by (vm_compute; reflexivity).
  splits; [vm_compute; discriminate|let m := eval vm_compute in two_media in change two_media with m; repeat (apply Forall_cons; [vm_compute; reflexivity|]); constructor|vm_compute; reflexivity|vm_compute; reflexivity|].
  destruct (perform two_media first_scene the_run) as [x|] eqn:E; [|discriminate P]. exists x. cbn [option_map] in P.
  split; [|split; congruence]. apply perform_run; [|exact E]. clear. unfold the_run.
  repeat (apply Forall_cons; [first [exact I|idtac]|]); [..|constructor].
  all: cbn [allowed].
  - ans.
  - ans.
  - ans. apply (channels_named 2); [lia|vm_compute; reflexivity].
  - ans. apply (channels_named 0); [lia|vm_compute; reflexivity].
  - split; exact I.
  - split; [vm_compute; repeat split; discriminate|]. split; [vm_compute; repeat constructor; discriminate|].
    change (exists h payload, rtp_legal h /\ picture = rtp_layout h payload /\ forall s ts, 0 <= s_don s < 2 ^ 16 -> snd (push s payload ts) = Ok tt). exists (mkRtpH false true 96 1 2 3 [] None), [101; 1; 2].
    split; [unfold rtp_legal, word; cbn; splits; try lia; constructor|]. split; [reflexivity|]. intros s ts Hs. rewrite push_plain by (split; intros (a & b & E); do 4 (destruct a as [|? a]; cbn in E; try discriminate E)).
    rewrite parse_single; [reflexivity|unfold byte_ok; lia|vm_compute; auto].
  - ans.
  - split; [vm_compute; repeat split; discriminate|]. split; [vm_compute; repeat constructor; discriminate|]. cbn. split; [discriminate|]. split; [exists 128, [201; 0; 1; 0; 0; 0; 7]; split; reflexivity|].
    intros (a & r & E & _). discriminate E.
  - ans.
  - ans.
Qed.

(* The condition that there is a video stream is needed: with none the program stops in the middle, nobody has anything to do. *)
Definition no_video : bytes := body_of [bs "v=0"; bs "m=audio 0 RTP/AVP 0"].
Definition short_run : list xevent := [XAnswer 1 (ok_resp 1 [] []); turn; XAnswer 2 (ok_resp 2 [] no_video); turn].
Theorem C97_no_video : exists x, xrun [] first_scene short_run x /\ y_fate (x_y x) = Goes /\ verbs_sent (x_y x) = [bs "OPTIONS"; bs "DESCRIBE"] /\ ~ owed x /\ ~ can_move x.
Proof.
  assert (P : option_map (fun x => let y := x_y x in (y_fate y, verbs_sent y, numbers_sent y, x_done x, (w_in (y_w y), y_stage y, y_data y, c_running (y_c y), c_ticked (y_c y))))
    (perform [] first_scene short_run) = Some (Goes, [bs "OPTIONS"; bs "DESCRIBE"], [1; 2], [2; 1], ([], None, [], false, false))) by (vm_compute; reflexivity).
  destruct (perform [] first_scene short_run) as [x|] eqn:E; [|discriminate P]. exists x. cbn [option_map] in P. cbv zeta in P.
  injection P as F V N D WI St Da Ru Ti. splits; [|exact F|exact V| |].
  - apply perform_run; [|exact E]. unfold short_run. repeat (apply Forall_cons; [first [exact I|idtac]|]); [..|constructor]; cbn [allowed].
    all: ans.
  - clear E. intros (r & Ir & Nr). apply Nr. rewrite D. apply (in_map q_cseq) in Ir. fold (numbers_sent (x_y x)) in Ir. rewrite N in Ir. cbn [In] in *. tauto.
  - clear E. intros (e & y' & T & S). unfold ystep in S. rewrite F in S. destruct e as [t1 t2| | | |]; [apply T; [reflexivity|exact WI]|rewrite St in S|rewrite Da in S|rewrite Ti in S|rewrite Ru in S]; discriminate S.
Qed.
Print Assumptions C97_no_video.
