(* C145: the streams of a presentation are one session. *)
From Coq Require Import String Permutation.
From Verif Require Import Base GoStrings M_conn M_message M_transport M_sdp M_session S_session S_message S_handshake S_aggregate S_onesession
  L_base L_strings L_message L_handshake P_message P_home P_handshake L_onesession.
From Coq Require Import ZifyBool ZifyNat.

(* Full statement: the session that PLAY names is the session of every stream that was set up, with a server that begins a session for
   each SETUP request that names none (RFC 2326 10.4, 12.37). *)

(* No SETUP request names a session: what is sent of it is the same whichever the session is... *)
Theorem C145_unnamed_refuted : forall n uri auth id id' header order,
  pack_request (mkReq (bs "SETUP") n uri auth id header) order = pack_request (mkReq (bs "SETUP") n uri auth id' header) order.
Proof.
  intros n uri auth id id' header order. unfold pack_request. cbn [q_verb q_cseq q_uri q_auth q_session].
  replace (beq (bs "SETUP") (bs "SETUP")) with true by reflexivity. rewrite !andb_false_r. reflexivity.
Qed.
Print Assumptions C145_unnamed_refuted.

(* ...and no SETUP request of any history, read by the server, has a field of that name. *)
Theorem C145_field_refuted : forall proto user uri input writes listens rand es w' l' again rq order,
  M_session.run (mkW (dialled proto user uri) input writes listens rand [], Live) es = (w', l') -> In (Sent again rq) (w_log w') -> q_verb rq = bs "SETUP" ->
  Permutation (q_header rq) order -> line_text (q_uri rq) -> line_text (q_session rq) -> line_text (q_auth rq) -> Forall field_ok (q_header rq) ->
  exists first fields, read_message (pack_request rq order) = Some (first, fields, []) /\
    Forall (fun e => same_name (fst e) (bs "Session") = false) fields.
Proof.
  intros proto user uri input writes listens rand es w' l' again rq order R I V P U Se A F.
  destruct (C53_request rq order P) as (middle & E & PM); try assumption. { rewrite V. split; intros X; repeat (destruct X as [X|X]; [discriminate X|]); destruct X. }
  exists (q_verb rq ++ bs " " ++ q_uri rq ++ bs " RTSP/1.0"), ((bs "CSeq", itoa (q_cseq rq)) :: middle). split; [exact E|]. constructor; [reflexivity|].
  eapply Permutation_Forall; [symmetry; exact PM|]. rewrite V.
  replace (beq (q_session rq) [] || beq (bs "SETUP") (bs "OPTIONS") || beq (bs "SETUP") (bs "SETUP")) with true by (symmetry; apply orb_true_iff; right; reflexivity).
  pose proof (C120_kinds _ _ _ _ _ _ _ _ _ _ _ _ R I) as K. apply Forall_app. split; [|apply Forall_app; split; [constructor|apply Forall_app; split]].
  - destruct K as [n a i|n a i k|n a i|n a i c t|v n a i O]; cbn [q_verb] in V; try discriminate V; cbn [q_header].
    + constructor; [reflexivity|constructor].
    + destruct O as [-> |[-> | ->]]; discriminate V.
  - destruct (beq (q_auth rq) []); [constructor|]. constructor; [reflexivity|constructor].
  - constructor; [reflexivity|constructor; [reflexivity|constructor]].
Qed.
Print Assumptions C145_field_refuted.

(* With a server that begins a session for each of them, PLAY names the session of the stream whose answer came last, and of no other:
   of several streams only one is played, in every conversation. *)
Theorem C145_play_refuted : forall user uri rnd ms ropt rdesc rsets items clocks first rounds rest,
  opening_ok ms ropt rdesc rsets -> with_noise (ropt :: rdesc :: rsets) items -> Forall item_ok items -> length clocks = length items ->
  rounds_ok (3 + zlen ms) (first :: rounds) -> zlen (first :: rounds) < 2 ^ 62 -> r_order first = Play ->
  Forall (fun r => field_of_item r (bs "Session") <> []) rsets -> NoDup (map session_of rsets) ->
  exists w' rq, M_session.run (mkW (dialled ProtoTCP user uri) (flat_map item_stream (items ++ flat_map r_items (first :: rounds)) ++ rest) [] [] rnd [], Live)
                 ((App COptions :: turns_at clocks) ++ flat_map round_events (first :: rounds)) = (w', Live) /\
    nth_error (sent_requests (w_log w')) (2 + length ms) = Some rq /\ q_verb rq = bs "PLAY" /\
    (forall i r, nth_error rsets i = Some r -> (q_session rq = session_of r <-> S i = length ms)).
Proof.
  intros user uri rnd ms ropt rdesc rsets items clocks first rounds rest O W K L R B P F N.
  destruct (play_session user uri rnd ms ropt rdesc rsets items clocks first rounds rest O W K L R B P F) as (w' & rq & a & r0 & E & Q & V & -> & LR & X).
  exists w', rq. splits; try assumption. intros i r I. rewrite X, <- LR. exact (nodup_last a r0 i r N I).
Qed.
Print Assumptions C145_play_refuted.

(* With a server that puts all streams into one session nevertheless, PLAY names it. *)
Theorem C145_partial : forall user uri rnd ms ropt rdesc rsets items clocks first rounds rest id,
  opening_ok ms ropt rdesc rsets -> with_noise (ropt :: rdesc :: rsets) items -> Forall item_ok items -> length clocks = length items ->
  rounds_ok (3 + zlen ms) (first :: rounds) -> zlen (first :: rounds) < 2 ^ 62 -> r_order first = Play ->
  Forall (fun r => field_of_item r (bs "Session") <> [] /\ session_of r = id) rsets ->
  exists w' rq, M_session.run (mkW (dialled ProtoTCP user uri) (flat_map item_stream (items ++ flat_map r_items (first :: rounds)) ++ rest) [] [] rnd [], Live)
                 ((App COptions :: turns_at clocks) ++ flat_map round_events (first :: rounds)) = (w', Live) /\
    nth_error (sent_requests (w_log w')) (2 + length ms) = Some rq /\ q_verb rq = bs "PLAY" /\ q_session rq = id.
Proof.
  intros user uri rnd ms ropt rdesc rsets items clocks first rounds rest id O W K L R B P F.
  destruct (play_session user uri rnd ms ropt rdesc rsets items clocks first rounds rest O W K L R B P) as (w' & rq & a & r0 & E & Q & V & -> & LR & X).
  { eapply Forall_impl; [|exact F]. intros r X. apply X. }
  exists w', rq. splits; try assumption. rewrite X. apply Forall_app in F as (_ & F). apply Forall_inv in F. apply F.
Qed.
Print Assumptions C145_partial.

(* two streams, two sessions: PLAY names the second *)
Definition sessions_items : list item :=
  [ok_resp 1 [] []; ok_resp 2 [] two_feeds;
   ok_resp 3 [field (bs "Session") (bs "A1"); field (bs "Transport") (bs "RTP/AVP/TCP;interleaved=0-1")] [];
   ok_resp 4 [field (bs "Session") (bs "B2;timeout=60"); field (bs "Transport") (bs "RTP/AVP/TCP;interleaved=2-3")] []].
Example C145_case :
  let '(w', l) := M_session.run (mkW (dialled ProtoTCP None (bs "rtsp://h/s")) (flat_map item_stream sessions_items) [] [] [] [], Live)
    ((App COptions :: turns_at (repeat (0, 0) 4)) ++ [App CPlay]) in
  l = Live /\ map (fun q => (q_verb q, existsb (fun e => same_name (fst e) (bs "Session")) (match read_message (pack_request q (q_header q)) with Some (_, f, _) => f | None => [] end))) (sent_requests (w_log w')) =
    [(bs "OPTIONS", false); (bs "DESCRIBE", false); (bs "SETUP", false); (bs "SETUP", false); (bs "PLAY", true)] /\
  option_map q_session (nth_error (sent_requests (w_log w')) 4) = Some (bs "B2") /\
  map session_of (skipn 2 sessions_items) = [bs "A1"; bs "B2"].
Proof. vm_compute. splits; reflexivity. Qed.
