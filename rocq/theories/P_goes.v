(* Property C161: a session goes on while the server answers what it is asked. *)
From Coq Require Import String.
From Verif Require Import Base GoStrings S_bits S_sps S_spsrel M_conn S_message M_message M_transport M_sdp M_sps M_digest M_session S_session S_handshake S_goes L_base L_sps L_spsdec L_frames L_goes P_sps.

(* Over the connection or over UDP, whatever the application asks for and whenever, however the clock goes: if every response that arrives
   answers a request that has not been answered, and what it carries can be read, the loop goes on for ever, and everything that arrives is
   taken, one item in each turn, and heard of. *)
Theorem C161_goes_on : forall proto user uri rnd items rest es,
  proto <> ProtoHTTP -> Forall item_ok items ->
  let w := mkW (dialled proto user uri) (flat_map item_stream items ++ rest) [] [] rnd [] in
  fair_play user uri items w es ->
  exists w', M_session.run (w, Live) es = (w', Live) /\ w_in w' = flat_map item_stream (skipn (turns es) items) ++ rest /\
    heard_all (firstn (turns es) items) (incoming (w_log w')).
Proof.
  intros proto user uri rnd items rest es NP IO w F. destruct (history_goes proto user uri rnd items rest NP IO es F) as (w' & R & _).
  destruct (run_items es items rest w Live w' Live IO (fair_turns _ _ _ _ _ F) eq_refl R) as (j & effs & _ & E & H & I & J). rewrite (J eq_refl) in E, H.
  exists w'. splits; [exact R|exact E|]. rewrite I. exact H.
Qed.
Print Assumptions C161_goes_on.

(* The parameter sets of C26 and C29 can be read, whatever sets are known. *)
Theorem C161_sets : forall m y z t rest1 rest2 h1 b1 h2 b2, m_sprops m = [h1 :: b1; h2 :: b2] -> Z.land h1 31 = 7 -> Z.land h2 31 = 8 -> buf_ok b1 -> buf_ok b2 ->
  sps_legal y -> profile_known (y_profile y) -> poc_readable (y_poc y) -> y_field y = None -> bits_of b1 = sps_bits y ++ rest1 ->
  z_tail z = Some t -> z_sps z = y_id y -> pps_legal (y_idc y) z -> groups_readable (z_groups z) -> bits_of b2 = pps_bits z ++ rest2 -> readable m.
Proof.
  intros m y z t rest1 rest2 h1 b1 h2 b2 M H1 H2 B1 B2 Ly Py Ry Fy E1 Tz Sz Lz Gz E2 known.
  destruct (C26_sps_fields_partial known y rest1 b1 Ly Py Ry Fy B1 E1) as (P1 & i & G1 & M1 & _).
  assert (C : pps_chroma (fst (parse_sps known b1)) z = y_idc y).
  { unfold pps_chroma. rewrite Sz, G1. destruct M1 as (_ & _ & _ & _ & MC & _). exact MC. }
  destruct (C29_pps_fields_partial (fst (parse_sps known b1)) z t rest2 b2 Tz ltac:(rewrite C; exact Lz) Gz B2 E2) as (P2 & _).
  rewrite M. cbn [parse_sprops]. unfold parse_sprop. rewrite H1, H2. change (7 =? 7) with true. change (8 =? 7) with false. change (8 =? 8) with true. cbv iota.
  destruct (parse_sps known b1) as [s1 o1]. cbn [snd fst] in *. subst o1. destruct (parse_pps s1 b2) as [s2 o2]. cbn [snd] in *. subst o2. reflexivity.
Qed.
Print Assumptions C161_sets.

(* A session over UDP: a challenge, two streams of which one is refused, Play meanwhile and again, keep-alives one of which is answered. *)
Definition reply (code : Z) (reason : string) (fields : list (string * string)) (body : bytes) : item :=
  Resp code (bs reason) (map (fun f => mkField (bs (fst f)) (bs " ") (bs (snd f))) fields) body.
Definition two_streams : bytes := bs "v=0" ++ [13; 10] ++ bs "m=video 0 RTP/AVP 96" ++ [13; 10] ++ bs "a=control:one" ++ [13; 10] ++ bs "m=video 0 RTP/AVP 96" ++ [13; 10] ++ bs "a=control:two" ++ [13; 10].
Example C161_case :
  let items := [reply 401 "Unauthorized" [("CSeq", "1"); ("WWW-Authenticate", "Digest realm=""x"", nonce=""y""")] [];
                reply 200 "OK" [("CSeq", "1")] []; Quiet;
                reply 200 "OK" [("CSeq", "2"); ("Content-Length", "79")] two_streams;
                reply 404 "Not Found" [("CSeq", "4")] [];
                reply 200 "OK" [("CSeq", "3"); ("Session", "1F"); ("Transport", "RTP/AVP;unicast;client_port=50000-50001")] [];
                Frame 0 [128; 96]; reply 455 "Method Not Valid in This State" [("CSeq", "5")] []; reply 200 "OK" [("CSeq", "6")] []; reply 200 "OK" [("CSeq", "7")] []]%string in
  let w := mkW (dialled ProtoUnicast (Some (bs "u", bs "p")) (bs "rtsp://h/s")) (flat_map item_stream items) [] [] [] [] in
  let '(w', l) := M_session.run (w, Live) [App COptions; Turn 0 0; Turn 0 0; Turn 0 0; Turn 0 0; App CPlay; Turn 0 0; Turn 0 0; Turn 5000000000 5000000000; Turn 6000000000 6000000000; App CPlay; Turn 6000000000 6000000000; Turn 6500000000 6500000000] in
  zlen two_streams = 79 /\ l = Live /\ w_in w' = [] /\ stages (w_log w') = [1; 2] /\ map (fun q => (q_cseq q, q_verb q)) (sent_requests (w_log w')) =
    [(1, bs "OPTIONS"); (1, bs "OPTIONS"); (2, bs "DESCRIBE"); (3, bs "SETUP"); (4, bs "SETUP"); (5, bs "PLAY"); (6, bs "OPTIONS"); (7, bs "PLAY")].
Proof. vm_compute. repeat split. Qed.
(* the hypotheses of the theorem, for a shorter one: the description is refused *)
Example C161_fair : let items := [reply 200 "OK" [("CSeq", "1")] []; Quiet; reply 404 "Not Found" [("CSeq", "2")] []]%string in
  fair_play None (bs "rtsp://h/s") items (mkW (dialled ProtoMulticast None (bs "rtsp://h/s")) (flat_map item_stream items) [] [] [] []) [App COptions; Turn 0 0; App CPlay; Turn 1 1; Turn 2 2].
Proof.
  assert (T : transport_text_ok []) by (intros t; reflexivity).
  intros items before t1 t2 after w1 l1 E R. destruct before as [|e1 before]; [discriminate|]. injection E as <- E. destruct before as [|e2 before].
  { injection E as <- <- <-. exists (reply 200 "OK" [("CSeq"%string, "1"%string)] []). split; [reflexivity|]. cbn [fair reply]. splits; try congruence; [|exact T].
    exists 1. splits; [lia|lia| |reflexivity]. injection R as <- _. exists []. do 3 eexists. splits; [reflexivity|reflexivity|intros r []]. }
  injection E as <- E. destruct before as [|e3 before]; [discriminate|]. injection E as <- E. destruct before as [|e4 before].
  { exists Quiet. split; reflexivity || exact I. }
  injection E as <- E. destruct before as [|e5 before]; [|destruct before; discriminate].
  injection E as <- <- <-. exists (reply 404 "Not Found" [("CSeq"%string, "2"%string)] []). split; [reflexivity|]. cbn [fair reply]. splits; try congruence; [|exact T].
  exists 2. splits; [lia|lia| |reflexivity]. vm_compute in R. injection R as <- _. eexists [_; _]. do 3 eexists. splits; [reflexivity|reflexivity|]. intros r H. cbn in H. destruct H as [H|[]]. discriminate.
Qed.
