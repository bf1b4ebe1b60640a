(* Properties C100-C103: what stops a session, and what it does not tell. *)
From Coq Require Import String.
From Verif Require Import Base GoStrings S_digest M_conn S_message M_message M_transport M_sdp M_session S_session S_handshake S_auth M_main S_refuse
  L_base L_message L_handshake L_refuse.
From Coq Require Import ZifyBool.

(* ---- C100  full statement: a response is received whatever the length of its content ---- *)
(* Not one content longer than 2048 bytes is: the loop ends, nothing is logged, the content stays unread. *)
Theorem C100_long_refuted : forall (w : world) (code : Z) (reason : bytes) (fields : list sfield) (body : bytes) (rest : stream) (t1 t2 : Z),
  s_conn (w_s w) = true -> s_proto (w_s w) = ProtoTCP ->
  100 <= code <= 999 -> line_text reason -> Forall sfield_ok fields -> content_ok fields body -> 2048 < zlen body < 2 ^ 63 ->
  w_in w = sent (response_text (bs "RTSP/1.0") code reason fields body) ++ rest ->
  step (w, Live) (Turn t1 t2) = (upd_in w (sent body ++ rest), NoLoop).
Proof.
  intros w code reason fields body rest t1 t2 C P K R F B L E. pose proof (long_body code reason fields body rest K R F B L) as U.
  revert E U. unfold response_text. change (bs "RTSP/1.0") with (82 :: bs "TSP/1.0"). cbn [app]. rewrite L_frames.sent_cons. cbn [app]. intros E U.
  eapply unread_stops; [exact C|exact P|exact E|discriminate|exact U|reflexivity].
Qed.
Print Assumptions C100_long_refuted.

(* Up to that it is received and handled. *)
Theorem C100_fits_partial : forall (w : world) (code : Z) (reason : bytes) (fields : list sfield) (body : bytes) (rest : stream) (t1 t2 : Z),
  s_conn (w_s w) = true -> s_proto (w_s w) = ProtoTCP -> item_ok (Resp code reason fields body) ->
  w_in w = sent (response_text (bs "RTSP/1.0") code reason fields body) ++ rest ->
  exists r, p_code r = code /\ p_body r = (match body with [] => None | _ => Some body end) /\
    forall w1, handle_response (upd_in w rest) r = (w1, Ok tt) -> step (w, Live) (Turn t1 t2) = (w1, Live).
Proof.
  intros w code reason fields body rest t1 t2 C P K E. destruct (resp_step w _ rest C P K ltac:(intros []) E) as (r & (T1 & T2 & _) & H).
  exists r. splits; [exact T1|exact T2|]. intros w1 HR. unfold step. rewrite H, HR. reflexivity.
Qed.
Print Assumptions C100_fits_partial.

Definition field (k v : bytes) : sfield := mkField k [32] v.
Definition describing (n : Z) : world := (* DESCRIBE has been sent; a description with a comment of n bytes arrives *)
  let body := bs "v=0" ++ [13; 10] ++ bs "i=" ++ repeat 97 (Z.to_nat n) ++ [13; 10] ++ bs "m=video 0 RTP/AVP 96" ++ [13; 10] ++ bs "a=control:t" ++ [13; 10] in
  let resp m body := item_stream (Resp 200 (bs "OK") (field (bs "CSeq") (itoa m) :: match body with [] => [] | _ => [field (bs "Content-Length") (itoa (zlen body))] end) body) in
  fst (M_session.run (mkW (dialled ProtoTCP None (bs "rtsp://h/s")) (resp 1 [] ++ resp 2 body) [] [] [] [], Live) [App COptions; Turn 0 0]).
Example C100_case : (let '(w, l) := step (describing 2005, Live) (Turn 0 0) in l = NoLoop /\ w_log w = w_log (describing 2005)) /\
  (let '(w, l) := step (describing 2004, Live) (Turn 0 0) in l = Live /\ map q_verb (sent_requests (w_log w)) = [bs "OPTIONS"; bs "DESCRIBE"; bs "SETUP"]).
Proof. vm_compute. repeat split. Qed.

(* ---- C101  full statement: of the schemes a server offers, Digest is taken if it is among them ---- *)
(* It is the last offer that is taken. *)
Theorem C101_last : forall (w : world) (n : Z) (req : request) (reason : bytes) (fields : list sfield) (body : bytes) (rest : stream) (user pass : bytes) (others : list bytes) (c : challenge) (t1 t2 : Z),
  s_conn (w_s w) = true -> s_proto (w_s w) = ProtoTCP -> w_writes w = [] -> s_user (w_s w) = Some (user, pass) ->
  item_ok (Resp 401 reason fields body) -> 0 <= n < 2 ^ 63 -> field_value fields (bs "CSeq") = itoa n -> qget (s_queue (w_s w)) n = Some req ->
  offers fields = others ++ [asking_text c] -> challenge_ok c -> w_in w = item_stream (Resp 401 reason fields body) ++ rest ->
  exists w' r rq, step (w, Live) (Turn t1 t2) = (w', Live) /\ w_log w' = w_log w ++ [Got r; Sent true rq] /\ q_verb rq = q_verb req /\ q_uri rq = q_uri req /\
    q_auth rq = credentials (s_uri (w_s w)) user pass (hd [] (w_rand w)) c (q_verb req).
Proof.
  intros w n req reason fields body rest user pass others c t1 t2 C P W U K B A Q O CO E.
  destruct (offer_answered w n req 401 reason fields body rest user pass others c C P W U K eq_refl B A Q O CO E) as (w' & r & rq & T & _ & L & _ & _ & V & R & X).
  exists w', r, rq. unfold step. rewrite T. auto.
Qed.
Print Assumptions C101_last.

(* So if Basic comes last, the password is sent as it is, whatever Digest challenges came before. *)
Theorem C101_basic_refuted : forall (w : world) (n : Z) (req : request) (reason : bytes) (fields : list sfield) (body : bytes) (rest : stream) (user pass : bytes) (strong : challenge) (weak : list aitem) (t1 t2 : Z),
  s_conn (w_s w) = true -> s_proto (w_s w) = ProtoTCP -> w_writes w = [] -> s_user (w_s w) = Some (user, pass) ->
  item_ok (Resp 401 reason fields body) -> 0 <= n < 2 ^ 63 -> field_value fields (bs "CSeq") = itoa n -> qget (s_queue (w_s w)) n = Some req ->
  ch_basic strong = false -> challenge_ok strong -> offers fields = [asking_text strong; asking_text (mkChallenge true weak)] -> challenge_ok (mkChallenge true weak) ->
  w_in w = item_stream (Resp 401 reason fields body) ++ rest ->
  exists w' r rq, step (w, Live) (Turn t1 t2) = (w', Live) /\ w_log w' = w_log w ++ [Got r; Sent true rq] /\ q_auth rq = bs "Basic " ++ b64_encode (user ++ bs ":" ++ pass).
Proof.
  intros w n req reason fields body rest user pass strong weak t1 t2 C P W U K B A Q _ _ O CO E.
  destruct (C101_last w n req reason fields body rest user pass [asking_text strong] (mkChallenge true weak) t1 t2 C P W U K B A Q O CO E) as (w' & r & rq & T & L & _ & _ & X).
  exists w', r, rq. splits; assumption.
Qed.
Print Assumptions C101_basic_refuted.

(* And if a scheme that is not known comes last, the session is over. *)
Theorem C101_unknown_refuted : forall (w : world) (n : Z) (req : request) (reason : bytes) (fields : list sfield) (body : bytes) (rest : stream) (others : list bytes) (v : bytes) (t1 t2 : Z),
  s_conn (w_s w) = true -> s_proto (w_s w) = ProtoTCP ->
  item_ok (Resp 401 reason fields body) -> 0 <= n < 2 ^ 63 -> field_value fields (bs "CSeq") = itoa n -> qget (s_queue (w_s w)) n = Some req ->
  offers fields = others ++ [v] -> (forall basic more, trim_space v <> scheme basic ++ more) -> w_in w = item_stream (Resp 401 reason fields body) ++ rest ->
  exists w' r, step (w, Live) (Turn t1 t2) = (w', NoLoop) /\ w_log w' = w_log w ++ [Got r].
Proof.
  intros w n req reason fields body rest others v t1 t2 C P K B A Q O N E.
  destruct (offer_unknown w n req 401 reason fields body rest others v C P K eq_refl B A Q O N E) as (w' & r & T & L). exists w', r. unfold step. rewrite T. auto.
Qed.
Print Assumptions C101_unknown_refuted.

(* three offers, in three orders *)
Definition strong_offer : bytes := bs "Digest realm=""r"", nonce=""n""".
Definition weak_offer : bytes := bs "Basic realm=""r""".
Definition other_offer : bytes := bs "Negotiate".
Definition after_offers (l : list bytes) : world * life :=
  step (M_session.run (mkW (dialled ProtoTCP (Some (bs "u", bs "p")) (bs "rtsp://h/s"))
    (item_stream (Resp 401 (bs "Unauthorized") (field (bs "CSeq") (bs "1") :: map (field (bs "WWW-Authenticate")) l) [])) [] [] [] [], Live) [App COptions]) (Turn 0 0).
Example C101_case :
  map (fun l => (snd (after_offers l) , map (fun r => firstn 6 (q_auth r)) (retransmissions (w_log (fst (after_offers l))))))
    [[other_offer; weak_offer; strong_offer]; [strong_offer; other_offer; weak_offer]; [strong_offer; weak_offer; other_offer]] =
  [(Live, [bs "Digest"]); (Live, [bs "Basic "]); (NoLoop, [])] /\
  strong_offer = asking_text (mkChallenge false [mkItem [] (bs "realm") (bs "r"); mkItem [32] (bs "nonce") (bs "n")]) /\ weak_offer = asking_text (mkChallenge true [mkItem [] (bs "realm") (bs "r")]).
Proof. vm_compute. repeat split. Qed.

(* ---- C102  full statement: a request the server makes (RFC 2326 10: ANNOUNCE, GET_PARAMETER, SET_PARAMETER, REDIRECT) does not end the session ---- *)
(* Every one does. *)
Theorem C102_server_request_refuted : forall (w : world) (verb uri : bytes) (fields : list sfield) (body : bytes) (rest : stream) (t1 t2 : Z),
  s_conn (w_s w) = true -> s_proto (w_s w) = ProtoTCP -> method verb -> line_text uri ->
  w_in w = sent (request_text verb uri fields body) ++ rest ->
  step (w, Live) (Turn t1 t2) = (upd_in w (sent (flat_map sfield_text fields ++ [13; 10] ++ body) ++ rest), NoLoop).
Proof.
  intros w verb uri fields body rest t1 t2 C P M U E. pose proof (server_request verb uri fields body rest M U) as X.
  destruct M as (N & M). destruct verb as [|b verb]; [contradiction N; reflexivity|]. revert E X. unfold request_text at 1 2. cbn [app]. rewrite L_frames.sent_cons. cbn [app]. intros E X.
  eapply unread_stops; [exact C|exact P|exact E| |exact X|reflexivity]. apply Forall_cons_iff in M as [M _]. lia.
Qed.
Print Assumptions C102_server_request_refuted.

Example C102_case :
  let w := mkW (dialled ProtoTCP None (bs "rtsp://h/s")) (sent (request_text (bs "GET_PARAMETER") (bs "rtsp://h/s") [field (bs "CSeq") (bs "1")] [])) [] [] [] [] in
  method (bs "GET_PARAMETER") /\ snd (step (step (w, Live) (App COptions)) (Turn 0 0)) = NoLoop.
Proof. split; [split; [discriminate|]|vm_compute; reflexivity]. change (bs "GET_PARAMETER") with [71; 69; 84; 95; 80; 65; 82; 65; 77; 69; 84; 69; 82]. repeat (apply Forall_cons; [lia|]). apply Forall_nil. Qed.

(* ---- C103  full statement: the application learns that PLAY, PAUSE or TEARDOWN has been refused ---- *)
(* No refusal is told: the response is logged, that is all. *)
Theorem C103_refused_refuted : forall (w : world) (r : response) (req : request),
  qget (s_queue (w_s w)) (p_cseq r) = Some req -> order_of (q_verb req) -> p_code r <> 200 -> p_code r <> 401 ->
  exists w', handle_response w r = (w', Ok tt) /\ w_log w' = w_log w ++ [Got r] /\ s_stage (w_s w') = s_stage (w_s w).
Proof. intros w r req Q O C1 C2. destruct (refused w r req Q O C1 C2) as (w' & H & L & _ & _ & _ & S). eauto. Qed.
Print Assumptions C103_refused_refuted.

(* The program then waits for ever, however long the server is silent and even when it hangs up. *)
Theorem C103_program_refuted : forall (y : system) (n : Z) (i : item) (req : request) (k : nat) (es : list yevent) (y' : system),
  y_fate y = Goes -> y_loop y = Live -> y_stage y = None -> y_data y = [] -> c_running (y_c y) = false -> c_ticked (y_c y) = false ->
  s_conn (w_s (y_w y)) = true -> s_proto (w_s (y_w y)) = ProtoTCP -> 0 <= n < 2 ^ 63 -> qget (s_queue (w_s (y_w y))) n = Some req -> order_of (q_verb req) ->
  refuses n i -> item_ok i -> w_in (y_w y) = item_stream i ++ repeat None k -> yrun y es = Some y' ->
  y_fate y' = Goes /\ sent_requests (w_log (y_w y')) = sent_requests (w_log (y_w y)) /\ stages (w_log (y_w y')) = stages (w_log (y_w y)).
Proof.
  intros y n i req k es y' F Lp St D Rn Tk C P B Q O Re K I R. destruct (refused_program y n i req k es y' F Lp St D Rn Tk C P B Q O Re K I R) as (F' & l & L & Hl).
  split; [exact F'|]. rewrite L. unfold sent_requests, stages. rewrite !flat_map_app. destruct Hl as [->|(r & ->)]; cbn [flat_map app]; rewrite !app_nil_r; split; reflexivity.
Qed.
Print Assumptions C103_program_refuted.

(* the program up to PLAY, which is refused *)
Definition one_stream : bytes := bs "m=video 0 RTP/AVP 96" ++ [13; 10] ++ bs "a=control:t" ++ [13; 10].
Definition no_play : item := Resp 454 (bs "Session Not Found") [field (bs "CSeq") (bs "4")] [].
Definition before_refusal : option system :=
  let ok n more body := item_stream (Resp 200 (bs "OK") (field (bs "CSeq") (itoa n) :: more ++ match body with [] => [] | _ => [field (bs "Content-Length") (itoa (zlen body))] end) body) in
  yrun (launch (mkW (dialled ProtoTCP None (bs "rtsp://h/s")) (ok 1 [] [] ++ ok 2 [] one_stream ++ ok 3 [field (bs "Transport") (bs "RTP/AVP/TCP;interleaved=0-1")] [] ++ item_stream no_play ++ repeat None 3) [] [] [] []))
    [YTurn 0 0; YTurn 0 0; YTurn 0 0; YStage].
Example C103_case : exists y req, before_refusal = Some y /\ y_fate y = Goes /\ y_loop y = Live /\ y_stage y = None /\ y_data y = [] /\ c_running (y_c y) = false /\ c_ticked (y_c y) = false /\
  s_conn (w_s (y_w y)) = true /\ s_proto (w_s (y_w y)) = ProtoTCP /\ qget (s_queue (w_s (y_w y))) 4 = Some req /\ order_of (q_verb req) /\ refuses 4 no_play /\ w_in (y_w y) = item_stream no_play ++ repeat None 3 /\
  exists y', yrun y [YTurn 0 0; YTurn 0 0; YTurn 0 0; YTurn 0 0; YTurn 0 0] = Some y' /\ y_fate y' = Goes /\ y_loop y' = NoLoop.
Proof.
  destruct before_refusal as [y|] eqn:E; [|vm_compute in E; discriminate E]. vm_compute in E. injection E as <-. do 2 eexists. split; [reflexivity|]. splits; try (vm_compute; reflexivity).
  - left. reflexivity.
  - repeat split; discriminate.
  - eexists. splits; vm_compute; reflexivity.
Qed.
