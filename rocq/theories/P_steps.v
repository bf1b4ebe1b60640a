(* Properties C166, C167: the steps of the command-line client, and their times. *)
From Coq Require Import String.
From Verif Require Import Base GoStrings M_conn M_message M_transport M_session S_session M_main S_main M_timer S_steps S_timer L_base L_main L_steps L_timer.
From Coq Require Import ZifyBool.

(* ---- C166 ---- *)
(* At every moment, whatever the server sends and whichever reads, writes and listens fail, what has been asked is the beginning of the errands. *)
Theorem C166_once : forall (w : world) (es : list yevent) (y : system),
  opened w ProtoTCP -> yrun (launch w) es = Some y -> countable (w_log (y_w y)) -> exists n, begins (verbs_asked (w_log (y_w y))) (errands n).
Proof. intros w es y O R C. eapply inv_verbs, (yrun_inv es [] _ _ R C), launch_inv, O. Qed.
Print Assumptions C166_once.
(* The stages are taken in order, and each once. *)
Theorem C166_stages : forall (w : world) (es : list yevent) (y : system),
  opened w ProtoTCP -> yrun (launch w) es = Some y -> countable (w_log (y_w y)) -> begins (stages_taken (launch w) es) [1; 2; 3; 4].
Proof. intros w es y O R C. eapply (inv_taken _ y), (yrun_inv es [] _ _ R C), launch_inv, O. Qed.
Print Assumptions C166_stages.
(* When the timer ends the program, all of it has been done. *)
Theorem C166_finished : forall (w : world) (es : list yevent) (y : system),
  opened w ProtoTCP -> yrun (launch w) (es ++ [YTick]) = Some y -> countable (w_log (y_w y)) -> y_fate y = Returns ->
  stages_taken (launch w) (es ++ [YTick]) = [1; 2; 3; 4] /\ exists n, verbs_asked (w_log (y_w y)) = errands n.
Proof.
  intros w es y O R C F. apply yrun_split in R as (y1 & R & S & T). rewrite T. cbn [took_stage]. rewrite app_nil_r.
  assert (C1 : countable (w_log (y_w y1))) by (apply ystep_log in S as (new & L); rewrite L in C; unfold countable in *; rewrite Forall_app in C; apply C).
  exact (tick_end _ _ _ (yrun_inv es [] _ _ R C1 (launch_inv w O)) S F).
Qed.
Print Assumptions C166_finished.

Definition server_text (head body : bytes) : stream := map Some (flat_map (fun c => if c =? 124 then [13; 10] else [c]) head ++ [13; 10; 13; 10] ++ body).
Definition two_videos : bytes := bs "m=video 0 RTP/AVP 96
a=control:one
m=video 0 RTP/AVP 96
a=control:two
".
(* the server answers OPTIONS after asking for credentials, refuses one of the streams, and answers PLAY twice *)
Definition unruly : stream :=
  server_text (bs "RTSP/1.0 401 Unauthorized|CSeq: 1|WWW-Authenticate: Digest realm=""r"",nonce=""n""") [] ++ server_text (bs "RTSP/1.0 200 OK|CSeq: 1") [] ++
  server_text (bs "RTSP/1.0 200 OK|CSeq: 2|Content-Length: " ++ itoa (zlen two_videos)) two_videos ++
  server_text (bs "RTSP/1.0 404 Not Found|CSeq: 4") [] ++ server_text (bs "RTSP/1.0 200 OK|CSeq: 3|Transport: RTP/AVP/TCP;interleaved=0-1") [] ++
  server_text (bs "RTSP/1.0 200 OK|CSeq: 5") [] ++ server_text (bs "RTSP/1.0 200 OK|CSeq: 5") [].
Definition unruly_world : world := mkW (dialled ProtoTCP (Some (bs "u", bs "p")) (bs "rtsp://h/s")) unruly [] [] [] [].
Definition unruly_events : list yevent := [YTurn 0 0; YTurn 0 0; YTurn 0 0; YTurn 0 0; YTurn 0 0; YStage; YTurn 0 0; YStage; YTurn 0 0; YExpire; YTick].
Example C166_case : opened unruly_world ProtoTCP /\ exists y, yrun (launch unruly_world) unruly_events = Some y /\ countable (w_log (y_w y)) /\ y_loop y = NoLoop /\
  verbs_asked (w_log (y_w y)) = [bs "OPTIONS"; bs "DESCRIBE"; bs "SETUP"; bs "SETUP"; bs "PLAY"; bs "PAUSE"] /\ stages_taken (launch unruly_world) unruly_events = [1; 2].
Proof.
  split; [exists (Some (bs "u", bs "p")), (bs "rtsp://h/s"); split; reflexivity|]. eexists. split; [vm_compute; reflexivity|].
  splits; [|vm_compute; reflexivity|vm_compute; reflexivity|vm_compute; reflexivity].
  cbn [y_w w_log]. unfold countable.
  repeat (apply Forall_cons; [first [exact Logic.I|intros body ms PB SP; cbn [p_body] in PB; first [discriminate PB|injection PB as <-; vm_compute in SP; injection SP as <-; reflexivity]]|]). apply Forall_nil.
Qed.

(* ---- C167 ---- *)
(* PAUSE comes at least five seconds after the client heard that it plays, TEARDOWN at least five seconds after it heard that it pauses. *)
Theorem C167_waits : forall (w : world) (t0 : Z) (es : list (yevent * Z)) (x : clocked) (verb : bytes) (stage t : Z),
  opened w ProtoTCP -> krun (klaunch w t0) es = Some x -> countable (w_log (y_w (k_y x))) ->
  (verb, stage) = (bs "PAUSE", 2) \/ (verb, stage) = (bs "TEARDOWN", 3) -> In (verb, t) (asked_when (klaunch w t0) es) ->
  exists t1, In (stage, t1) (taken_when (klaunch w t0) es) /\ t1 + 5 * 10 ^ 9 <= t.
Proof.
  intros w t0 es x verb stage t O R C V I. destruct (krun_inv es [] _ _ R C (klaunch_inv w t0 O)) as (_ & K).
  destruct V as [V|V]; injection V as -> ->; (eapply K; [exact I|reflexivity|lia]).
Qed.
Print Assumptions C167_waits.
(* The program ends at least five seconds after it heard that it is done. *)
Theorem C167_end : forall (w : world) (t0 : Z) (es : list (yevent * Z)) (t : Z) (x : clocked),
  opened w ProtoTCP -> krun (klaunch w t0) (es ++ [(YTick, t)]) = Some x -> countable (w_log (y_w (k_y x))) -> y_fate (k_y x) = Returns ->
  exists t1, In (4, t1) (taken_when (klaunch w t0) (es ++ [(YTick, t)])) /\ t1 + 5 * 10 ^ 9 <= t.
Proof.
  intros w t0 es t x O R C F. apply krun_split in R as (x1 & R & S). rewrite (taken_when_split _ _ _ _ _ _ R S). cbn [took_when]. rewrite app_nil_r.
  assert (C1 : countable (w_log (y_w (k_y x1)))) by (apply kstep_ystep, ystep_log in S as (new & L); rewrite L in C; unfold countable in *; rewrite Forall_app in C; apply C).
  destruct (krun_inv es [] _ _ R C1 (klaunch_inv w t0 O)) as (K & _). destruct (kstep_inv _ _ _ _ _ S C K) as (_ & _ & E). exact (E eq_refl F).
Qed.
Print Assumptions C167_end.

(* as above, with times: the stage is taken at 60, the timer is due at 5 s and 60; before that it cannot expire; after an expiry at 6 s PAUSE is sent at 7 s *)
Example C167_case :
  let at_ := combine unruly_events [10; 20; 30; 40; 50; 50; 55; 60; 65; 6 * 10 ^ 9; 7 * 10 ^ 9] in
  (exists x, krun (klaunch unruly_world 0) at_ = Some x) /\
  taken_when (klaunch unruly_world 0) at_ = [(1, 50); (2, 60)] /\
  asked_when (klaunch unruly_world 0) at_ = [(bs "DESCRIBE", 20); (bs "SETUP", 30); (bs "SETUP", 30); (bs "PLAY", 50); (bs "PAUSE", 7 * 10 ^ 9)] /\
  (let early t := krun (klaunch unruly_world 0) (firstn 9 at_ ++ [(YExpire, t)]) in early (5 * 10 ^ 9 + 59) = None /\ early (5 * 10 ^ 9 + 60) <> None).
Proof. cbv zeta. splits; [eexists; vm_compute; reflexivity|vm_compute; reflexivity|vm_compute; reflexivity|vm_compute; reflexivity|vm_compute; discriminate]. Qed.
