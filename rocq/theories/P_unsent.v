(* C132: requests that cannot be sent. *)
From Coq Require Import String.
From Verif Require Import Base GoStrings S_message M_conn M_message S_transport M_transport M_sdp M_sps M_session S_session S_handshake L_base L_strings L_session L_flow L_handshake L_refuse S_ports L_ports L_unsent P_session.

(* ---- C132  full statement: if a request cannot be written, the application is told, or the session ends ---- *)
(* It is told when the request is its own. *)
Theorem C132_command_partial : forall w c e more, s_conn (w_s w) = true -> s_proto (w_s w) <> ProtoHTTP -> w_writes w = Some e :: more ->
  In c [COptions; CDescribe; CPlay; CPause; CTeardown] \/ (c = CSetup /\ s_feeds (w_s w) <> []) -> exists w', do_cmd w c = (w', Err e).
Proof.
  intros w c e more C P W H.
  assert (X : forall verb uri hs, exists w', command w verb uri hs = (w', Err e)).
  { intros verb uri hs. destruct (command_exact w verb uri hs C P) as (rq & w' & o & E & _ & _ & _ & _ & _ & _ & _ & _ & _ & _ & _ & _ & _ & _ & _ & O & _). rewrite W in O. subst o. exists w'. exact E. }
  destruct H as [I|[-> F]].
  - cbn [In] in I. destruct I as [<-|[<-|[<-|[<-|[<-|[]]]]]]; cbn [do_cmd]; unfold options, describe, play, pause, teardown, with_conn; rewrite C; apply X.
  - cbn [do_cmd]. unfold setup. destruct (s_feeds (w_s w)) as [|f l]; [contradiction|]. cbn [setup_from]. unfold setup_uri. rewrite C.
    destruct (has_prefix _ _); match goal with |- context [command w ?v ?u ?h] => destruct (X v u h) as (w' & ->) end; eexists; reflexivity.
Qed.
Print Assumptions C132_command_partial.

(* A keep-alive that cannot be written, for whatever reason, makes no difference whatever: what the loop does in that turn, whether it
   goes on, and the state it leaves, are the same as if it had been written (and the next one is due two seconds later). *)
Theorem C132_alive_refuted : forall w e more t1 t2, s_conn (w_s w) = true -> s_proto (w_s w) <> ProtoHTTP -> s_proto (w_s w) <> ProtoTCP -> 1 <= s_stage (w_s w) <= 3 ->
  (forall l, s_last (w_s w) = Some l -> 2000000000 <= t1 - l) -> w_writes w = Some e :: more ->
  (exists w', keepalive w t1 t2 = (w', Err e) /\ s_last (w_s w') = Some t2) /\
  turn w t1 t2 = turn (mkW (w_s w) (w_in w) (None :: more) (w_listens w) (w_rand w) (w_log w)) t1 t2.
Proof.
  intros w e more t1 t2 C P T S D W.
  assert (DD : negb (s_proto (w_s w) =? ProtoTCP) && (1 <=? s_stage (w_s w)) && (s_stage (w_s w) <=? 3) && match s_last (w_s w) with None => true | Some l => 2000000000 <=? t1 - l end = true).
  { destruct (s_last (w_s w)) as [l|]; [specialize (D l eq_refl)|]; lia. }
  set (w' := mkW (w_s w) (w_in w) (None :: more) (w_listens w) (w_rand w) (w_log w)).
  pose proof (keepalive_world w t1 t2 w' C P eq_refl eq_refl ltac:(rewrite W; reflexivity) eq_refl eq_refl eq_refl DD) as K.
  destruct (keepalive_stage w t1 t2 C P) as [S1 O1]. destruct (keepalive_stage w' t1 t2 C P) as [S2 O2]. change (w_s w') with (w_s w) in S2.
  split.
  - rewrite (keepalive_exact w t1 t2 C P), DD.
    destruct (command_exact (note (upd_s w (fun s => set_last s (Some t2))) (Alive t1 t2)) (bs "OPTIONS") (s_uri (w_s w)) [(bs "Session", s_session (w_s w))] C P) as (rq & wa & o & E & _ & _ & _ & _ & _ & _ & _ & _ & _ & _ & _ & _ & _ & _ & _ & O & _ & _ & _ & _ & LA).
    cbn [note upd_s w_writes] in O. rewrite W in O. subst o. exists wa. split; [exact E|]. rewrite LA. reflexivity.
  - unfold turn. destruct (keepalive w t1 t2) as [wa oa], (keepalive w' t1 t2) as [wb ob]. cbn [fst snd] in *. subst wb.
    replace (s_stage (w_s wa) =? StageDone) with false by (unfold StageDone; lia). destruct oa, ob; try contradiction; reflexivity.
Qed.
Print Assumptions C132_alive_refuted.

(* If a SETUP that follows the description cannot be written in time, the loop goes on, the streams behind it are not asked for, and
   Ready is never announced, whatever answers come to the requests that were written.  With another error the loop ends. *)
Theorem C132_setup_refuted : forall w n code reason fields body rest ms k e more rq t1 t2,
  s_conn (w_s w) = true -> s_proto (w_s w) = ProtoTCP -> item_ok (Resp code reason fields body) -> code <> 401 -> 0 <= n < 2 ^ 63 -> field_value fields (bs "CSeq") = itoa n ->
  w_in w = item_stream (Resp code reason fields body) ++ rest -> qget (s_queue (w_s w)) n = Some rq -> q_verb rq = bs "DESCRIBE" -> body <> [] -> sdp_parse body = Ok ms ->
  s_feedidx (w_s w) = 0 -> 0 <= s_cseq (w_s w) -> s_cseq (w_s w) + zlen ms < 2 ^ 63 -> zlen ms < 2 ^ 61 -> (k < length ms)%nat -> w_writes w = repeat None k ++ Some e :: more ->
  exists w1, (e = ErrTimeout -> step (w, Live) (Turn t1 t2) = (w1, Live)) /\ (e <> ErrTimeout -> step (w, Live) (Turn t1 t2) = (w1, NoLoop)) /\
    asks (w_log w1) = asks (w_log w) ++ map (fun i => request_text ProtoTCP (Z.of_nat i)) (seq 0 (S k)) /\
    forall rs w2, NoDup (map p_cseq rs) -> Forall (fun x => s_cseq (w_s w) < p_cseq x <= s_cseq (w_s w) + Z.of_nat k /\ p_code x <> 401) rs -> handled w1 rs w2 ->
      readies (w_log w2) = readies (w_log w) /\ s_stage (w_s w2) = s_stage (w_s w).
Proof.
  intros w n code reason fields body rest ms k e more rq t1 t2 C P K N4 B Cs I Q V NB D F0 C0 B1 B2 Kk W.
  destruct (resp_step w _ rest C P K ltac:(intros []) I) as (r & (T1 & T2 & _ & T4) & H). specialize (T4 n B Cs).
  destruct (describe_short (upd_in w rest) r body ms k e more) as (w1 & E & A & _ & R); try assumption.
  - unfold described. splits; [exact C|lia| |].
    + rewrite T2. destruct body; [contradiction|reflexivity].
    + exists rq. rewrite T4. split; [exact Q|exact V].
  - cbn [upd_in w_s]. rewrite P. left. reflexivity.
  - exists w1. cbn [upd_in w_s w_log] in A, R. rewrite P in A. unfold step. rewrite H, E. splits.
    + intros ->. reflexivity.
    + intros X. destruct e; try reflexivity. contradiction.
    + exact A.
    + exact R.
Qed.
Print Assumptions C132_setup_refuted.

(* ---- cases ---- *)
Definition stuck (writes : list (option goerr)) : world :=
  mkW (dialled ProtoTCP None (bs "rtsp://h/s"))
    (text_of (bs "RTSP/1.0 200 OK|CSeq: 1") [] ++ text_of (bs "RTSP/1.0 200 OK|CSeq: 2|Content-Length: 120") sdp2 ++
     text_of (bs "RTSP/1.0 200 OK|CSeq: 3|Transport: RTP/AVP/TCP;interleaved=0-1") [] ++ [None; None]) writes [] [] [].
Example C132_setup_case :
  let es := [App COptions; Turn 0 0; Turn 0 0; Turn 0 0; Turn 0 0] in
  let '(w1, l1) := M_session.run (stuck [None; None; None; Some ErrTimeout], Live) es in
  let '(w2, l2) := M_session.run (stuck [None; None; Some ErrEOF], Live) es in
  (l1 = Live /\ asks (w_log w1) = [bs "RTP/AVP/TCP;interleaved=0-1"; bs "RTP/AVP/TCP;interleaved=2-3"] /\ map fd_set (s_feeds (w_s w1)) = [true; false] /\ readies (w_log w1) = []) /\
  (l2 = NoLoop /\ asks (w_log w2) = [bs "RTP/AVP/TCP;interleaved=0-1"]).
Proof. vm_compute. repeat split. Qed.
Example C132_alive_case :
  let s := set_stage (dialled ProtoUnicast None (bs "rtsp://h/s")) 2 in
  let w x := mkW s [None] [x] [] [] [] in
  snd (keepalive (w (Some ErrEOF)) 5 6) = Err ErrEOF /\ snd (turn (w (Some ErrEOF)) 5 6) = Again /\ turn (w (Some ErrEOF)) 5 6 = turn (w None) 5 6.
Proof. vm_compute. repeat split. Qed.
Example C132_command_case :
  snd (do_cmd (mkW (dialled ProtoTCP None (bs "rtsp://h/s")) [] [Some ErrEOF] [] [] []) CPlay) = Err ErrEOF.
Proof. vm_compute. reflexivity. Qed.
