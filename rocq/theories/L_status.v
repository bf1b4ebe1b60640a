(* The status of an answer to OPTIONS or DESCRIBE. *)
From Coq Require Import String.
From Verif Require Import Base GoStrings M_conn M_message M_transport M_sdp M_session S_session S_status L_base L_flow.
From Coq Require Import ZifyBool.

(* a log that was longer before changes nothing *)
Definition pre (p : list effect) (w : world) : world := mkW (w_s w) (w_in w) (w_writes w) (w_listens w) (w_rand w) (p ++ w_log w).
Definition prex (p : list effect) (x : world * res unit) : world * res unit := (pre p (fst x), snd x).

Lemma write_pre p w again rq : write (pre p w) again rq = prex p (write w again rq).
Proof.
  unfold write, pre, prex. cbn [w_s w_in w_writes w_listens w_rand w_log]. destruct (_ =? _); [reflexivity|]. cbv zeta. rewrite <- app_assoc.
  destruct (w_writes w) as [|[e|] ?]; reflexivity.
Qed.
Lemma command_pre p w verb uri hs : command (pre p w) verb uri hs = prex p (command w verb uri hs).
Proof.
  unfold command. cbv zeta. change (w_s (pre p w)) with (w_s w). destruct (negb _); [reflexivity|].
  destruct (call_auth (w_s w) verb) as [s1 a]. destruct (enqueue _ _) as [s2 rq].
  change (upd_s (pre p w) (fun _ => s2)) with (pre p (upd_s w (fun _ => s2))). apply write_pre.
Qed.
Lemma describe_pre p w : describe (pre p w) = prex p (describe w).
Proof. unfold describe, with_conn. change (w_s (pre p w)) with (w_s w). destruct (s_conn _); [apply command_pre|reflexivity]. Qed.
Lemma setup_pre p todo : forall w i, setup_from (pre p w) i todo = prex p (setup_from w i todo).
Proof.
  induction todo as [|f todo IH]; intros w i; [reflexivity|]. cbn [setup_from]. change (w_s (pre p w)) with (w_s w).
  destruct (setup_uri _ _); try reflexivity. rewrite command_pre. destruct (command w _ _ _) as [w' [[]|e| |]]; unfold prex at 1; cbn [fst snd]; try reflexivity.
  change (upd_s (pre p w') (mark_feed i)) with (pre p (upd_s w' (mark_feed i))). apply IH.
Qed.

Definition asked_first (verb : bytes) : Prop := verb = bs "OPTIONS" \/ verb = bs "DESCRIBE".
Lemma react_pre p w req r : asked_first (q_verb req) -> react (pre p w) req r = prex p (react w req r).
Proof.
  intros V. unfold react. cbv zeta. change (w_s (pre p w)) with (w_s w). destruct V as [V|V]; rewrite V.
  - change (beq (bs "OPTIONS") (bs "OPTIONS")) with true. cbv iota. destruct (_ =? _); [|reflexivity].
    match goal with |- describe (upd_s (pre p w) ?f) = _ => change (upd_s (pre p w) f) with (pre p (upd_s w f)) end. apply describe_pre.
  - change (beq (bs "DESCRIBE") (bs "OPTIONS")) with false. change (beq (bs "DESCRIBE") (bs "DESCRIBE")) with true. cbv iota.
    destruct (p_body r); [|reflexivity]. destruct (parse_feeds _ _); try reflexivity.
    match goal with |- setup (upd_s (pre p w) ?f) = _ => change (upd_s (pre p w) f) with (pre p (upd_s w f)) end. apply setup_pre.
Qed.
Lemma react_status w req r st code : asked_first (q_verb req) -> react w req (with_status st code r) = react w req r.
Proof. intros [V|V]; unfold react; rewrite V; reflexivity. Qed.

Lemma status_blind w r req st code : qget (s_queue (w_s w)) (p_cseq r) = Some req -> asked_first (q_verb req) -> p_code r <> 401 -> code <> 401 ->
  exists s inn wr li ra t o, handle_response w r = (mkW s inn wr li ra (w_log w ++ Got r :: t), o) /\
    handle_response w (with_status st code r) = (mkW s inn wr li ra (w_log w ++ Got (with_status st code r) :: t), o).
Proof.
  intros Q V C1 C2. set (w0 := mkW (learn_session (set_queue (w_s w) (qdel (s_queue (w_s w)) (p_cseq r))) r) (w_in w) (w_writes w) (w_listens w) (w_rand w) []).
  destruct (react w0 req r) as [w1 o] eqn:E. exists (w_s w1), (w_in w1), (w_writes w1), (w_listens w1), (w_rand w1), (w_log w1), o.
  assert (G : forall r', p_cseq r' = p_cseq r -> p_code r' <> 401 -> p_header r' = p_header r -> react w0 req r' = react w0 req r ->
    handle_response w r' = (mkW (w_s w1) (w_in w1) (w_writes w1) (w_listens w1) (w_rand w1) (w_log w ++ Got r' :: w_log w1), o)).
  { intros r' K C H R. unfold handle_response. cbv zeta. cbn [note w_s]. rewrite K, Q. destruct (p_code r' =? 401) eqn:E4; [lia|].
    match goal with |- react ?x _ _ = _ => replace x with (pre (w_log w ++ [Got r']) w0) end.
    - rewrite (react_pre _ _ _ _ V), R, E. unfold prex, pre. cbn [fst snd]. rewrite <- app_assoc. reflexivity.
    - unfold pre, w0, upd_s, note. cbn [w_s w_in w_writes w_listens w_rand w_log]. rewrite app_nil_r. unfold learn_session. rewrite H. reflexivity. }
  split; apply G; try reflexivity; try assumption. apply (react_status _ _ _ _ _ V).
Qed.

Lemma options_goes w r req : qget (s_queue (w_s w)) (p_cseq r) = Some req -> q_verb req = bs "OPTIONS" -> p_code r <> 401 ->
  s_conn (w_s w) = true -> s_proto (w_s w) <> ProtoHTTP -> s_stage (w_s w) = StageInit ->
  exists w' o rq, handle_response w r = (w', o) /\ w_log w' = w_log w ++ [Got r; Sent false rq] /\ q_verb rq = bs "DESCRIBE" /\ q_uri rq = s_uri (w_s w).
Proof.
  intros Q V C1 C P G. unfold handle_response. cbv zeta. cbn [note w_s]. rewrite Q. destruct (p_code r =? 401) eqn:E4; [lia|].
  unfold react. cbv zeta. rewrite V. change (beq (bs "OPTIONS") (bs "OPTIONS")) with true. cbv iota.
  match goal with |- context [upd_s (upd_s (note w (Got r)) ?f) ?g] => set (w0 := upd_s (upd_s (note w (Got r)) f) g) end.
  assert (F : s_conn (w_s w0) = true /\ s_proto (w_s w0) <> ProtoHTTP /\ s_stage (w_s w0) = StageInit /\ s_uri (w_s w0) = s_uri (w_s w) /\ w_log w0 = w_log w ++ [Got r]).
  { unfold w0, upd_s, note. cbn [w_s w_log]. unfold learn_session. destruct (beq _ _); splits; assumption || reflexivity. }
  destruct F as (F1 & F2 & F3 & F4 & F5). rewrite F3. change (StageInit =? StageInit) with true. cbv iota.
  match goal with |- context [describe ?x] => set (w1 := x) end. unfold describe, with_conn. change (s_conn (w_s w1)) with (s_conn (w_s w0)). rewrite F1.
  destruct (command_exact w1 (bs "DESCRIBE") (s_uri (w_s w1)) [(bs "Accept", bs "application/sdp")] F1 F2) as (rq & w' & o & -> & L & V' & U & _).
  exists w', o, rq. splits; [reflexivity| |exact V'|rewrite U; exact F4]. rewrite L. change (w_log w1) with (w_log w0). rewrite F5, <- app_assoc. reflexivity.
Qed.
