(* Lemmas about the session model. *)
From Coq Require Import String.
From Verif Require Import Base GoStrings M_conn S_message M_message M_transport M_sdp M_digest M_sps M_session S_session
  L_base L_strings L_rtp L_digest L_message.
From Coq Require Import ZifyBool ZifyNat.

Local Opaque digest_response.

(* ---- queues ---- *)
Lemma qget_del q k k' : qget (qdel q k) k' = if k' =? k then None else qget q k'.
Proof.
  induction q as [|[a r] q IH]; cbn [qdel filter fst qget]; [destruct (k' =? k); reflexivity|].
  unfold qdel in IH. destruct (a =? k) eqn:E; cbn [negb].
  - rewrite IH. destruct (k' =? k) eqn:E1; [reflexivity|]. destruct (a =? k') eqn:E2; [lia|reflexivity].
  - cbn [qget]. rewrite IH. destruct (a =? k') eqn:E2; [|reflexivity]. destruct (k' =? k) eqn:E1; [lia|reflexivity].
Qed.
Lemma qget_set q k r k' : qget (qset q k r) k' = if k' =? k then Some r else qget q k'.
Proof.
  unfold qset. cbn [qget]. rewrite qget_del. destruct (k' =? k) eqn:E, (k =? k') eqn:E'; try lia; reflexivity.
Qed.

(* ---- the primitive changes of a session; the second component is what the observer calls o_cur ---- *)
Definition cur := option (request * response).
Inductive prim : world * cur -> world * cur -> Prop :=
| p_other w w' c :
    s_conn (w_s w') = s_conn (w_s w) -> s_proto (w_s w') = s_proto (w_s w) -> s_stage (w_s w') = s_stage (w_s w) ->
    s_queue (w_s w') = s_queue (w_s w) -> s_session (w_s w') = s_session (w_s w) -> s_cseq (w_s w') = s_cseq (w_s w) ->
    s_last (w_s w') = s_last (w_s w) -> w_log w' = w_log w -> prim (w, c) (w', c)
| p_plain w e c : (match e with Listening _ _ | Started | Delivered _ _ => True | _ => False end) -> prim (w, c) (note w e, c)
| p_alive w t1 t2 c :
    s_proto (w_s w) <> ProtoTCP -> s_proto (w_s w) <> ProtoHTTP -> 1 <= s_stage (w_s w) <= 3 ->
    (forall l, s_last (w_s w) = Some l -> t1 - l >= 2000000000) ->
    prim (w, c) (note (upd_s w (fun s => set_last s (Some t2))) (Alive t1 t2), c)
| p_new w r c :
    q_cseq r = i64 (s_cseq (w_s w) + 1) -> q_session r = s_session (w_s w) ->
    prim (w, c) (note (upd_s w (fun s => set_queue (set_cseq s (q_cseq r)) (qset (s_queue s) (q_cseq r) r))) (Sent false r), c)
| p_got w r c :
    prim (w, c)
      match qget (s_queue (w_s w)) (p_cseq r) with
      | None => (note w (Got r), None)
      | Some req => (note (upd_s w (fun s => let s := set_queue s (qdel (s_queue s) (p_cseq r)) in if p_code r =? 401 then s else learn_session s r)) (Got r), Some (req, r))
      end
| p_again w r req rsp :
    q_cseq r = s_cseq (w_s w) -> q_session r = s_session (w_s w) -> q_auth r <> [] -> p_code rsp = 401 ->
    q_verb r = q_verb req -> q_uri r = q_uri req -> q_header r = q_header req ->
    prim (w, Some (req, rsp)) (note (upd_s w (fun s => set_queue s (qset (s_queue s) (q_cseq r) r))) (Sent true r), Some (req, rsp))
| p_notify w st req rsp :
    1 <= st <= 4 -> q_verb req = verb_of st -> (st <> 1 -> p_code rsp = 200) ->
    prim (w, Some (req, rsp)) (notify w st, None).

Inductive prims : world * cur -> world * cur -> Prop :=
| ps_nil x : prims x x
| ps_cons x y z : prim x y -> prims y z -> prims x z.
Lemma prims_trans x y z : prims x y -> prims y z -> prims x z.
Proof. induction 1; intros; [assumption|]. econstructor; eauto. Qed.
Lemma prims_one x y : prim x y -> prims x y.
Proof. intros. econstructor; [eassumption|constructor]. Qed.

Definition agrees (x : world * cur) : Prop :=
  let o := observe (w_log (fst x)) in let s := w_s (fst x) in
  (forall k, o_pending o k = qget (s_queue s) k) /\ o_id o = s_session s /\ o_stage o = s_stage s /\ o_cseq o = s_cseq s /\
  o_last o = s_last s /\ o_cur o = snd x.

Definition all_legal (proto : Z) (log : list effect) : Prop :=
  forall l1 e l2, log = l1 ++ e :: l2 -> legal (observe l1) e /\ (forall t1 t2, e = Alive t1 t2 -> proto <> ProtoTCP /\ proto <> ProtoHTTP).

Lemma observe_snoc l e : observe (l ++ [e]) = observe1 (observe l) e.
Proof. unfold observe. rewrite fold_left_app. reflexivity. Qed.

Lemma all_legal_snoc p l e : all_legal p l -> legal (observe l) e -> (forall t1 t2, e = Alive t1 t2 -> p <> ProtoTCP /\ p <> ProtoHTTP) -> all_legal p (l ++ [e]).
Proof.
  intros A L P l1 e' l2 E. destruct (list_last_dec l2) as [->|(m & z & ->)].
  - apply app_inj_tail in E as [-> ->]. auto.
  - rewrite app_comm_cons, app_assoc in E. apply app_inj_tail in E as [-> ->]. apply (A l1 e' m). reflexivity.
Qed.

Lemma hd_split c v : hd [] (split_on c v) = match cut c v with Some (a, _) => a | None => v end.
Proof.
  induction v as [|x v IH]; [reflexivity|]. cbn [split_on cut]. destruct (x =? c); [reflexivity|].
  destruct (split_on c v) as [|y l] eqn:E; [exfalso; destruct (split_on_nonempty c v) as (? & ? & X); congruence|]. cbn [hd] in *. destruct (cut c v) as [[a b]|]; subst; reflexivity.
Qed.

Lemma mk_legal o e : stage_legal o e -> number_legal o e -> again_legal o e -> id_legal o e -> alive_legal o e -> legal o e.
Proof. unfold legal. auto. Qed.

Lemma prim_sound x y : prim x y -> agrees x -> all_legal (s_proto (w_s (fst x))) (w_log (fst x)) ->
  agrees y /\ all_legal (s_proto (w_s (fst y))) (w_log (fst y)) /\ s_proto (w_s (fst y)) = s_proto (w_s (fst x)) /\ s_conn (w_s (fst y)) = s_conn (w_s (fst x)).
Proof.
  intros P (A1 & A2 & A3 & A4 & A5 & A6) L. destruct P; cbn [fst snd] in *.
  - unfold agrees. cbn [fst snd]. rewrite H0, H1, H2, H3, H4, H5, H6. splits; auto.
  - unfold agrees. cbn [fst snd note w_log w_s]. rewrite observe_snoc. destruct e; try contradiction; cbn [observe1]; splits; auto;
      apply all_legal_snoc; try exact L; try (repeat split; exact I); intros; discriminate.
  - unfold agrees. cbn [fst snd note upd_s set_last w_log w_s s_queue s_session s_stage s_cseq s_last s_proto s_conn]. rewrite observe_snoc. cbn [observe1 o_pending o_id o_stage o_cseq o_last o_cur].
    splits; auto. apply all_legal_snoc; [exact L| |intros; split; assumption]. apply mk_legal; try exact I. cbn [alive_legal]. rewrite A3, A5. split; assumption.
  - unfold agrees. cbn [fst snd note upd_s set_queue set_cseq w_log w_s s_queue s_session s_stage s_cseq s_last s_proto s_conn]. rewrite observe_snoc. cbn [observe1 o_pending o_id o_stage o_cseq o_last o_cur].
    splits; auto.
    + intros k. rewrite qget_set. unfold put. rewrite A1. reflexivity.
    + apply all_legal_snoc; [exact L| |intros; discriminate]. apply mk_legal; try exact I; cbn [number_legal id_legal]; congruence.
  - destruct (qget (s_queue (w_s w)) (p_cseq r)) as [req|] eqn:Q; unfold agrees; cbn [fst snd note upd_s w_log w_s]; rewrite observe_snoc; cbn [observe1]; rewrite A1, Q;
      cbn [o_pending o_id o_stage o_cseq o_last o_cur].
    + assert (E : forall s, s_queue (if p_code r =? 401 then s else learn_session s r) = s_queue s /\ s_stage (if p_code r =? 401 then s else learn_session s r) = s_stage s /\
        s_cseq (if p_code r =? 401 then s else learn_session s r) = s_cseq s /\ s_last (if p_code r =? 401 then s else learn_session s r) = s_last s /\
        s_proto (if p_code r =? 401 then s else learn_session s r) = s_proto s /\ s_conn (if p_code r =? 401 then s else learn_session s r) = s_conn s /\
        s_session (if p_code r =? 401 then s else learn_session s r) =
          (if (p_code r =? 401) || beq (header_get (p_header r) (bs "Session")) [] then s_session s else id_of (header_get (p_header r) (bs "Session")))).
      { intros s. unfold learn_session. destruct (p_code r =? 401); cbn [orb]; [splits; reflexivity|]. destruct (beq (header_get (p_header r) (bs "Session")) []); splits; try reflexivity.
        cbn [set_session s_session]. apply hd_split. }
      destruct (E (set_queue (w_s w) (qdel (s_queue (w_s w)) (p_cseq r)))) as (-> & -> & -> & -> & -> & -> & ->). cbn [set_queue s_queue s_stage s_cseq s_last s_proto s_session s_conn].
      splits; auto.
      * intros k. rewrite qget_del. unfold put. rewrite A1. reflexivity.
      * rewrite A2. reflexivity.
      * apply all_legal_snoc; [exact L| |intros; discriminate]. apply mk_legal; exact I.
    + splits; auto. apply all_legal_snoc; [exact L| |intros; discriminate]. apply mk_legal; exact I.
  - unfold agrees. cbn [fst snd note upd_s set_queue set_cseq w_log w_s s_queue s_session s_stage s_cseq s_last s_proto s_conn]. rewrite observe_snoc. cbn [observe1 o_pending o_id o_stage o_cseq o_last o_cur].
    splits; auto.
    + intros k. rewrite qget_set. unfold put. rewrite A1. reflexivity.
    + apply all_legal_snoc; [exact L| |intros; discriminate]. apply mk_legal; try exact I; cbn [again_legal id_legal]; [|congruence].
      splits; [congruence|assumption|]. exists req, rsp. splits; assumption.
  - unfold agrees. cbn [fst snd notify note upd_s set_stage w_log w_s s_queue s_session s_stage s_cseq s_last s_proto s_conn]. rewrite observe_snoc. cbn [observe1 o_pending o_id o_stage o_cseq o_last o_cur].
    splits; auto. apply all_legal_snoc; [exact L| |intros; discriminate]. apply mk_legal; try exact I. cbn [stage_legal]. exists req, rsp. auto.
Qed.

Lemma prims_sound x y : prims x y -> agrees x -> all_legal (s_proto (w_s (fst x))) (w_log (fst x)) ->
  agrees y /\ all_legal (s_proto (w_s (fst y))) (w_log (fst y)) /\ s_proto (w_s (fst y)) = s_proto (w_s (fst x)) /\ s_conn (w_s (fst y)) = s_conn (w_s (fst x)).
Proof.
  induction 1 as [x|x y z P PS IH]; intros A L; [auto|]. destruct (prim_sound _ _ P A L) as (A' & L' & E1 & E2).
  destruct (IH A' L') as (A'' & L'' & E1' & E2'). splits; auto; congruence.
Qed.

(* ---- operations as sequences of primitive changes ---- *)
Lemma call_auth_frame s verb s' out : call_auth s verb = (s', out) ->
  exists a, s' = set_auth s a /\ (s_auth s = None -> a = None /\ out = []).
Proof.
  unfold call_auth. destruct (s_auth s) as [[text d]|] eqn:E.
  - destruct (auth_call text d verb []) as [d' o]. intros X. inversion X; subst. eexists. split; [reflexivity|discriminate].
  - intros X. inversion X; subst. exists None. split; [|auto]. destruct s'; cbn in E |- *; subst; reflexivity.
Qed.

Lemma command_prims w verb uri hs w' o c : s_proto (w_s w) <> ProtoHTTP -> command w verb uri hs = (w', o) -> prims (w, c) (w', c).
Proof.
  intros P. unfold command. destruct (s_conn (w_s w)) eqn:C; cbn [negb]; [|intros E; inversion E; subst; constructor].
  cbv zeta. destruct (call_auth (w_s w) verb) as [s1 auth] eqn:A. destruct (call_auth_frame _ _ _ _ A) as (a & -> & _).
  unfold enqueue. cbv zeta beta iota.
  set (r := mkReq _ _ _ _ _ _). unfold write, upd_s. cbn [w_s w_in w_writes w_listens w_rand w_log set_queue set_cseq set_auth s_proto].
  destruct (s_proto (w_s w) =? ProtoHTTP) eqn:EP; [lia|]. cbv zeta.
  set (w1 := mkW (set_auth (w_s w) a) (w_in w) (tl (w_writes w)) (w_listens w) (w_rand w) (w_log w)).
  assert (X : prims (w, c) (note (upd_s w1 (fun s => set_queue (set_cseq s (q_cseq r)) (qset (s_queue s) (q_cseq r) r))) (Sent false r), c)).
  { eapply ps_cons; [apply (p_other w w1); reflexivity|]. apply prims_one. apply p_new; reflexivity. }
  intros E. assert (E' : w' = note (upd_s w1 (fun s => set_queue (set_cseq s (q_cseq r)) (qset (s_queue s) (q_cseq r) r))) (Sent false r)).
  { destruct (w_writes w) as [|[e|] ?]; inversion E; reflexivity. }
  rewrite E'. exact X.
Qed.

Lemma with_conn_prims w k w' o c : (forall w' o, k (w_s w) = (w', o) -> prims (w, c) (w', c)) -> with_conn w k = (w', o) -> prims (w, c) (w', c).
Proof. unfold with_conn. intros K. destruct (s_conn (w_s w)); [apply K|]. intros E. inversion E; subst. constructor. Qed.

Lemma prims_proto x y : prims x y -> s_proto (w_s (fst y)) = s_proto (w_s (fst x)) /\ s_conn (w_s (fst y)) = s_conn (w_s (fst x)).
Proof.
  induction 1 as [x|x y z P PS [IH1 IH2]]; [auto|]. rewrite IH1, IH2. clear - P. destruct P; cbn [fst snd note notify upd_s w_s set_last set_queue set_cseq set_stage s_proto s_conn]; auto.
  destruct (qget (s_queue (w_s w)) (p_cseq r)); cbn [fst]; [|auto]. cbn [note upd_s w_s]. destruct (p_code r =? 401); [auto|]. unfold learn_session. destruct (beq _ _); auto.
Qed.

Lemma mark_feed_prim w i c : prim (w, c) (upd_s w (mark_feed i), c).
Proof. apply p_other; unfold upd_s, mark_feed; cbn [w_s w_log]; destruct (nth_error (s_feeds (w_s w)) i); reflexivity. Qed.

Lemma setup_from_prims todo : forall w i w' o c, s_proto (w_s w) <> ProtoHTTP -> setup_from w i todo = (w', o) -> prims (w, c) (w', c).
Proof.
  induction todo as [|f todo IH]; intros w i w' o c P E; cbn [setup_from] in E; [inversion E; subst; constructor|].
  destruct (setup_uri (w_s w) (m_control (fd_media f))) as [uri|e| |]; try (inversion E; subst; constructor).
  destruct (command w (bs "SETUP") uri [(bs "Transport", transport_string (fd_transp f))]) as [w1 [u|e| |]] eqn:EC;
    pose proof (command_prims _ _ _ _ _ _ c P EC) as PS; try (inversion E; subst; exact PS).
  eapply prims_trans; [exact PS|]. eapply ps_cons; [apply mark_feed_prim|].
  eapply IH; [|exact E]. destruct (prims_proto _ _ PS) as [X _]. cbn [fst] in X. unfold upd_s, mark_feed. cbn [w_s]. destruct (nth_error (s_feeds (w_s w1)) i); cbn [set_feeds s_proto]; rewrite X; exact P.
Qed.

Lemma keepalive_prims w t1 t2 w' o c : s_proto (w_s w) <> ProtoHTTP -> keepalive w t1 t2 = (w', o) -> prims (w, c) (w', c).
Proof.
  intros P. apply with_conn_prims. clear w' o. intros w' o.
  destruct (negb (s_proto (w_s w) =? ProtoHTTP) && negb (s_proto (w_s w) =? ProtoTCP) && (s_stage (w_s w) >? StageInit) && (s_stage (w_s w) <? StageDone)) eqn:E;
    [|intros X; inversion X; subst; constructor].
  destruct (match s_last (w_s w) with None => true | Some l => t1 - l >=? keepAliveTimeout end) eqn:D; [|intros X; inversion X; subst; constructor].
  intros X. eapply ps_cons; [|eapply command_prims; [|exact X]; exact P].
  unfold StageInit, StageDone in E. apply p_alive; try lia. intros l El. rewrite El in D. unfold keepAliveTimeout in D. lia.
Qed.

Lemma do_cmd_prims w cm w' o c : s_proto (w_s w) <> ProtoHTTP -> do_cmd w cm = (w', o) -> prims (w, c) (w', c).
Proof.
  intros P. destruct cm; cbn [do_cmd]; try (apply with_conn_prims; intros ? ?; apply command_prims; exact P).
  - apply setup_from_prims. exact P.
  - apply keepalive_prims. exact P.
Qed.

Lemma add_sink_prims w ch port w' o c : add_sink w ch port = (w', o) -> prims (w, c) (w', c).
Proof.
  unfold add_sink. destruct (w_listens w) as [|[e|] l]; intros E; inversion E; subst.
  - eapply ps_cons; [|apply prims_one; apply p_plain; exact I]. apply p_other; reflexivity.
  - apply prims_one. apply p_other; reflexivity.
  - eapply ps_cons; [|apply prims_one; apply p_plain; exact I]. apply p_other; reflexivity.
Qed.

Lemma setup_feeds_prims todo : forall w cseq v i w' o c, setup_feeds w cseq v i todo = (w', o) -> prims (w, c) (w', c).
Proof.
  induction todo as [|f todo IH]; intros w cseq v i w' o c E; cbn [setup_feeds] in E; [inversion E; subst; constructor|].
  destruct (fd_cseq f =? cseq); [|eapply IH; exact E]. cbv zeta in E.
  assert (P1 : forall f', prims (w, c) (upd_s (upd_s w (fun s => set_feedidx s (i64 (s_feedidx s + 1)))) (put_feed i f'), c)) by (intros; apply prims_one; apply p_other; reflexivity).
  destruct (transport_setup f v) as [f' [u|e| |]]; try (inversion E; subst; apply P1).
  eapply prims_trans; [apply (P1 f')|].
  destruct (t_tcp (fd_transp f')); [eapply IH; exact E|].
  match type of E with context [add_sink ?a ?b ?p] => destruct (add_sink a b p) as [w1 [u1|e1| |]] eqn:E1; apply (add_sink_prims _ _ _ _ _ c) in E1 end; try (inversion E; subst; exact E1).
  eapply prims_trans; [exact E1|].
  match type of E with context [add_sink ?a ?b ?p] => destruct (add_sink a b p) as [w2 [u2|e2| |]] eqn:E2; apply (add_sink_prims _ _ _ _ _ c) in E2 end; try (inversion E; subst; exact E2).
  eapply prims_trans; [exact E2|]. eapply IH. exact E.
Qed.


Lemma handle_setup_prims w req r w' o : q_verb req = bs "SETUP" -> handle_setup w r = (w', o) -> exists c', prims (w, Some (req, r)) (w', c').
Proof.
  intros V. unfold handle_setup.
  assert (F : forall w, exists c', prims (w, Some (req, r)) (fst (if s_feedidx (w_s w) >=? zlen (s_feeds (w_s w)) then (note (notify w StageReady) Started, @Ok unit tt) else (w, Ok tt)), c')).
  { clear w w' o. intros w. destruct (s_feedidx (w_s w) >=? zlen (s_feeds (w_s w))); [|exists (Some (req, r)); constructor].
    exists None. cbn [fst]. eapply ps_cons; [apply (p_notify w StageReady req r); [unfold StageReady; lia|exact V|]; intros X; contradiction X; reflexivity|].
    apply prims_one. apply p_plain. exact I. }
  destruct (p_code r =? 200).
  - destruct (setup_feeds w (p_cseq r) (header_get (p_header r) (bs "Transport")) 0 (s_feeds (w_s w))) as [w1 [u|e| |]] eqn:E;
      apply (setup_feeds_prims _ _ _ _ _ _ _ (Some (req, r))) in E; intros X; try (inversion X; subst; eexists; exact E).
    destruct (F w1) as (c' & Fc). rewrite X in Fc. cbn [fst] in Fc. exists c'. eapply prims_trans; [exact E|exact Fc].
  - destruct (p_code r =? 401); cbn [negb]; intros X.
    + destruct (F w) as (c' & Fc). rewrite X in Fc. exists c'. exact Fc.
    + destruct (F (upd_s w (fun s => set_feedidx s (i64 (s_feedidx s + 1))))) as (c' & Fc). rewrite X in Fc. exists c'.
      eapply ps_cons; [|exact Fc]. apply p_other; reflexivity.
Qed.

Lemma react_prims w req r w' o : s_proto (w_s w) <> ProtoHTTP -> p_code r <> 401 -> react w req r = (w', o) -> exists c', prims (w, Some (req, r)) (w', c').
Proof.
  intros P N. unfold react.
  destruct (beq (q_verb req) (bs "OPTIONS")).
  { destruct (s_stage (w_s w) =? StageInit); [|intros E; inversion E; subst; eexists; constructor].
    intros E. exists (Some (req, r)). eapply ps_cons; [|eapply with_conn_prims; [|exact E]]; [apply p_other; reflexivity|].
    intros w2 o2. apply command_prims. exact P. }
  destruct (beq (q_verb req) (bs "DESCRIBE")).
  { destruct (p_body r) as [body|]; [|intros E; inversion E; subst; eexists; constructor].
    destruct (parse_feeds (s_proto (w_s w)) body) as [fs| | |]; intros E; try (inversion E; subst; eexists; constructor).
    exists (Some (req, r)). eapply ps_cons; [|eapply setup_from_prims; [|exact E]]; [apply p_other; reflexivity|exact P]. }
  assert (K : forall st, 2 <= st <= 4 -> beq (q_verb req) (verb_of st) = true -> forall w' o, (if p_code r =? 200 then notify w st else w, @Ok unit tt) = (w', o) -> exists c', prims (w, Some (req, r)) (w', c')).
  { intros st S B w2 o2 E. destruct (p_code r =? 200) eqn:C; inversion E; subst; [|eexists; constructor].
    exists None. apply prims_one. apply p_notify; [lia|apply beq_eq; exact B|lia]. }
  destruct (beq (q_verb req) (bs "PAUSE")) eqn:B1; [apply (K 3); [lia|exact B1]|].
  destruct (beq (q_verb req) (bs "PLAY")) eqn:B2; [apply (K 2); [lia|exact B2]|].
  destruct (beq (q_verb req) (bs "TEARDOWN")) eqn:B3; [apply (K 4); [lia|exact B3]|].
  destruct (beq (q_verb req) (bs "SETUP")) eqn:B4; [apply handle_setup_prims; apply beq_eq; exact B4|].
  intros E; inversion E; subst; eexists; constructor.
Qed.

Lemma auth_call_nonempty text d verb d' out : text <> [] -> auth_call text d verb [] = (d', out) -> out <> [].
Proof.
  intros T. unfold auth_call. destruct (d_basic d); [intros E; inversion E; subst; exact T|].
  destruct (digest_response d verb []) as [d2 r]. intros E; inversion E; subst. intros X. apply app_eq_nil in X as [X _]. contradiction.
Qed.
Lemma authenticate_nonempty d user pass rnd d' text : authenticate d user pass rnd = (d', text) -> text <> [].
Proof.
  unfold authenticate. destruct (d_basic d); [intros E; inversion E; subst; discriminate|]. destruct d.
  intros E. apply (f_equal snd) in E. cbn [snd] in E. rewrite <- E. discriminate.
Qed.

Lemma retry_prims w req r w' o : s_proto (w_s w) <> ProtoHTTP -> p_code r = 401 -> retry w req r = (w', o) -> prims (w, Some (req, r)) (w', Some (req, r)).
Proof.
  intros P C. unfold retry, authorize. destruct (new_digest (s_uri (w_s w)) (header_get (p_header r) (bs "WWW-Authenticate"))) as [d| | |];
    try (intros E; inversion E; subst; constructor).
  destruct (s_user (w_s w)) as [[user pass]|]; [|intros E; inversion E; subst; constructor].
  destruct (authenticate d user pass (hd [] (w_rand w))) as [d' text] eqn:EA. pose proof (authenticate_nonempty _ _ _ _ _ _ EA) as T.
  unfold call_auth. cbn [w_s set_auth s_auth]. destruct (auth_call text d' (q_verb req) []) as [d2 out2] eqn:EC. pose proof (auth_call_nonempty _ _ _ _ _ T EC) as T2.
  unfold enqueue. cbv zeta. cbn [q_verb q_uri q_auth q_header set_auth s_cseq s_session s_queue]. set (rq := mkReq _ _ _ _ _ _).
  unfold write, upd_s. cbn [w_s w_in w_writes w_listens w_rand w_log set_queue set_auth s_proto]. destruct (s_proto (w_s w) =? ProtoHTTP) eqn:EP; [lia|]. cbv zeta.
  set (w1 := mkW (set_auth (w_s w) (Some (text, d2))) (w_in w) (tl (w_writes w)) (w_listens w) (tl (w_rand w)) (w_log w)).
  intros E.
  assert (E' : w' = note (upd_s w1 (fun s => set_queue s (qset (s_queue s) (q_cseq rq) rq))) (Sent true rq)).
  { destruct (w_writes w) as [|[e|] ?]; inversion E; reflexivity. }
  rewrite E'. eapply ps_cons; [apply (p_other w w1); reflexivity|]. apply prims_one. apply p_again; try reflexivity; assumption.
Qed.

Lemma handle_response_prims w r w' o c : s_proto (w_s w) <> ProtoHTTP -> handle_response w r = (w', o) -> exists c', prims (w, c) (w', c').
Proof.
  intros P. unfold handle_response. cbv zeta. pose proof (p_got w r c) as G. cbn [note w_s] in *.
  destruct (qget (s_queue (w_s w)) (p_cseq r)) as [req|]; [|intros E; inversion E; subst; eexists; apply prims_one; exact G].
  destruct (p_code r =? 401) eqn:C; intros E.
  - eapply retry_prims in E; [|exact P|lia]. eexists. eapply ps_cons; [exact G|exact E].
  - eapply react_prims in E; [| |lia].
    + destruct E as (c' & E). exists c'. eapply ps_cons; [exact G|exact E].
    + cbn [upd_s note w_s]. unfold learn_session. destruct (beq _ _); exact P.
Qed.

Lemma receive_prims w w' o c : s_proto (w_s w) <> ProtoHTTP -> receive w = (w', o) -> exists c', prims (w, c) (w', c').
Proof.
  intros P. unfold receive.
  assert (Z : forall s w' (o : res unit) x, (upd_in w s, x) = (w', o) -> exists c', prims (w, c) (w', c')).
  { intros s w2 o2 x E. inversion E; subst. exists c. apply prims_one. apply p_other; reflexivity. }
  assert (H : forall s w' o, match unpack_response s with
      | (s1, Ok r) => handle_response (upd_in w s1) r | (s1, Err e) => (upd_in w s1, Err e) | (s1, Panic) => (upd_in w s1, Panic) | (s1, Fuel) => (upd_in w s1, Fuel) end = (w', o) ->
      exists c', prims (w, c) (w', c')).
  { intros s w2 o2. destruct (unpack_response s) as [s1 [r|e| |]]; try apply Z. intros E. eapply handle_response_prims in E; [|exact P]. destruct E as (c' & E).
    exists c'. eapply ps_cons; [|exact E]. apply p_other; reflexivity. }
  destruct (peek 1 (w_in w)) as [s0 [b|e| |]]; try apply Z.
  destruct b as [|b0 bt]; [apply H|]. destruct (Z.eq_dec b0 36) as [->|N].
  - destruct bt; [|apply H]. destruct (read_byte (discard 1 s0)) as [s1 [ch|e| |]]; try apply Z. destruct (read_uint16 s1) as [s2 [len|e| |]]; try apply Z.
    destruct (read_bytes len s2) as [s3 [p|e| |]]; try apply Z. intros E. inversion E; subst. exists c.
    eapply ps_cons; [|apply prims_one; apply p_plain; exact I]. apply p_other; reflexivity.
  - destruct b0 as [|q|q]; try apply H. repeat (destruct q as [q|q|]; try apply H). contradiction N. reflexivity.
Qed.

Lemma turn_prims w t1 t2 w' o c : s_proto (w_s w) <> ProtoHTTP -> turn w t1 t2 = (w', o) -> exists c', prims (w, c) (w', c').
Proof.
  intros P. unfold turn. destruct (keepalive w t1 t2) as [w1 k] eqn:K. apply (keepalive_prims _ _ _ _ _ c) in K; [|exact P].
  destruct (prims_proto _ _ K) as [Q _]. cbn [fst] in Q.
  assert (R : forall w' o, match receive w1 with (w, Ok _) => (w, Again) | (w, Err e) => (w, if is_timeout e then Again else Stop) | (w, Panic) | (w, Fuel) => (w, Crash) end = (w', o) ->
     exists c', prims (w, c) (w', c')).
  { intros w2 o2 E. destruct (receive w1) as [w3 x] eqn:R. apply (receive_prims _ _ _ c) in R; [|congruence]. destruct R as (c' & R). exists c'.
    assert (w2 = w3) by (destruct x; inversion E; reflexivity). subst. eapply prims_trans; eassumption. }
  destruct k as [u|e| |]; [apply R| | |]; try (intros E; inversion E; subst; exists c; exact K).
  destruct (s_stage (w_s w1) =? StageDone); [|apply R]. intros E; inversion E; subst; exists c; exact K.
Qed.

Lemma step_prims w l e w' l' c : s_proto (w_s w) <> ProtoHTTP -> step (w, l) e = (w', l') -> exists c', prims (w, c) (w', c').
Proof.
  intros P. unfold step. 
  assert (A : forall cm l w' l', match do_cmd w cm with (w', Ok _) | (w', Err _) => (w', l) | (w', Panic) | (w', Fuel) => (w', Dead) end = (w', l') -> exists c', prims (w, c) (w', c')).
  { intros cm l0 w2 l2 E. destruct (do_cmd w cm) as [w3 x] eqn:D. apply (do_cmd_prims _ _ _ _ c) in D; [|exact P]. exists c.
    assert (w2 = w3) by (destruct x; inversion E; reflexivity). subst. exact D. }
  destruct l, e; try apply A; try (intros E; inversion E; subst; exists c; constructor).
  destruct (turn w t1 t2) as [w3 x] eqn:T. apply (turn_prims _ _ _ _ _ c) in T; [|exact P]. intros E.
  assert (w' = w3) by (destruct x; inversion E; reflexivity). subst. exact T.
Qed.

Lemma run_prims es : forall w l w' l' c, s_proto (w_s w) <> ProtoHTTP -> run (w, l) es = (w', l') -> exists c', prims (w, c) (w', c').
Proof.
  induction es as [|e es IH]; intros w l w' l' c P E; cbn [run fold_left] in E; [inversion E; subst; exists c; constructor|].
  destruct (step (w, l) e) as [w1 l1] eqn:S. destruct (step_prims _ _ _ _ _ c P S) as (c1 & P1). destruct (prims_proto _ _ P1) as [Q _]. cbn [fst] in Q.
  destruct (IH w1 l1 w' l' c1 ltac:(congruence) E) as (c2 & P2). exists c2. eapply prims_trans; eassumption.
Qed.

Lemma run_legal proto w es w' l' : proto <> ProtoHTTP -> opened w proto -> run (w, Live) es = (w', l') ->
  exists c, agrees (w', c) /\ all_legal proto (w_log w').
Proof.
  intros P (user & uri & Es & El) E. destruct (run_prims es w Live w' l' None) as (c & PS); [rewrite Es; exact P|exact E|].
  destruct (prims_sound _ _ PS) as (A & L & Q & _).
  - unfold agrees. cbn [fst snd]. rewrite Es, El. splits; reflexivity.
  - cbn [fst]. rewrite El. intros l1 e l2 X. destruct l1; discriminate.
  - cbn [fst] in *. exists c. split; [exact A|]. rewrite Q, Es in L. exact L.
Qed.

(* ---- reading the observer's state off the log ---- *)
Lemma observe_stage l : o_stage (observe l) = last_stage l.
Proof.
  induction l as [|e l IH] using rev_ind; [reflexivity|]. rewrite observe_snoc. unfold last_stage. rewrite fold_left_app. cbn [fold_left]. fold (last_stage l). rewrite <- IH.
  destruct e; try reflexivity. cbn [observe1]. destruct (o_pending (observe l) (p_cseq r)); reflexivity.
Qed.

Lemma observe_pending l k req : o_pending (observe l) k = Some req ->
  exists a again b, l = a ++ Sent again req :: b /\ q_cseq req = k /\ (forall r, In (Got r) b -> p_cseq r <> k).
Proof.
  induction l as [|e l IH] using rev_ind; [discriminate|]. rewrite observe_snoc.
  assert (K : o_pending (observe l) k = Some req -> (forall r, e = Got r -> p_cseq r <> k) ->
     exists a again b, l ++ [e] = a ++ Sent again req :: b /\ q_cseq req = k /\ (forall r, In (Got r) b -> p_cseq r <> k)).
  { intros H N. destruct (IH H) as (a & ag & b & -> & Q & B). exists a, ag, (b ++ [e]). splits; [rewrite <- app_assoc; reflexivity|exact Q|].
    intros r I. apply in_app_iff in I as [I|[I|[]]]; [exact (B r I)|exact (N r I)]. }
  destruct e as [ag r|st|ch p|r|ch p| |t1 t2]; cbn [observe1 o_pending]; try (intros H; apply K; [exact H|discriminate]).
  - unfold put. destruct (k =? q_cseq r) eqn:E; [|intros H; apply K; [exact H|discriminate]].
    intros H. inversion H; subst. exists l, ag, []. splits; [reflexivity|lia|intros ? []].
  - destruct (o_pending (observe l) (p_cseq r)) as [req0|] eqn:P; cbn [o_pending].
    + unfold put. destruct (k =? p_cseq r) eqn:E; [discriminate|]. intros H. apply K; [exact H|]. intros r0 X. inversion X; subst. lia.
    + intros H. apply K; [exact H|]. intros r0 X. inversion X; subst. intros <-. congruence.
Qed.

Lemma observe_outstanding l k : o_pending (observe l) k <> None <-> outstanding l k.
Proof.
  split.
  - destruct (o_pending (observe l) k) as [req|] eqn:E; [|congruence]. intros _. destruct (observe_pending l k req E) as (a & ag & b & X & Q & B). exists a, ag, req, b. auto.
  - intros (a & ag & req & b & -> & Q & B). assert (X : observe (a ++ Sent ag req :: b) = fold_left observe1 b (observe1 (observe a) (Sent ag req))).
    { unfold observe. rewrite fold_left_app. reflexivity. }
    rewrite X. clear X. assert (G : o_pending (observe1 (observe a) (Sent ag req)) k <> None) by (cbn [observe1 o_pending]; unfold put; rewrite Q, Z.eqb_refl; discriminate).
    revert G. generalize (observe1 (observe a) (Sent ag req)). induction b as [|e b IH]; intros o G; [exact G|]. cbn [fold_left].
    apply IH; [intros r I; apply B; right; exact I|]. destruct e as [ag' r|st|ch p|r|ch p| |t1 t2]; cbn [observe1 o_pending]; try exact G.
    + unfold put. destruct (k =? q_cseq r); [discriminate|exact G].
    + destruct (o_pending o (p_cseq r)) eqn:P; cbn [o_pending]; [|exact G]. unfold put. destruct (k =? p_cseq r) eqn:E; [|exact G].
      exfalso. apply (B r); [left; reflexivity|lia].
Qed.

Lemma observe_cur l req r : o_cur (observe l) = Some (req, r) -> answers l req r.
Proof.
  induction l as [|e l IH] using rev_ind; [discriminate|]. rewrite observe_snoc.
  assert (K : o_cur (observe l) = Some (req, r) -> (forall r, e <> Got r) -> (forall st, e <> Notified st) -> answers (l ++ [e]) req r).
  { intros H N1 N2. destruct (IH H) as (a & ag & b & d & -> & Q & B & D1 & D2). exists a, ag, b, (d ++ [e]). splits; [|exact Q|exact B| |].
    - rewrite <- app_assoc. cbn [app]. rewrite <- app_assoc. reflexivity.
    - intros r' I. apply in_app_iff in I as [I|[I|[]]]; [exact (D1 r' I)|exact (N1 r' I)].
    - intros r' I. apply in_app_iff in I as [I|[I|[]]]; [exact (D2 r' I)|exact (N2 r' I)]. }
  destruct e as [ag r0|st|ch p|r0|ch p| |t1 t2]; cbn [observe1 o_cur]; try (intros H; apply K; [exact H|discriminate|discriminate]).
  - discriminate.
  - destruct (o_pending (observe l) (p_cseq r0)) as [req0|] eqn:P; cbn [o_cur]; [|discriminate]. intros H. inversion H; subst.
    destruct (observe_pending _ _ _ P) as (a & ag & b & -> & Q & B). exists a, ag, b, []. splits.
    + rewrite <- app_assoc. reflexivity.
    + symmetry. exact Q.
    + rewrite Q. exact B.
    + intros ? [].
    + intros ? [].
Qed.

Lemma i64_step a : i64 (i64 a + 1) = i64 (a + 1).
Proof. unfold i64. replace ((a + 2 ^ 63) mod 2 ^ 64 - 2 ^ 63 + 1 + 2 ^ 63) with ((a + 2 ^ 63) mod 2 ^ 64 + 1) by lia. rewrite Z.add_mod_idemp_l by lia. f_equal. f_equal. lia. Qed.

Lemma i64_small a : - 2 ^ 63 <= a < 2 ^ 63 -> i64 a = a.
Proof. intros H. unfold i64. rewrite Z.mod_small by lia. lia. Qed.

Lemma legal_numbers p l : all_legal p l ->
  new_cseqs l = map (fun k => i64 (Z.of_nat k)) (seq 1 (length (new_cseqs l))) /\ o_cseq (observe l) = i64 (zlen (new_cseqs l)).
Proof.
  induction l as [|e l IH] using rev_ind; intros A; [split; reflexivity|].
  assert (A' : all_legal p l). { intros l1 e' l2 E. apply (A l1 e' (l2 ++ [e])). rewrite E, <- app_assoc. reflexivity. }
  destruct (IH A') as [I1 I2]. destruct (A l e [] eq_refl) as [L _]. rewrite observe_snoc.
  assert (N : new_cseqs (l ++ [e]) = new_cseqs l ++ match e with Sent false r => [q_cseq r] | _ => [] end).
  { unfold new_cseqs. rewrite flat_map_app. cbn [flat_map]. rewrite app_nil_r. reflexivity. }
  assert (K : match e with Sent false r => False | _ => True end -> o_cseq (observe1 (observe l) e) = o_cseq (observe l)).
  { destruct e as [[|] r|st|ch q|r|ch q| |t1 t2]; cbn [observe1 o_cseq]; try reflexivity; [intros []|]. destruct (o_pending (observe l) (p_cseq r)); reflexivity. }
  rewrite N. destruct e as [[|] r|st|ch q|r|ch q| |t1 t2]; rewrite ?app_nil_r; try (rewrite K by exact I; split; assumption).
  destruct L as (_ & L & _). cbn [number_legal] in L. cbn [observe1 o_cseq]. rewrite L, I2. unfold zlen. rewrite i64_step, app_length. cbn [length].
  rewrite Nat.add_1_r, seq_S, map_app. cbn [map]. split; [rewrite <- I1|]; repeat f_equal; lia.
Qed.
