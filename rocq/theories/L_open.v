(* What the first request after Open carries. *)
From Coq Require Import String.
From Verif Require Import Base GoStrings M_conn M_message M_transport M_digest M_session M_url M_dial M_open L_base.

Lemma dial_conn uri proto reach guid werr s es s' c : dial uri proto reach guid werr s = (es, s', Some c) -> s_conn c = true /\ s_proto c = proto.
Proof.
  unfold dial. destruct (parse uri) as [u|]; [|discriminate]. destruct (split_host_port _) as [[h p]|]; [|discriminate].
  cbv zeta. destruct (_ || _); [discriminate|]. destruct (proto =? ProtoHTTP).
  - destruct werr; [discriminate|]. destruct (receive_http s) as [s2 [x|e| |]]; try discriminate. intros E. injection E as _ _ <-. split; reflexivity.
  - intros E. injection E as _ _ <-. split; reflexivity.
Qed.

Lemma auth_call_more text d verb body : exists more, snd (auth_call text d verb body) = text ++ more /\ (d_basic d = true -> more = []).
Proof.
  unfold auth_call. destruct (d_basic d).
  - exists []. rewrite app_nil_r. split; reflexivity.
  - destruct (digest_response d verb body) as [d' r]. exists r. split; [reflexivity|discriminate].
Qed.

Lemma open_tells : forall (w w1 : world) (url : bytes) (proto : Z) (reach : bytes -> Z -> bool) (guid : bytes) (werr : bool) (net : stream) (r : res unit),
  proto <> ProtoHTTP -> open w url proto reach guid werr net = (w1, Some r) ->
  exists rq, w_log w1 = w_log w ++ [Sent false rq] /\ q_verb rq = bs "OPTIONS" /\ q_session rq = s_session (w_s w) /\
    (forall text d, s_auth (w_s w) = Some (text, d) -> exists more, q_auth rq = text ++ more /\ (d_basic d = true -> more = [])).
Proof.
  intros w w1 url proto reach guid werr net r P O. unfold open in O. destruct (dial url proto reach guid werr net) as [[es net'] [c|]] eqn:D; [|discriminate].
  destruct (dial_conn _ _ _ _ _ _ _ _ _ D) as [C PR].
  destruct (options _) as [w' r'] eqn:OP. injection O as <- <-.
  unfold options, with_conn, upd_in, upd_s in OP. cbn [w_s reconn s_conn] in OP. rewrite C in OP. unfold command in OP. cbn [w_s reconn s_conn] in OP. rewrite C in OP. cbn [negb] in OP.
  cbv zeta in OP. unfold call_auth in OP. cbn [s_auth reconn] in OP.
  assert (E : proto =? ProtoHTTP = false) by lia.
  destruct (s_auth (w_s w)) as [[text d]|] eqn:A.
  - destruct (auth_call_more text d (bs "OPTIONS") []) as (more & M & B). destruct (auth_call text d (bs "OPTIONS") []) as [d' out]. cbn [snd] in M. subst out.
    unfold enqueue, write, upd_s in OP. cbv zeta beta iota in OP. cbn [w_s s_proto set_queue set_cseq set_auth reconn s_conn] in OP. rewrite PR, E in OP.
    destruct (w_writes w) as [|[e|] ?] eqn:W; cbn [w_writes] in OP; rewrite ?W in OP; injection OP as <- _; eexists; (split; [reflexivity|]); cbn [q_verb q_session q_auth s_session set_cseq set_auth reconn];
      (splits; [reflexivity..|]); intros t0 d0 X; injection X as <- <-; exists more; split; [reflexivity|exact B|reflexivity|exact B|reflexivity|exact B].
  - unfold enqueue, write, upd_s in OP. cbv zeta beta iota in OP. cbn [w_s s_proto set_queue set_cseq set_auth reconn s_conn] in OP. rewrite PR, E in OP.
    destruct (w_writes w) as [|[e|] ?] eqn:W; cbn [w_writes] in OP; rewrite ?W in OP; injection OP as <- _; eexists; (split; [reflexivity|]); cbn [q_verb q_session q_auth s_session set_cseq set_auth reconn];
      (splits; [reflexivity..|]); intros t0 d0 X; discriminate X.
Qed.
