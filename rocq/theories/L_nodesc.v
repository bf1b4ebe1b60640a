(* What a DESCRIBE response can lead to (property C75). *)
From Coq Require Import String ZifyBool.
From Verif Require Import Base GoStrings S_sdp M_conn M_message M_transport M_sdp M_digest M_session L_base L_strings L_sdp P_sdp.

Lemma describe_reply w r req : qget (s_queue (w_s w)) (p_cseq r) = Some req -> q_verb req = bs "DESCRIBE" -> p_code r <> 401 ->
  exists w1, handle_response w r = match p_body r with
    | None => (w1, Ok tt)
    | Some body => match parse_feeds (s_proto (w_s w1)) body with
                   | Ok fs => setup (upd_s w1 (fun s => set_feeds s fs))
                   | Err e => (w1, Err e)
                   | Panic => (w1, Panic)
                   | Fuel => (w1, Fuel)
                   end
    end /\ w_log w1 = w_log w ++ [Got r] /\ s_stage (w_s w1) = s_stage (w_s w) /\ w_writes w1 = w_writes w /\
    s_conn (w_s w1) = s_conn (w_s w) /\ s_proto (w_s w1) = s_proto (w_s w).
Proof.
  intros Q V C. unfold handle_response. cbv zeta. cbn [note w_s]. rewrite Q. destruct (p_code r =? 401) eqn:E; [lia|]. unfold react. rewrite V.
  change (beq (bs "DESCRIBE") (bs "OPTIONS")) with false. change (beq (bs "DESCRIBE") (bs "DESCRIBE")) with true. cbv iota.
  eexists. split; [reflexivity|]. cbn [upd_s note w_log w_s w_writes]. unfold learn_session. destruct (beq _ _); repeat split.
Qed.

Lemma command_err w verb uri h w' e : s_conn (w_s w) = true -> command w verb uri h = (w', Err e) -> In (Some e) (w_writes w).
Proof.
  intros C. unfold command. rewrite C. cbn [negb]. destruct (call_auth _ _) as [s a]. destruct (enqueue _ _) as [s2 r]. unfold write. cbn [upd_s w_s w_writes].
  destruct (_ =? _); [discriminate|]. destruct (w_writes w) as [|[x|] l]; intros E; try discriminate E. injection E as _ ->. now left.
Qed.
Lemma command_ok_env w verb uri h w' v : command w verb uri h = (w', Ok v) ->
  s_conn (w_s w') = s_conn (w_s w) /\ (forall x, In x (w_writes w') -> In x (w_writes w)).
Proof.
  unfold command. destruct (s_conn (w_s w)) eqn:C; [|discriminate]. cbn [negb]. unfold call_auth.
  destruct (s_auth (w_s w)) as [[text d]|] eqn:A.
  - destruct (auth_call text d verb []) as [d' out]. unfold enqueue, write. cbn [upd_s w_s w_writes set_auth set_cseq set_queue s_proto]. destruct (_ =? _); [discriminate|].
    destruct (w_writes w) as [|[x|] l]; intros E; try discriminate E; injection E as <- _; cbn; (split; [exact C|auto]).
  - unfold enqueue, write. cbn [upd_s w_s w_writes set_auth set_cseq set_queue s_proto]. destruct (_ =? _); [discriminate|].
    destruct (w_writes w) as [|[x|] l]; intros E; try discriminate E; injection E as <- _; cbn; (split; [exact C|auto]).
Qed.
Lemma setup_from_err todo : forall w i w' e, s_conn (w_s w) = true -> setup_from w i todo = (w', Err e) -> todo <> [] /\ In (Some e) (w_writes w).
Proof.
  induction todo as [|f todo IH]; intros w i w' e C; cbn [setup_from]; [discriminate|].
  unfold setup_uri. rewrite C.
  assert (K : forall uri, match command w (bs "SETUP") uri [(bs "Transport", transport_string (fd_transp f))] with
     | (w2, Ok _) => setup_from (upd_s w2 (mark_feed i)) (S i) todo | (w2, x) => (w2, x) end = (w', Err e) -> In (Some e) (w_writes w)).
  { intros uri. destruct (command _ _ _ _) as [w2 [v|x| |]] eqn:E; try discriminate.
    - destruct (command_ok_env _ _ _ _ _ _ E) as (C2 & W2). intros H. apply IH in H.
      + apply W2. exact (proj2 H).
      + cbn [upd_s w_s]. unfold mark_feed. destruct (nth_error _ _); cbn; congruence.
    - intros H. injection H as -> ->. exact (command_err _ _ _ _ _ _ C E). }
  intros H. split; [discriminate|]. destruct (has_prefix (bs "rtsp://") (m_control (fd_media f))); eapply K; exact H.
Qed.

Lemma make_feeds_nil proto i l : make_feeds proto i l = [] <-> l = [].
Proof. destruct l; cbn; split; congruence. Qed.

Lemma video_line_dec l : {video_line l} + {~ video_line l}.
Proof.
  destruct (has_prefix (bs "m=video ") (trim_space l)) eqn:E.
  - left. eexists. apply has_prefix_inv. exact E.
  - right. intros (v & H). rewrite H, has_prefix_app in E. discriminate E.
Qed.
Lemma some_video ls f fs : Forall one_line ls -> sdp_parse (body_of ls) = Ok (f :: fs) -> Exists video_line ls.
Proof.
  intros O P. destruct (Exists_dec video_line ls video_line_dec) as [E|N]; [exact E|exfalso].
  assert (B : Forall (fun l => ~ bare_video_line l) ls).
  { apply Forall_forall. intros l I B. assert (E : sdp_parse (body_of ls) = Panic); [|congruence].
    apply (C42_crash (body_of ls) l); [|exact B]. rewrite split_body by exact O. destruct ls; [contradiction|exact I]. }
  rewrite C41_other_sections in P; [discriminate|exact O|].
  apply Forall_forall. intros l I. split; [|exact (proj1 (Forall_forall _ _) B l I)]. intros V. apply N. apply Exists_exists. exists l. now split.
Qed.
