(* Lemmas: responses and requests that stop the session's loop, challenges, refusals. *)
From Coq Require Import String.
From Verif Require Import Base GoStrings S_digest M_digest M_conn S_message M_message M_transport M_session S_session S_handshake S_auth M_main S_refuse
  L_base L_strings L_message L_session L_frames L_handshake L_digest L_auth.
From Coq Require Import ZifyBool.

Lemma keepalive_tcp w t1 t2 : s_conn (w_s w) = true -> s_proto (w_s w) = ProtoTCP -> keepalive w t1 t2 = (w, Ok tt).
Proof. intros C P. unfold keepalive, with_conn. rewrite C, P. reflexivity. Qed.

Lemma unread_stops w t1 t2 b s s' e : s_conn (w_s w) = true -> s_proto (w_s w) = ProtoTCP -> w_in w = Some b :: s -> b <> 36 ->
  unpack_response (Some b :: s) = (s', Err e) -> is_timeout e = false -> step (w, Live) (Turn t1 t2) = (upd_in w s', NoLoop).
Proof.
  intros C P E B U T. unfold step, turn. rewrite keepalive_tcp by assumption. unfold receive. rewrite E.
  change (peek 1 (Some b :: s)) with (Some b :: s, Ok [b]). cbv beta iota. rewrite U.
  assert (X : forall A (x y : A), match [b] with [36] => x | _ => y end = y).
  { intros A x y. destruct b as [|p|p]; try reflexivity. do 6 (destruct p as [p|p|]; try reflexivity). contradiction B. reflexivity. }
  replace (match b with 36 => _ | _ => (upd_in w s', Err e) end) with (upd_in w s', @Err unit e).
  - rewrite T. reflexivity.
  - symmetry. apply (X (world * res unit)%type).
Qed.

Lemma long_body code reason fs body rest :
  100 <= code <= 999 -> line_text reason -> Forall sfield_ok fs -> content_ok fs body -> 2048 < zlen body < 2 ^ 63 ->
  unpack_response (sent (response_text (bs "RTSP/1.0") code reason fs body) ++ rest) = (sent body ++ rest, Err ErrBufferFull).
Proof.
  intros C R F K L. rewrite response_sent. unfold unpack_response.
  rewrite first_line_read; [|vm_compute; intuition discriminate|exact C|exact R].
  rewrite status_line_ok; [|vm_compute; intuition discriminate|exact C].
  rewrite header_lines_ok;
    [|exact F|unfold sent; rewrite app_length, map_length, app_length; pose proof (fields_length fs); lia].
  cbv zeta. rewrite !header_run_fields; [|exact F|repeat constructor|exact F|repeat constructor].
  destruct body as [|b body]; [unfold zlen in L; cbn in L; lia|]. cbn [content_ok] in K.
  rewrite K. rewrite atoi_itoa by lia.
  destruct (zlen (b :: body) >? 0) eqn:E; [|lia].
  rewrite read_bytes_long by lia. reflexivity.
Qed.

Lemma resp_step w i rest : s_conn (w_s w) = true -> s_proto (w_s w) = ProtoTCP -> item_ok i -> ~ noise i -> w_in w = item_stream i ++ rest ->
  exists r, tells r i /\ forall t1 t2, turn w t1 t2 = match handle_response (upd_in w rest) r with
    | (w, Ok _) => (w, Again) | (w, Err e) => (w, if is_timeout e then Again else Stop) | (w, Panic) | (w, Fuel) => (w, Crash) end.
Proof.
  intros C P K G E. destruct i as [ch p|code reason fs body|]; [destruct (G I)| |destruct (G I)]. cbn [item_ok item_stream] in *.
  destruct K as (Kc & Rn & F & Co & L).
  destruct (unpack_response_spec code reason fs body rest Kc Rn F Co L) as (r & U & H1 & H2 & H3 & H4). fold (sent (response_text (bs "RTSP/1.0") code reason fs body)) in U. rewrite <- E in U.
  exists r. split; [cbn [tells]; auto|]. intros t1 t2. rewrite turn_tcp by assumption. unfold receive.
  assert (Pk : peek 1 (w_in w) = (w_in w, Ok [82])).
  { rewrite E. unfold response_text. change (bs "RTSP/1.0") with (82 :: bs "TSP/1.0"). cbn [app]. rewrite sent_cons. reflexivity. }
  rewrite Pk. cbv beta iota. rewrite U. reflexivity.
Qed.

(* ---- a request of the server ---- *)
Lemma server_request verb uri fields body rest : method verb -> line_text uri -> 
  unpack_response (sent (request_text verb uri fields body) ++ rest) = (sent (flat_map sfield_text fields ++ [13; 10] ++ body) ++ rest, Err ErrNotSupported).
Proof.
  intros (N & M) (U1 & U2).
  assert (E : request_text verb uri fields body = ((verb ++ 32 :: uri ++ bs " RTSP/1.0" ++ [13]) ++ [10]) ++ (flat_map sfield_text fields ++ [13; 10] ++ body)).
  { unfold request_text. repeat (rewrite <- ?app_assoc; cbn [app]). reflexivity. }
  rewrite E, sent_app, <- app_assoc. unfold unpack_response. rewrite read_line_sent.
  - unfold status_line. rewrite <- app_assoc. cbn [app]. rewrite cut_app.
    + destruct (beq verb (bs "RTSP/1.0")) eqn:B; [|reflexivity]. apply beq_eq in B. rewrite B in M.
      assert (X : In 47 (bs "RTSP/1.0")) by (vm_compute; tauto). rewrite Forall_forall in M. specialize (M 47 X). lia.
    + intros I. rewrite Forall_forall in M. specialize (M 32 I). lia.
  - intros I. apply in_app_or in I as [I|[I|I]]; [rewrite Forall_forall in M; specialize (M 10 I); lia|discriminate|].
    apply in_app_or in I as [I|I]; [contradiction|]. vm_compute in I. intuition discriminate.
Qed.

(* ---- several challenges ---- *)
Lemma get_offers fields : field_value fields (bs "WWW-Authenticate") = last (offers fields) [].
Proof.
  unfold field_value, spec_get, offers. rewrite <- (rev_involutive fields). induction (rev fields) as [|f r IH]; [reflexivity|].
  cbn [rev]. rewrite map_app, fold_left_app, filter_app, map_app. cbn [map fold_left filter].
  change (same_name (bs "WWW-Authenticate") (f_name f)) with (is_offer f).
  destruct (is_offer f); cbn [map]; [rewrite last_last; reflexivity|rewrite app_nil_r; exact IH].
Qed.

Lemma offer_answered w n req code reason fields body rest user pass others c :
  s_conn (w_s w) = true -> s_proto (w_s w) = ProtoTCP -> w_writes w = [] -> s_user (w_s w) = Some (user, pass) ->
  item_ok (Resp code reason fields body) -> code = 401 -> 0 <= n < 2 ^ 63 -> field_value fields (bs "CSeq") = itoa n ->
  qget (s_queue (w_s w)) n = Some req ->
  offers fields = others ++ [asking_text c] -> challenge_ok c -> w_in w = item_stream (Resp code reason fields body) ++ rest ->
  exists w' r rq, (forall t1 t2, turn w t1 t2 = (w', Again)) /\ w_in w' = rest /\ w_log w' = w_log w ++ [Got r; Sent true rq] /\ p_cseq r = n /\ p_code r = 401 /\
    q_verb rq = q_verb req /\ q_uri rq = q_uri req /\
    q_auth rq = credentials (s_uri (w_s w)) user pass (hd [] (w_rand w)) c (q_verb req).
Proof.
  intros C P W U K Co B A Q O CO E.
  assert (Fs : field_value fields (bs "WWW-Authenticate") = asking_text c) by (rewrite get_offers, O, last_last; reflexivity).
  assert (Tr : trim_space (asking_text c) = asking_text c).
  { cbn [item_ok] in K. destruct K as (_ & _ & F & _). assert (X : In (asking_text c) (offers fields)) by (rewrite O; apply in_or_app; right; left; reflexivity).
    unfold offers in X. apply in_map_iff in X as (f & X1 & X2). apply filter_In in X2 as (X2 & _). rewrite Forall_forall in F. destruct (F f X2) as (_ & _ & _ & _ & T). congruence. }
  destruct (resp_step w _ rest C P K ltac:(intros []) E) as (r & T & H). destruct T as (T1 & _ & T2 & T3).
  specialize (T3 n B A).
  assert (Hd : header_get (p_header r) (bs "WWW-Authenticate") = asking_text c) by (rewrite T2; [exact Fs|vm_compute; repeat constructor; congruence]).
  destruct (answers_steady (s_uri (w_s w)) (asking_text c) user pass (hd [] (w_rand w)) c Tr CO) as (d & d' & text & D1 & D2 & D3).
  pose proof (D3 [q_verb req]) as D4. cbn [map calls] in D4. destruct (auth_call text d' (q_verb req) []) as [d2 out] eqn:D5. injection D4 as D4.
  assert (HR : exists w' rq, handle_response (upd_in w rest) r = (w', Ok tt) /\ w_in w' = rest /\ w_log w' = w_log w ++ [Got r; Sent true rq] /\ q_verb rq = q_verb req /\ q_uri rq = q_uri req /\ q_auth rq = out).
  { unfold handle_response. cbv zeta. cbn [note upd_in w_s]. rewrite T3, Q, T1, Co. change (401 =? 401) with true. cbv iota.
    unfold retry, authorize. cbn [upd_s note upd_in w_s set_queue s_uri s_user w_rand]. rewrite Hd, D1, U, D2.
    unfold call_auth. cbn [w_s set_auth s_auth]. rewrite D5.
    unfold enqueue. cbv zeta. cbn [q_verb q_uri q_auth q_header set_auth s_cseq s_session s_queue set_queue].
    unfold write, upd_s, upd_in. cbn [w_s w_in w_writes w_listens w_rand w_log note set_queue set_auth s_proto]. rewrite P, W. change (ProtoTCP =? ProtoHTTP) with false. cbv iota zeta.
    eexists. exists (mkReq (q_verb req) (s_cseq (w_s w)) (q_uri req) out (s_session (w_s w)) (q_header req)). split; [reflexivity|]. cbn [w_in w_log q_verb q_uri q_auth]. splits; try reflexivity. rewrite <- app_assoc. reflexivity. }
  destruct HR as (w' & rq & HR & W1 & W2 & W3 & W4 & W5). exists w', r, rq. splits; try assumption; try congruence.
  intros t1 t2. rewrite H, HR. reflexivity.
Qed.

Lemma offer_unknown w n req code reason fields body rest others v :
  s_conn (w_s w) = true -> s_proto (w_s w) = ProtoTCP ->
  item_ok (Resp code reason fields body) -> code = 401 -> 0 <= n < 2 ^ 63 -> field_value fields (bs "CSeq") = itoa n ->
  qget (s_queue (w_s w)) n = Some req ->
  offers fields = others ++ [v] -> (forall basic more, trim_space v <> scheme basic ++ more) -> w_in w = item_stream (Resp code reason fields body) ++ rest ->
  exists w' r, (forall t1 t2, turn w t1 t2 = (w', Stop)) /\ w_log w' = w_log w ++ [Got r].
Proof.
  intros C P K Co B A Q O N E.
  assert (Fs : field_value fields (bs "WWW-Authenticate") = v) by (rewrite get_offers, O, last_last; reflexivity).
  destruct (resp_step w _ rest C P K ltac:(intros []) E) as (r & T & H). destruct T as (T1 & _ & T2 & T3).
  specialize (T3 n B A). assert (Hd : header_get (p_header r) (bs "WWW-Authenticate") = v) by (rewrite T2; [exact Fs|vm_compute; repeat constructor; congruence]).
  assert (HR : exists w' e, handle_response (upd_in w rest) r = (w', Err e) /\ is_timeout e = false /\ w_log w' = w_log w ++ [Got r]).
  { unfold handle_response. cbv zeta. cbn [note upd_in w_s]. rewrite T3, Q, T1, Co. change (401 =? 401) with true. cbv iota.
    unfold retry, authorize. rewrite Hd, new_digest_malformed by exact N. do 2 eexists. split; [reflexivity|]. split; reflexivity. }
  destruct HR as (w' & e & HR & T & L). exists w', r. split; [|exact L]. intros t1 t2. rewrite H, HR, T. reflexivity.
Qed.

(* ---- refusals ---- *)
Lemma refused w r req : qget (s_queue (w_s w)) (p_cseq r) = Some req -> order_of (q_verb req) -> p_code r <> 200 -> p_code r <> 401 ->
  exists w', handle_response w r = (w', Ok tt) /\ w_log w' = w_log w ++ [Got r] /\ w_in w' = w_in w /\ s_conn (w_s w') = s_conn (w_s w) /\ s_proto (w_s w') = s_proto (w_s w) /\
    s_stage (w_s w') = s_stage (w_s w).
Proof.
  intros Q O C1 C2. unfold handle_response. cbv zeta. cbn [note w_s]. rewrite Q. destruct (p_code r =? 401) eqn:E1; [lia|].
  exists (upd_s (upd_s (note w (Got r)) (fun s => set_queue s (qdel (s_queue s) (p_cseq r)))) (fun s => learn_session s r)). split.
  - unfold react. destruct (p_code r =? 200) eqn:E2; [lia|]. destruct O as [->|[->| ->]]; reflexivity.
  - unfold learn_session. cbn [upd_s note w_log w_in w_s]. destruct (beq _ _); repeat split.
Qed.

(* the program, once there is nothing but silence *)
Definition idle (y : system) (k : nat) : Prop := y_fate y = Goes /\ y_loop y <> Dead /\ y_stage y = None /\ y_data y = [] /\ c_running (y_c y) = false /\ c_ticked (y_c y) = false /\
  s_conn (w_s (y_w y)) = true /\ s_proto (w_s (y_w y)) = ProtoTCP /\ w_in (y_w y) = repeat None k.
Lemma idle_step y k e y' : idle y k -> ystep y e = Some y' -> exists k', idle y' k' /\ w_log (y_w y') = w_log (y_w y).
Proof.
  intros (F & Lp & St & D & Rn & Tk & C & P & I) S. unfold ystep in S. rewrite F in S. destruct e as [t1 t2| | | |].
  - rewrite St, D in S. destruct (y_loop y) eqn:EL; try discriminate. change (zlen (@nil (Z * bytes)) <=? 20) with true in S. cbv iota in S.
    rewrite turn_tcp in S by assumption. unfold receive in S. rewrite I in S. destruct k as [|k].
    + change (peek 1 (repeat None 0)) with ([] : stream, @Err bytes ErrEOF) in S. cbv beta iota zeta in S. change (is_timeout ErrEOF) with false in S.
      injection S as <-. exists 0%nat. unfold idle, news. cbn [y_fate y_loop y_stage y_data y_c y_w upd_in w_s w_log w_in]. rewrite skipn_all. splits; try assumption; try reflexivity. discriminate.
    + change (peek 1 (repeat None (Datatypes.S k))) with (repeat None k : stream, @Err bytes ErrTimeout) in S. cbv beta iota zeta in S. change (is_timeout ErrTimeout) with true in S.
      injection S as <-. exists k. unfold idle, news. cbn [y_fate y_loop y_stage y_data y_c y_w upd_in w_s w_log w_in]. rewrite skipn_all. splits; try assumption; try reflexivity; discriminate.
  - rewrite St in S. discriminate.
  - rewrite D in S. discriminate.
  - rewrite Tk in S. discriminate.
  - rewrite Rn in S. discriminate.
Qed.
Lemma idle_run es : forall y k y', idle y k -> yrun y es = Some y' -> y_fate y' = Goes /\ w_log (y_w y') = w_log (y_w y).
Proof.
  induction es as [|e es IH]; intros y k y' Id R; cbn [yrun] in R.
  - injection R as <-. destruct Id as (F & _). auto.
  - destruct (ystep y e) as [y1|] eqn:S; [|discriminate]. destruct (idle_step y k e y1 Id S) as (k1 & Id1 & L1). destruct (IH y1 k1 y' Id1 R) as (F & L). split; [exact F|congruence].
Qed.

Lemma refused_program y n i req k es y' : y_fate y = Goes -> y_loop y = Live -> y_stage y = None -> y_data y = [] -> c_running (y_c y) = false -> c_ticked (y_c y) = false ->
  s_conn (w_s (y_w y)) = true -> s_proto (w_s (y_w y)) = ProtoTCP -> 0 <= n < 2 ^ 63 -> qget (s_queue (w_s (y_w y))) n = Some req -> order_of (q_verb req) ->
  refuses n i -> item_ok i -> w_in (y_w y) = item_stream i ++ repeat None k -> yrun y es = Some y' ->
  y_fate y' = Goes /\ exists l, w_log (y_w y') = w_log (y_w y) ++ l /\ (l = [] \/ exists r, l = [Got r]).
Proof.
  intros F Lp St D Rn Tk C P B Q O Re K I R. destruct es as [|e es]; cbn [yrun] in R.
  - injection R as <-. split; [exact F|]. exists []. split; [rewrite app_nil_r; reflexivity|left; reflexivity].
  - destruct (ystep y e) as [y1|] eqn:S; [|discriminate]. unfold ystep in S. rewrite F in S. destruct e as [t1 t2| | | |].
    + rewrite St, D, Lp in S. change (zlen (@nil (Z * bytes)) <=? 20) with true in S. cbv iota in S.
      assert (Nn : ~ noise i) by (destruct i; [destruct Re|intros []|destruct Re]).
      destruct (resp_step (y_w y) i _ C P K Nn I) as (r & T & H). rewrite H in S.
      destruct i as [ch p|code reason fs body|]; [destruct Re| |destruct Re]. destruct Re as (R1 & R2 & R3). destruct T as (T1 & _ & _ & T3). specialize (T3 n B R3).
      destruct (refused (upd_in (y_w y) (repeat None k)) r req) as (w1 & HR & L1 & I1 & C1 & P1 & _); [cbn [upd_in w_s]; congruence|exact O|congruence|congruence|].
      rewrite HR in S. cbv beta iota zeta in S. injection S as <-. cbn [upd_in w_s w_log w_in] in *.
      match type of R with yrun ?z _ = _ => assert (Id : idle z k) end.
      { unfold idle, news. cbn [y_fate y_loop y_stage y_data y_c y_w]. rewrite L1, skipn_app, skipn_all, Nat.sub_diag. cbn. splits; try assumption; try reflexivity; try congruence; discriminate. }
      destruct (idle_run es _ k y' Id R) as (F' & L').
      split; [exact F'|]. cbn [y_w] in L'. exists [Got r]. split; [congruence|right; exists r; reflexivity].
    + rewrite St in S. discriminate.
    + rewrite D in S. discriminate.
    + rewrite Tk in S. discriminate.
    + rewrite Rn in S. discriminate.
Qed.
