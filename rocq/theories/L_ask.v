(* Lemmas: the whole program with a server that asks for credentials, next to the one whose server does not. *)
From Coq Require Import String Permutation.
From Verif Require Import Base GoStrings S_rtp S_nal M_nal M_conn S_message M_message M_transport M_sdp M_digest M_sps M_session S_session S_handshake S_auth M_main S_main S_serve S_ask
  L_base L_strings L_message L_session L_frames L_flow L_bufio L_handshake L_main L_serve L_auth.
From Coq Require Import ZifyBool ZifyNat.

Local Opaque digest_response.

(* ---- more bytes behind a response ---- *)
Lemma take_more n : forall s s' l X, take_bytes n s = (s', Ok l) -> take_bytes n (s ++ X) = (s' ++ X, Ok l).
Proof.
  induction n as [|n IH]; intros s s' l X E; cbn [take_bytes] in *; [injection E as <- <-; reflexivity|].
  destruct s as [|[b|] s]; cbn [app]; try discriminate. destruct (take_bytes n s) as [r [x|e| |]] eqn:T; try discriminate. injection E as <- <-. rewrite (IH _ _ _ X T). reflexivity.
Qed.
Lemma take_len n : forall s s' l, take_bytes n s = (s', Ok l) -> (length l <= length s')%nat.
Proof.
  induction n as [|n IH]; intros s s' l E; cbn [take_bytes] in *; [injection E as <- <-; cbn; lia|].
  destruct s as [|[b|] s]; try discriminate. destruct (take_bytes n s) as [r [x|e| |]] eqn:T; try discriminate. injection E as <- <-. apply IH in T. cbn [length]. lia.
Qed.
Lemma read_bytes_more n s s' l X : read_bytes n s = (s', Ok l) -> read_bytes n (s ++ X) = (s' ++ X, Ok l).
Proof.
  unfold read_bytes, peek. destruct (n >? bufio_size); [discriminate|]. destruct (take_bytes (Z.to_nat n) s) as [r [x|e| |]] eqn:T; try discriminate.
  intros E. injection E as <- <-. rewrite (take_more _ _ _ _ X T). unfold discard. rewrite skipn_app. pose proof (take_len _ _ _ _ T). replace (length x - length r)%nat with 0%nat by lia. reflexivity.
Qed.
Lemma read_line_more s : forall s' l X, read_line s = (s', Ok l) -> read_line (s ++ X) = (s' ++ X, Ok l).
Proof.
  induction s as [|[b|] s IH]; intros s' l X E; cbn [read_line app] in *; try discriminate. destruct (b =? 10); [injection E as <- <-; reflexivity|].
  destruct (read_line s) as [r [x|e| |]] eqn:T; try discriminate. injection E as <- <-. rewrite (IH _ _ X eq_refl). reflexivity.
Qed.
Lemma header_lines_more f : forall f' h s s' h' X, (f <= f')%nat -> header_lines f h s = (s', Ok h') -> header_lines f' h (s ++ X) = (s' ++ X, Ok h').
Proof.
  induction f as [|f IH]; intros f' h s s' h' X L E; cbn [header_lines] in E; [discriminate|]. destruct f' as [|f']; [lia|]. cbn [header_lines].
  destruct (read_line s) as [r [x|e| |]] eqn:T; try discriminate. rewrite (read_line_more _ _ _ X T).
  destruct (beq (trim_space x) []); [injection E as <- <-; reflexivity|]. destruct (split2 58 (trim_space x)) as [|k [|v [|]]]; try discriminate. apply IH; [lia|exact E].
Qed.
Lemma unpack_more s s' r X : unpack_response s = (s', Ok r) -> unpack_response (s ++ X) = (s' ++ X, Ok r).
Proof.
  unfold unpack_response. destruct (read_line s) as [s1 [l|e| |]] eqn:T; try discriminate. rewrite (read_line_more _ _ _ X T).
  destruct (status_line (bs "RTSP/1.0") l) as [[st code]|e| |]; try discriminate.
  destruct (header_lines (S (length s1)) [] s1) as [s2 [h|e| |]] eqn:H; try discriminate.
  rewrite (header_lines_more _ (S (length (s1 ++ X))) _ _ _ _ X) with (2 := H) by (rewrite app_length; lia). cbv zeta.
  destruct (match atoi (header_get h (bs "Content-Length")) with (n, None) => n | _ => 0 end >? 0).
  - destruct (read_bytes _ s2) as [s3 [b|e| |]] eqn:B; try discriminate. rewrite (read_bytes_more _ _ _ _ X B). intros E. injection E as <- <-. reflexivity.
  - intros E. injection E as <- <-. reflexivity.
Qed.
Lemma turn_more w t1 t2 i rest X w1 : s_conn (w_s w) = true -> s_proto (w_s w) = ProtoTCP -> item_ok i -> w_in w = item_stream i ++ rest -> turn w t1 t2 = (w1, Again) ->
  turn (upd_in w (w_in w ++ X)) t1 t2 = (upd_in w1 (w_in w1 ++ X), Again).
Proof.
  intros C P K E T. assert (Nq : noise i \/ ~ noise i) by (destruct i; cbn; tauto). destruct Nq as [N|N].
  - rewrite (noise_turn w t1 t2 i rest C P N K E) in T. injection T as <-.
    rewrite (noise_turn (upd_in w (w_in w ++ X)) t1 t2 i (rest ++ X) C P N K) by (cbn [upd_in w_in]; rewrite E, <- app_assoc; reflexivity). reflexivity.
  - destruct i as [ch p|code reason fs body|]; [destruct (N I)| |destruct (N I)]. cbn [item_ok item_stream] in *. destruct K as (Kc & Rn & F & Co & L).
    destruct (unpack_response_spec code reason fs body rest Kc Rn F Co L) as (r & U & _). fold (sent (response_text (bs "RTSP/1.0") code reason fs body)) in U. rewrite <- E in U.
    assert (Pk : forall Y, peek 1 (w_in w ++ Y) = (w_in w ++ Y, Ok [82])).
    { intros Y. rewrite E. unfold response_text. change (bs "RTSP/1.0") with (82 :: bs "TSP/1.0"). cbn [app]. rewrite sent_cons. reflexivity. }
    rewrite turn_tcp in T by assumption. rewrite turn_tcp by assumption. unfold receive in *. cbn [upd_in w_in]. rewrite Pk. pose proof (Pk []) as Pk0. rewrite !app_nil_r in Pk0. rewrite Pk0 in T. cbv beta iota in *.
    rewrite (unpack_more _ _ _ X U). rewrite U in T. pose proof (handle_response_in r w rest) as B1. pose proof (handle_response_in r w (rest ++ X)) as B2. cbv beta in B1, B2.
    change (upd_in (upd_in w (w_in w ++ X)) (rest ++ X)) with (upd_in w (rest ++ X)).
    rewrite B2. rewrite B1 in T. destruct (handle_response w r) as [w2 x]. cbn [fst snd] in *. destruct x as [u|e| |]; try discriminate.
    + injection T as <-. reflexivity.
    + destruct (is_timeout e); [|discriminate]. injection T as <-. reflexivity.
Qed.

(* ---- queue and log of a session ---- *)
Definition tidy (w : world) : Prop :=
  NoDup (map fst (s_queue (w_s w))) /\ Forall (fun e => In (snd e) (sent_requests (w_log w)) /\ q_cseq (snd e) = fst e) (s_queue (w_s w)) /\
  Forall (fun r => q_auth r <> []) (retransmissions (w_log w)).
Lemma qdel_keys q k : NoDup (map fst q) -> NoDup (map fst (qdel q k)) /\ ~ In k (map fst (qdel q k)).
Proof.
  unfold qdel. intros N. split.
  - induction q as [|[a r] q IH]; cbn [filter map fst] in *; [constructor|]. inversion N; subst. destruct (negb (a =? k)); cbn [map fst]; [|auto]. constructor; [|auto].
    intros X. apply H1. apply in_map_iff in X as (e & <- & X). apply filter_In in X as [X _]. apply in_map. exact X.
  - intros X. apply in_map_iff in X as (e & <- & X). apply filter_In in X as [_ X]. rewrite Z.eqb_refl in X. discriminate.
Qed.
Lemma qset_keys q k r : NoDup (map fst q) -> NoDup (map fst (qset q k r)).
Proof. intros N. unfold qset. cbn [map fst]. destruct (qdel_keys q k N). constructor; assumption. Qed.
Lemma sent_more log e r : In r (sent_requests log) -> In r (sent_requests (log ++ [e])).
Proof. intros X. rewrite sent_requests_app. apply in_or_app. left. exact X. Qed.
Lemma qdel_sent log e q k : Forall (fun x => In (snd x) (sent_requests log) /\ q_cseq (snd x) = fst x) q ->
  Forall (fun x => In (snd x) (sent_requests (log ++ [e])) /\ q_cseq (snd x) = fst x) (qdel q k).
Proof.
  intros F. unfold qdel. rewrite Forall_forall in *. intros x X. apply filter_In in X as [X _]. destruct (F x X) as [A B]. split; [apply sent_more; exact A|exact B].
Qed.
Lemma sent_keep log e q : Forall (fun x => In (snd x) (sent_requests log) /\ q_cseq (snd x) = fst x) q ->
  Forall (fun x : Z * request => In (snd x) (sent_requests (log ++ [e])) /\ q_cseq (snd x) = fst x) q.
Proof. intros F. eapply Forall_impl; [|exact F]. intros x [A B]. split; [apply sent_more; exact A|exact B]. Qed.
Lemma prim_tidy x y : prim x y -> tidy (fst x) -> tidy (fst y).
Proof.
  intros P (N & F & R). destruct P as [w w' c C1 C2 C3 C4 C5 C6 C7 C8|w e c E|w t1 t2 c _ _ _ _|w r c Hc Hs|w r c|w r req rsp Hc Hs Ha Hp Hv Hu Hh|w st req rsp _ _ _]; cbn [fst] in *; unfold tidy.
  - rewrite C4, C8. auto.
  - cbn [note w_s w_log]. rewrite retransmissions_app. splits; [exact N|apply sent_keep; exact F|]. apply Forall_app. split; [exact R|]. destruct e as [[|] ?| | | | | |]; try contradiction; constructor.
  - cbn [note upd_s w_s w_log set_last s_queue]. rewrite retransmissions_app. splits; [exact N|apply sent_keep; exact F|]. apply Forall_app. split; [exact R|constructor].
  - cbn [note upd_s w_s w_log set_queue s_queue]. rewrite retransmissions_app. splits; [apply qset_keys; exact N| |apply Forall_app; split; [exact R|constructor]].
    unfold qset. apply Forall_cons; [|apply qdel_sent; exact F]. cbn [fst snd]. split; [|reflexivity]. rewrite sent_requests_app. apply in_or_app. right. left. reflexivity.
  - destruct (qget (s_queue (w_s w)) (p_cseq r)) as [req|]; cbn [fst note upd_s w_s w_log]; rewrite retransmissions_app.
    + assert (Q : s_queue (if p_code r =? 401 then set_queue (w_s w) (qdel (s_queue (w_s w)) (p_cseq r)) else learn_session (set_queue (w_s w) (qdel (s_queue (w_s w)) (p_cseq r))) r) = qdel (s_queue (w_s w)) (p_cseq r)).
      { destruct (p_code r =? 401); [reflexivity|]. unfold learn_session. destruct (beq _ _); reflexivity. }
      rewrite Q. splits; [apply qdel_keys; exact N|apply qdel_sent; exact F|apply Forall_app; split; [exact R|constructor]].
    + splits; [exact N|apply sent_keep; exact F|apply Forall_app; split; [exact R|constructor]].
  - cbn [note upd_s w_s w_log set_queue s_queue]. rewrite retransmissions_app. splits; [apply qset_keys; exact N| |apply Forall_app; split; [exact R|constructor; [exact Ha|constructor]]].
    unfold qset. apply Forall_cons; [|apply qdel_sent; exact F]. cbn [fst snd]. split; [|reflexivity]. rewrite sent_requests_app. apply in_or_app. right. left. reflexivity.
  - cbn [notify note upd_s w_s w_log set_stage s_queue]. rewrite retransmissions_app. splits; [exact N|apply sent_keep; exact F|]. apply Forall_app. split; [exact R|constructor].
Qed.
Lemma prims_tidy x y : prims x y -> tidy (fst x) -> tidy (fst y).
Proof. induction 1; intros T; [exact T|]. apply IHprims. eapply prim_tidy; eassumption. Qed.
Lemma turn_tidy w t1 t2 : s_proto (w_s w) <> ProtoHTTP -> tidy w -> tidy (fst (turn w t1 t2)).
Proof. intros P T. destruct (turn w t1 t2) as [w' o] eqn:E. destruct (turn_prims _ _ _ _ _ None P E) as (c & R). exact (prims_tidy _ _ R T). Qed.
Lemma cmd_tidy w cm : s_proto (w_s w) <> ProtoHTTP -> tidy w -> tidy (fst (do_cmd w cm)).
Proof. intros P T. destruct (do_cmd w cm) as [w' o] eqn:E. pose proof (do_cmd_prims _ _ _ _ None P E) as R. exact (prims_tidy _ _ R T). Qed.
Lemma on_stage_tidy w c st : s_proto (w_s w) <> ProtoHTTP -> tidy w -> tidy (fst (fst (on_stage w c st))).
Proof.
  intros P T. unfold on_stage. destruct (st =? StageReady); [|destruct (_ || _); exact T].
  pose proof (cmd_tidy w CPlay P T) as X. change (do_cmd w CPlay) with (play w) in X. destruct (play w) as [w' [u|e| |]]; exact X.
Qed.
Lemma on_tick_tidy w c : s_proto (w_s w) <> ProtoHTTP -> tidy w -> tidy (fst (fst (on_tick w c))).
Proof.
  intros P T. unfold on_tick. destruct (_ =? _).
  { pose proof (cmd_tidy w CPause P T) as X. change (do_cmd w CPause) with (pause w) in X. destruct (pause w) as [w' [u|e| |]]; exact X. }
  destruct (_ =? _); [|destruct (_ =? _); exact T].
  pose proof (cmd_tidy w CTeardown P T) as X. change (do_cmd w CTeardown) with (teardown w) in X. destruct (teardown w) as [w' [u|e| |]]; exact X.
Qed.
Lemma ystep_tidy y e y' : s_proto (w_s (y_w y)) <> ProtoHTTP -> ystep y e = Some y' -> tidy (y_w y) -> tidy (y_w y').
Proof.
  intros P S T. unfold ystep in S. destruct (y_fate y); try discriminate. destruct e as [t1 t2| | | |].
  - destruct (y_loop y), (y_stage y); try discriminate. destruct (_ <=? _); [|discriminate]. pose proof (turn_tidy _ t1 t2 P T) as X. destruct (turn (y_w y) t1 t2) as [w' en].
    assert (E : y_w y' = w') by (inversion S; reflexivity). rewrite E. exact X.
  - destruct (y_stage y) as [st|]; [|discriminate]. pose proof (on_stage_tidy _ (y_c y) st P T) as X. destruct (on_stage _ _ _) as [[w' c'] f]. inversion S. exact X.
  - destruct (y_data y) as [|[ch p] d]; [discriminate|]. destruct (on_packet _ _ _). inversion S. exact T.
  - destruct (c_ticked _); [|discriminate]. pose proof (on_tick_tidy (y_w y) (mkC (c_state (y_c y)) (c_sink (y_c y)) (c_running (y_c y)) false) P T) as X. destruct (on_tick _ _) as [[w' c'] f]. inversion S. exact X.
  - destruct (c_running _); [|discriminate]. inversion S. exact T.
Qed.

(* ---- the two programs ---- *)
Definition twin (o : bytes -> bytes) (yp yd : system) : Prop :=
  related o (upd_in (y_w yp) (w_in (y_w yd))) (y_w yd) /\ y_loop yd = y_loop yp /\ y_c yd = y_c yp /\ y_stage yd = y_stage yp /\ y_data yd = y_data yp /\ y_fate yd = y_fate yp.
(* what a step adds to both, with the stream of the second ahead by X *)
Definition step_twin (o : bytes -> bytes) (X : stream) (yp yd yp' yd' : system) : Prop :=
  twin o yp' yd' /\ w_in (y_w yd') = w_in (y_w yp') ++ X /\
  (exists new, w_log (y_w yp') = w_log (y_w yp) ++ new /\ w_log (y_w yd') = w_log (y_w yd) ++ map (dress_eff o) new) /\
  s_user (w_s (y_w yd')) = s_user (w_s (y_w yd)) /\ w_rand (y_w yd') = w_rand (y_w yd).
Lemma stages_in_dress o l : stages_in (map (dress_eff o) l) = stages_in l.
Proof. exact (stages_dress o l). Qed.
Lemma packets_in_dress o l : packets_in (map (dress_eff o) l) = packets_in l.
Proof. exact (packets_dress o l). Qed.
Lemma inv_live ms user uri rnd x w : inv ms user uri rnd x w -> y_loop (x_y x) = Live /\ s_conn (w_s (y_w (x_y x))) = true /\ s_proto (w_s (y_w (x_y x))) = ProtoTCP /\ w_writes (y_w (x_y x)) = [] /\ s_uri (w_s (y_w (x_y x))) = uri.
Proof. intros I. destruct I. splits; reflexivity. Qed.
Lemma inv_items ms user uri rnd x w : inv ms user uri rnd x w -> exists items, w_in (y_w (x_y x)) = flat_map item_stream items /\ Forall item_ok items.
Proof.
  intros I. destruct I as [ph P ks done items sinks st q id fs idx verbs cs log cst snk running ticked stg data ft HP HF]. exists items. split; [reflexivity|].
  pose proof (fl_carries _ _ _ _ _ _ _ _ _ _ _ HF) as C. clear - C. induction C; constructor; try assumption. destruct H as (A & _). exact A.
Qed.

Lemma turn_twin ms uri o X yp yd done w t1 t2 yd' : inv ms None uri [] (mkX yp done) w -> ms <> [] -> Forall sets_ok ms -> twin o yp yd -> w_in (y_w yd) = w_in (y_w yp) ++ X -> w_in (y_w yp) <> [] ->
  ystep yd (YTurn t1 t2) = Some yd' -> exists yp', ystep yp (YTurn t1 t2) = Some yp' /\ step_twin o X yp yd yp' yd'.
Proof.
  intros I Ne So (R & E1 & E2 & E3 & E4 & E5) W N S. destruct (inv_live _ _ _ _ _ _ I) as (_ & C & P & _). cbn [x_y] in C, P. destruct (inv_items _ _ _ _ _ _ I) as (items & Wi & K). cbn [x_y] in Wi.
  destruct items as [|i items]; [contradiction|]. apply Forall_cons_iff in K as [K _]. cbn [flat_map] in Wi.
  unfold ystep in S. rewrite E1, E3, E4, E5 in S. destruct (y_fate yp) eqn:Fp; try discriminate. destruct (y_loop yp) eqn:Lp; try discriminate. destruct (y_stage yp) eqn:Sp; try discriminate.
  destruct (zlen (y_data yp) <=? 20) eqn:Dp; [|discriminate].
  destruct (turn (y_w yp) t1 t2) as [w1 en] eqn:T.
  assert (St : ystep yp (YTurn t1 t2) = Some (mkY w1 (match en with Again => Live | Stop => NoLoop | Crash => Dead end) (y_c yp) (hd_error (stages_in (news (y_w yp) w1))) (y_data yp ++ packets_in (news (y_w yp) w1)) (match en with Crash => Crashes | _ => Goes end))).
  { unfold ystep. rewrite Fp, Lp, Sp, Dp, T. reflexivity. }
  pose proof (turn_step _ _ _ _ _ _ _ _ _ _ I Ne So N St) as I'. destruct (inv_live _ _ _ _ _ _ I') as (L' & _). cbn [x_y y_loop] in L'. destruct en; try discriminate. clear I' L'.
  eexists. split; [exact St|].
  pose proof (turn_more _ t1 t2 i _ X _ C P K Wi T) as T2. rewrite <- W in T2.
  pose proof (turn_sims o _ _ t1 t2 R) as Sm. rewrite T2 in Sm. destruct (Sm eq_refl) as [En (R1 & (new & L1 & L2) & U & V)]. destruct (turn (y_w yd) t1 t2) as [w1' en]. cbn [fst snd upd_in w_log] in *. subst en.
  assert (Ey : yd' = mkY w1' Live (y_c yd) (hd_error (stages_in (news (y_w yd) w1'))) (y_data yp ++ packets_in (news (y_w yd) w1')) Goes) by congruence. subst yd'.
  assert (Wi' : w_in w1' = w_in w1 ++ X) by (destruct (related_eq _ _ _ R1) as (_ & _ & _ & _ & _ & _ & _ & _ & _ & Y & _); exact Y).
  rewrite (news_app _ _ _ L1), (news_app _ _ _ L2), stages_in_dress, packets_in_dress. unfold step_twin, twin. cbn [y_w y_loop y_c y_stage y_data y_fate]. splits; try assumption; try reflexivity.
  - rewrite Wi'. exact R1.
  - exists new. split; [exact L1|exact L2].
Qed.

Lemma cmd_twin o X w w' cm : related o (upd_in w (w_in w')) w' -> w_in w' = w_in w ++ X ->
  snd (do_cmd w' cm) = snd (do_cmd w cm) /\ related o (upd_in (fst (do_cmd w cm)) (w_in (fst (do_cmd w' cm)))) (fst (do_cmd w' cm)) /\ w_in (fst (do_cmd w' cm)) = w_in (fst (do_cmd w cm)) ++ X /\
  (exists new, w_log (fst (do_cmd w cm)) = w_log w ++ new /\ w_log (fst (do_cmd w' cm)) = w_log w' ++ map (dress_eff o) new) /\
  s_user (w_s (fst (do_cmd w' cm))) = s_user (w_s w') /\ w_rand (fst (do_cmd w' cm)) = w_rand w'.
Proof.
  intros R W. destruct (do_cmd_sims o _ _ cm R) as [E (R1 & (new & L1 & L2) & U & V)]. pose proof (do_cmd_in cm w (w_in w')) as B. cbv beta in B. rewrite B in *. cbn [fst snd] in *.
  assert (F : do_cmd w cm = (upd_in (fst (do_cmd w cm)) (w_in w), snd (do_cmd w cm))) by (rewrite <- (do_cmd_in cm w (w_in w)); destruct w; reflexivity).
  destruct (do_cmd w cm) as [w1 x]. cbn [fst snd] in *. injection F as F. assert (W1 : w_in w1 = w_in w) by (rewrite F; reflexivity).
  destruct (related_eq _ _ _ R1) as (_ & _ & _ & _ & _ & _ & _ & _ & _ & Y & _). cbn [upd_in w_in] in Y. splits; try assumption.
  - rewrite Y. exact R1.
  - rewrite Y, W1. exact W.
  - exists new. split; [exact L1|exact L2].
Qed.

Definition same_world (o : bytes -> bytes) (X : stream) (w w' w1 w1' : world) : Prop :=
  related o (upd_in w1 (w_in w1')) w1' /\ w_in w1' = w_in w1 ++ X /\ (exists new, w_log w1 = w_log w ++ new /\ w_log w1' = w_log w' ++ map (dress_eff o) new) /\
  s_user (w_s w1') = s_user (w_s w') /\ w_rand w1' = w_rand w'.
Lemma same_refl o X w w' : related o (upd_in w (w_in w')) w' -> w_in w' = w_in w ++ X -> same_world o X w w' w w'.
Proof. intros R W. unfold same_world. splits; try assumption; try reflexivity. exists []. cbn. rewrite !app_nil_r. split; reflexivity. Qed.
Lemma must_twin o X w w' cm c : related o (upd_in w (w_in w')) w' -> w_in w' = w_in w ++ X ->
  snd (must (do_cmd w' cm) c) = snd (must (do_cmd w cm) c) /\ snd (fst (must (do_cmd w' cm) c)) = snd (fst (must (do_cmd w cm) c)) /\ same_world o X w w' (fst (fst (must (do_cmd w cm) c))) (fst (fst (must (do_cmd w' cm) c))).
Proof.
  intros R W. destruct (cmd_twin o X w w' cm R W) as (E & R1 & H). destruct (do_cmd w cm) as [w1 x], (do_cmd w' cm) as [w1' x']. cbn [fst snd] in *. subst x'. unfold same_world. destruct x; cbn [must fst snd]; splits; try reflexivity; try assumption; apply H.
Qed.
Lemma stage_twin o X w w' c st : related o (upd_in w (w_in w')) w' -> w_in w' = w_in w ++ X ->
  snd (on_stage w' c st) = snd (on_stage w c st) /\ snd (fst (on_stage w' c st)) = snd (fst (on_stage w c st)) /\ same_world o X w w' (fst (fst (on_stage w c st))) (fst (fst (on_stage w' c st))).
Proof.
  intros R W. unfold on_stage. destruct (st =? StageReady); [exact (must_twin o X w w' CPlay _ R W)|]. destruct (_ || _); cbn [fst snd]; splits; try reflexivity; apply same_refl; assumption.
Qed.
Lemma tick_twin o X w w' c : related o (upd_in w (w_in w')) w' -> w_in w' = w_in w ++ X ->
  snd (on_tick w' c) = snd (on_tick w c) /\ snd (fst (on_tick w' c)) = snd (fst (on_tick w c)) /\ same_world o X w w' (fst (fst (on_tick w c))) (fst (fst (on_tick w' c))).
Proof.
  intros R W. unfold on_tick. destruct (_ =? _); [exact (must_twin o X w w' CPause _ R W)|]. destruct (_ =? _); [exact (must_twin o X w w' CTeardown _ R W)|].
  destruct (_ =? _); cbn [fst snd]; splits; try reflexivity; apply same_refl; assumption.
Qed.
Lemma client_twin o X yp yd e yd' : twin o yp yd -> w_in (y_w yd) = w_in (y_w yp) ++ X -> is_turn e = false ->
  ystep yd e = Some yd' -> exists yp', ystep yp e = Some yp' /\ step_twin o X yp yd yp' yd'.
Proof.
  intros (R & E1 & E2 & E3 & E4 & E5) W N S. pose proof (same_refl o X _ _ R W) as (S1 & S2 & S3 & S4 & S5). unfold ystep in *. rewrite E5 in S. destruct (y_fate yp) eqn:Fp; try discriminate. destruct e as [t1 t2| | | |]; [discriminate| | | |].
  - rewrite E3, E2, E4 in S. destruct (y_stage yp) as [st|]; [|discriminate]. destruct (stage_twin o X _ _ (y_c yp) st R W) as (A & B & (R1 & W1 & L1 & U1 & V1)).
    destruct (on_stage (y_w yp) (y_c yp) st) as [[w1 c1] f1], (on_stage (y_w yd) (y_c yp) st) as [[w2 c2] f2]. cbn [fst snd] in *. subst. eexists. split; [reflexivity|].
    injection S as <-. unfold step_twin, twin. cbn [y_w y_loop y_c y_stage y_data y_fate]. splits; try assumption; reflexivity.
  - rewrite E3, E2, E4 in S. destruct (y_data yp) as [|[ch p] d]; [discriminate|]. destruct (on_packet (y_c yp) ch p) as [c f]. eexists. split; [reflexivity|].
    injection S as <-. unfold step_twin, twin. cbn [y_w y_loop y_c y_stage y_data y_fate]. splits; try assumption; reflexivity.
  - rewrite E3, E2, E4 in S. destruct (c_ticked (y_c yp)); [|discriminate]. destruct (tick_twin o X _ _ (mkC (c_state (y_c yp)) (c_sink (y_c yp)) (c_running (y_c yp)) false) R W) as (A & B & (R1 & W1 & L1 & U1 & V1)).
    destruct (on_tick (y_w yp) _) as [[w1 c1] f1], (on_tick (y_w yd) _) as [[w2 c2] f2]. cbn [fst snd] in *. subst. eexists. split; [reflexivity|].
    injection S as <-. unfold step_twin, twin. cbn [y_w y_loop y_c y_stage y_data y_fate]. splits; try assumption; reflexivity.
  - rewrite E3, E2, E4 in S. destruct (c_running (y_c yp)); [|discriminate]. eexists. split; [reflexivity|].
    injection S as <-. unfold step_twin, twin. cbn [y_w y_loop y_c y_stage y_data y_fate]. splits; try assumption; reflexivity.
Qed.

(* ---- the plain program: one request that waits ---- *)
Lemma inv_numbers ms user uri rnd x w : inv ms user uri rnd x w -> numbers_sent (x_y x) = from_z 0 (Z.to_nat (s_cseq (w_s (y_w (x_y x))))) /\ 1 <= s_cseq (w_s (y_w (x_y x))) <= 5 + zlen ms /\ (2 < s_cseq (w_s (y_w (x_y x))) -> zlen ms <= 2049).
Proof.
  intros I. destruct I as [ph P ks done items sinks st q id fs idx verbs cs log cst snk running ticked stg data ft HP HF]. split; [|split].
  - exact (fl_numbers _ _ _ _ _ _ _ _ _ _ _ HF).
  - exact (fl_count _ _ _ _ _ _ _ _ _ _ _ HF).
  - exact (fl_few _ _ _ _ _ _ _ _ _ _ _ HF).
Qed.
Lemma inv_waits ms user uri rnd x w n : inv ms user uri rnd x w -> In n (numbers_sent (x_y x)) -> ~ In n (x_done x) ->
  let cs := s_cseq (w_s (y_w (x_y x))) in (cs = n /\ (n <= 2 \/ 3 + zlen ms <= n)) \/ (3 <= n <= 2 + zlen ms /\ cs = 2 + zlen ms).
Proof.
  intros I. destruct I as [ph P ks done items sinks st q id fs idx verbs cs log cst snk running ticked stg data ft HP HF]. cbv zeta. unfold numbers_sent. cbn [x_y x_done y_w wor ses w_s s_cseq w_log].
  rewrite (fl_numbers _ _ _ _ _ _ _ _ _ _ _ HF). intros Nn Nd. apply from_z_in in Nn.
  assert (Np : In n P). { destruct (in_dec Z.eq_dec n P) as [Y|Y]; [exact Y|]. contradiction Nd. apply (fl_done _ _ _ _ _ _ _ _ _ _ _ HF). split; [lia|left; exact Y]. }
  destruct ph as [| |d| |od|od|od|od|]; cbn [phase_ok] in HP; decompose [and] HP; clear HP; try subst P; try (destruct Np; fail).
  - destruct Np as [<-|[]]. left. lia.
  - destruct Np as [<-|[]]. left. lia.
  - right. match goal with H : Permutation _ _ |- _ => pose proof (Permutation_in n H (in_or_app _ _ _ (or_intror Np))) as Y end. apply from_z_in in Y. unfold zlen in *. lia.
  - destruct Np as [<-|[]]. left. destruct od; cbn [order_stage] in *; lia.
Qed.
Lemma inv_stays ms user uri rnd user' rnd' x w x' w' n : inv ms user uri rnd x w -> inv ms user' uri rnd' x' w' -> x_done x' = x_done x -> incl (numbers_sent (x_y x)) (numbers_sent (x_y x')) ->
  s_cseq (w_s (y_w (x_y x))) = n -> ~ In n (x_done x) -> s_cseq (w_s (y_w (x_y x'))) = n /\ numbers_sent (x_y x') = numbers_sent (x_y x).
Proof.
  intros I I' D L C N. destruct (inv_numbers _ _ _ _ _ _ I) as (A1 & A2 & _). destruct (inv_numbers _ _ _ _ _ _ I') as (B1 & B2 & _).
  assert (Nn : In n (numbers_sent (x_y x))) by (rewrite A1; apply from_z_in; lia).
  pose proof (inv_waits _ _ _ _ _ _ n I Nn N) as X. pose proof (inv_waits _ _ _ _ _ _ n I' (L n Nn) ltac:(rewrite D; exact N)) as Y. cbv zeta in X, Y.
  assert (Z1 : s_cseq (w_s (y_w (x_y x'))) = n) by lia. split; [exact Z1|]. rewrite A1, B1, Z1, C. reflexivity.
Qed.
Lemma q_single q n req : NoDup (map fst q) -> qget q n = Some req -> (forall k, k <> n -> qget q k = None) -> q = [(n, req)].
Proof.
  intros N G O. destruct q as [|[a r] q]; [discriminate|]. cbn [qget] in G. destruct (a =? n) eqn:E.
  - apply Z.eqb_eq in E. subst a. injection G as ->. destruct q as [|[b r2] q]; [reflexivity|]. exfalso. inversion N; subst. cbn [map fst] in *.
    assert (X : b <> n) by (intros ->; apply H1; left; reflexivity). specialize (O b X). cbn [qget] in O. destruct (n =? b) eqn:E2; [lia|]. rewrite Z.eqb_refl in O. discriminate.
  - specialize (O a ltac:(lia)). cbn [qget] in O. rewrite Z.eqb_refl in O. discriminate.
Qed.
Lemma inv_alone ms uri x w n : inv ms None uri [] x w -> tidy (y_w (x_y x)) -> w_in (y_w (x_y x)) = [] -> s_cseq (w_s (y_w (x_y x))) = n -> ~ In n (x_done x) ->
  (forall k, In k (numbers_sent (x_y x)) -> k = n \/ In k (x_done x)) -> exists req, alone (y_w (x_y x)) n req /\ q_cseq req = n /\ In req (sent_requests (w_log (y_w (x_y x)))).
Proof.
  intros I (T1 & T2 & _) W C N O. destruct I as [ph P ks done items sinks st q id fs idx verbs cs log cst snk running ticked stg data ft HP HF].
  unfold numbers_sent in O. cbn [x_y y_w wor w_s w_in w_log ses s_cseq s_queue x_done] in *. subst cs. rewrite (fl_numbers _ _ _ _ _ _ _ _ _ _ _ HF) in O. destruct HF.
  assert (Ei : items = []). { destruct items as [|i items]; [reflexivity|]. cbn [flat_map] in W. apply app_eq_nil in W as [W _]. destruct (item_stream_some i W). }
  subst items. inversion fl_carries; subst ks.
  assert (Pn : forall k, In k P -> k = n). { intros k Pk. destruct (fl_range k Pk) as [X1 X2]. destruct (O k) as [Y|Y]; [apply from_z_in; lia|exact Y|]. apply fl_done in Y as (_ & [Y|[]]). contradiction. }
  assert (Np : In n P). { destruct (in_dec Z.eq_dec n P) as [Y|Y]; [exact Y|]. contradiction N. apply fl_done. split; [lia|left; exact Y]. }
  destruct (fl_queue n) as [Q _]. destruct (Q Np) as (req & Gq & _). exists req.
  assert (Eq : q = [(n, req)]). { apply q_single; [exact T1|exact Gq|]. intros k K. destruct (fl_queue k) as [_ Q2]. apply Q2. intros Y. apply K, Pn, Y. }
  subst q. apply Forall_cons_iff in T2 as [[T2 T3] _]. cbn [fst snd] in *. unfold alone. cbn [wor ses w_s s_queue s_cseq w_writes s_conn s_proto]. splits; try reflexivity; assumption.
Qed.

(* ---- logs ---- *)
Definition tag (r : request) : Z * wish := (q_cseq r, wish_of r).
Lemma firsts_app a b : firsts (a ++ b) = firsts a ++ firsts b.
Proof. apply flat_map_app. Qed.
Lemma tag_dress o r : tag (dress o r) = tag r. Proof. reflexivity. Qed.
Lemma firsts_dress o l : retransmissions l = [] -> map tag (firsts (map (dress_eff o) l)) = map tag (sent_requests l) /\ retransmissions (map (dress_eff o) l) = [].
Proof.
  induction l as [|e l IH]; intros N; [split; reflexivity|]. destruct e as [[|] r| | | | | |]; cbn [map dress_eff firsts retransmissions sent_requests flat_map app] in *; try (apply IH; exact N); [discriminate|].
  fold (firsts (map (dress_eff o) l)). fold (sent_requests l). fold (retransmissions (map (dress_eff o) l)). destruct (IH N) as [A B]. rewrite A. split; [reflexivity|exact B].
Qed.
Lemma times_split k l : times k (map q_cseq (sent_requests l)) = (times k (map q_cseq (firsts l)) + times k (map q_cseq (retransmissions l)))%nat.
Proof.
  unfold times, sent_requests, firsts, retransmissions. induction l as [|e l IH]; [reflexivity|]. destruct e as [[|] r| | | | | |]; cbn [flat_map app map count_occ]; try exact IH; destruct (Z.eq_dec (q_cseq r) k); lia.
Qed.
Lemma sent_either l r : In r (sent_requests l) -> In r (firsts l) \/ In r (retransmissions l).
Proof. unfold sent_requests, firsts, retransmissions. rewrite !in_flat_map. intros (e & A & B). destruct e as [[|] r'| | | | | |]; cbn [In] in B; try contradiction; destruct B as [<-|[]]; [right|left]; eexists; (split; [exact A|left; reflexivity]). Qed.
Lemma firsts_sent l r : In r (firsts l) -> In r (sent_requests l).
Proof. unfold sent_requests, firsts. rewrite !in_flat_map. intros (e & A & B). exists e. split; [exact A|]. destruct e as [[|] r'| | | | | |]; cbn [In] in B; try contradiction. exact B. Qed.
Lemma pays_app uri user pass log : forall p cs1 cs2 new, pays uri user pass p cs1 log -> length cs1 = length (retransmissions log) ->
  pays uri user pass (learns uri user pass p (map snd cs1)) cs2 new -> pays uri user pass p (cs1 ++ cs2) (log ++ new).
Proof.
  induction log as [|e log IH]; intros p cs1 cs2 new P L N.
  - destruct cs1; [exact N|discriminate].
  - destruct e as [[|] r| | | | | |]; cbn [pays app retransmissions flat_map] in *; try (apply IH; assumption).
    + destruct cs1 as [|[n c] cs1]; [destruct P|]. destruct P as (A & B & P). cbn [app]. splits; try assumption. apply IH; try assumption. cbn [length] in L. fold (retransmissions log) in L. lia.
    + destruct P as (A & P). split; [exact A|]. apply IH; assumption.
Qed.
Lemma pays_dress uri user pass p cs l : retransmissions l = [] -> pays uri user pass p cs (map (dress_eff (pu_now p)) l).
Proof.
  induction l as [|e l IH]; intros N; [exact I|]. destruct e as [[|] r| | | | | |]; cbn [map dress_eff pays retransmissions flat_map app] in *; try (apply IH; exact N); [discriminate|].
  split; [reflexivity|apply IH; exact N].
Qed.

(* ---- the link ---- *)
Definition pending := option (Z * challenge * item * list item).
Definition owing (pd : pending) : list (Z * challenge) := match pd with None => [] | Some (n, c, _, _) => [(n, c)] end.
Definition held (pd : pending) : list item := match pd with None => [] | Some (_, _, _, B) => B end.
Definition ahead (pd : pending) : stream := match pd with None => [] | Some (_, _, i, B) => item_stream i ++ flat_map item_stream B end.
Definition pend_ok (xp : scene) (pd : pending) : Prop :=
  match pd with
  | None => True
  | Some (n, c, i, B) => asks n c i /\ item_ok i /\ Forall (fun b => item_ok b /\ takeable b) B /\ ~ In n (x_done xp) /\
      (forall k, In k (numbers_sent (x_y xp)) -> k = n \/ In k (x_done xp)) /\ s_cseq (w_s (y_w (x_y xp))) = n
  end.
Definition purse_of uri user pass rnd (cs : list (Z * challenge)) : purse := learns uri user pass (mkPurse none rnd) (map snd cs).
Record linked (uri user pass : bytes) (rnd : list bytes) (cs : list (Z * challenge)) (pd : pending) (xp : scene) (g : gscene) : Prop := {
  lk_done : x_done xp = g_done g;
  lk_twin : twin (pu_now (purse_of uri user pass rnd cs)) (x_y xp) (g_y g);
  lk_user : s_user (w_s (y_w (g_y g))) = Some (user, pass);
  lk_rand : w_rand (y_w (g_y g)) = pu_rand (purse_of uri user pass rnd cs);
  lk_firsts : map tag (firsts (w_log (y_w (g_y g)))) = map tag (sent_requests (w_log (y_w (x_y xp))));
  lk_again : map q_cseq (retransmissions (w_log (y_w (g_y g)))) = map fst cs;
  lk_wish : Forall (fun r => In (tag r) (map tag (sent_requests (w_log (y_w (x_y xp)))))) (retransmissions (w_log (y_w (g_y g))));
  lk_pays : pays uri user pass (mkPurse none rnd) cs (w_log (y_w (g_y g)));
  lk_tidy : tidy (y_w (x_y xp));
  lk_asked : g_asked g = map fst cs ++ map fst (owing pd);
  lk_in : w_in (y_w (g_y g)) = w_in (y_w (x_y xp)) ++ ahead pd;
  lk_pend : pend_ok xp pd }.

Lemma inv_no_again ms uri x w : inv ms None uri [] x w -> tidy (y_w (x_y x)) -> retransmissions (w_log (y_w (x_y x))) = [].
Proof.
  intros I (_ & _ & T). destruct (inv_plan _ _ _ _ _ _ I) as (_ & A). destruct (retransmissions (w_log (y_w (x_y x)))) as [|r l] eqn:E; [reflexivity|]. exfalso.
  apply Forall_cons_iff in T as [T _]. apply T. rewrite Forall_forall in A. apply A. unfold sent_requests. apply in_flat_map.
  assert (X : In r (retransmissions (w_log (y_w (x_y x))))) by (rewrite E; left; reflexivity). unfold retransmissions in X. apply in_flat_map in X as (e & X1 & X2). exists e. split; [exact X1|].
  destruct e as [[|] r'| | | | | |]; cbn [In] in X2; try contradiction. exact X2.
Qed.
Lemma linked_tags uri user pass rnd cs pd xp g r : linked uri user pass rnd cs pd xp g -> In r (sent_requests (w_log (y_w (g_y g)))) -> exists rp, In rp (sent_requests (w_log (y_w (x_y xp)))) /\ tag rp = tag r.
Proof.
  intros L Ir. assert (X : In (tag r) (map tag (sent_requests (w_log (y_w (x_y xp)))))).
  { destruct (sent_either _ _ Ir) as [Y|Y]; [rewrite <- (lk_firsts _ _ _ _ _ _ _ _ L); apply in_map; exact Y|]. pose proof (lk_wish _ _ _ _ _ _ _ _ L) as F. rewrite Forall_forall in F. auto. }
  apply in_map_iff in X as (rp & X1 & X2). eauto.
Qed.
Lemma cseq_tags l l' : map tag l = map tag l' -> map q_cseq l = map q_cseq l'.
Proof. intros E. apply (f_equal (map fst)) in E. rewrite !map_map in E. exact E. Qed.
Lemma linked_times ms uri user pass rnd cs pd xp g w k : linked uri user pass rnd cs pd xp g -> inv ms None uri [] xp w -> In k (numbers_sent (x_y xp)) ->
  times k (numbers_sent (g_y g)) = (1 + times k (map fst cs))%nat.
Proof.
  intros L I K. unfold numbers_sent at 1. rewrite times_split, (lk_again _ _ _ _ _ _ _ _ L), (cseq_tags _ _ (lk_firsts _ _ _ _ _ _ _ _ L)). f_equal.
  fold (numbers_sent (x_y xp)). destruct (inv_numbers _ _ _ _ _ _ I) as (E & _). rewrite E in *. unfold times. apply NoDup_count_occ'; [apply from_z_nodup|exact K].
Qed.
(* while a challenge waits to be read there is nothing the server may react to *)
Lemma linked_quiet ms uri user pass rnd cs n c i B xp g w r : linked uri user pass rnd cs (Some (n, c, i, B)) xp g -> inv ms None uri [] xp w -> ~ heard g r.
Proof.
  intros L I (A1 & A2 & A3). destruct (linked_tags _ _ _ _ _ _ _ _ _ L A1) as (rp & P1 & P2). assert (Ec : q_cseq rp = q_cseq r) by (unfold tag in P2; congruence).
  assert (Nm : In (q_cseq r) (numbers_sent (x_y xp))) by (rewrite <- Ec; apply in_map; exact P1).
  pose proof (lk_pend _ _ _ _ _ _ _ _ L) as (_ & _ & _ & _ & O & _). rewrite <- (lk_done _ _ _ _ _ _ _ _ L) in A2. destruct (O _ Nm) as [E|E]; [|contradiction].
  rewrite (linked_times _ _ _ _ _ _ _ _ _ _ _ L I Nm), (lk_asked _ _ _ _ _ _ _ _ L), E in A3. unfold times in A3. rewrite count_occ_app in A3. cbn [owing map fst count_occ] in A3. destruct (Z.eq_dec n n); lia.
Qed.

Lemma xrun_app ms x a x1 : xrun ms x a x1 -> forall b x2, xrun ms x1 b x2 -> xrun ms x (a ++ b) x2.
Proof. induction 1; intros b x2 R; [exact R|]. econstructor; [eassumption|auto]. Qed.
Lemma xrun_one ms x e x' : xstep ms x e x' -> xrun ms x [e] x'.
Proof. intros S. econstructor; [exact S|constructor]. Qed.
Lemma twin_arrives o yp yd s : twin o yp yd -> twin o yp (arrives yd s).
Proof. intros (R & E). split; [|exact E]. cbn [arrives y_w]. exact (grown_related _ _ _ _ _ (grown_in o _ _ (w_in (y_w yd) ++ s) R)). Qed.
Lemma twin_arrives_plain o yp yd s : twin o yp yd -> twin o (arrives yp s) yd.
Proof. intros (R & E). split; [exact R|exact E]. Qed.

(* a step of both *)
Lemma linked_step ms uri user pass rnd cs pd yp done g w yp' yd' w' : linked uri user pass rnd cs pd (mkX yp done) g -> inv ms None uri [] (mkX yp done) w ->
  step_twin (pu_now (purse_of uri user pass rnd cs)) (ahead pd) yp (g_y g) yp' yd' -> inv ms None uri [] (mkX yp' done) w' -> tidy (y_w yp') ->
  linked uri user pass rnd cs pd (mkX yp' done) (mkG yd' (g_done g) (g_asked g)).
Proof.
  intros L I (T1 & T2 & (new & T3 & T4) & T5 & T6) I' Ti. pose proof (inv_no_again _ _ _ _ I' Ti) as A. cbn [x_y] in A. rewrite T3, retransmissions_app in A. apply app_eq_nil in A as [_ A].
  destruct (firsts_dress (pu_now (purse_of uri user pass rnd cs)) new A) as (F1 & F2). destruct L. cbn [x_y x_done g_y g_done g_asked] in *. constructor; cbn [x_y x_done g_y g_done g_asked]; try assumption.
  - congruence.
  - congruence.
  - rewrite T4, T3, firsts_app, sent_requests_app, !map_app, F1. congruence.
  - rewrite T4, retransmissions_app, F2, app_nil_r. assumption.
  - rewrite T4, retransmissions_app, F2, app_nil_r, T3. eapply Forall_impl; [|exact lk_wish0]. intros r X. rewrite sent_requests_app, map_app. apply in_or_app. left. exact X.
  - rewrite T4. assert (Ln : length cs = length (retransmissions (w_log (y_w (g_y g))))) by (rewrite <- (map_length fst cs), <- lk_again0, map_length; reflexivity).
    pose proof (pays_app uri user pass _ _ cs [] _ lk_pays0 Ln (pays_dress _ _ _ (purse_of uri user pass rnd cs) _ new A)) as X. rewrite app_nil_r in X. exact X.
  - destruct pd as [[[[n c] i] B]|]; [|exact Logic.I]. destruct lk_pend0 as (P1 & P2 & P3 & P4 & P5 & P6). cbn [x_y x_done] in *.
    assert (Inc : incl (numbers_sent yp) (numbers_sent yp')). { unfold numbers_sent. rewrite T3, sent_requests_app, map_app. intros k K. apply in_or_app. left. exact K. }
    destruct (inv_stays _ _ _ _ _ _ _ _ _ _ n I I' eq_refl Inc P6 P4) as (S1 & S2). cbn [x_y] in *. unfold pend_ok. cbn [x_y x_done]. rewrite S2. splits; assumption.
Qed.

Lemma arrives_nil y : arrives y [] = y.
Proof. destruct y as [w l c s d f]. unfold arrives. cbn [y_w y_loop y_c y_stage y_data y_fate]. rewrite app_nil_r. destruct w. reflexivity. Qed.
Lemma arrives_app y a b : arrives (arrives y a) b = arrives y (a ++ b).
Proof. unfold arrives. cbn [y_w y_loop y_c y_stage y_data y_fate upd_in w_in]. rewrite <- app_assoc. reflexivity. Qed.
Lemma noise_xrun ms done B : forall y, Forall (fun b => item_ok b /\ takeable b) B -> xrun ms (mkX y done) (map XNoise B) (mkX (arrives y (flat_map item_stream B)) done).
Proof.
  induction B as [|b B IH]; intros y F; cbn [map flat_map]; [rewrite arrives_nil; constructor|]. apply Forall_cons_iff in F as [[F1 F2] F].
  econstructor; [apply xs_noise; assumption|]. rewrite <- arrives_app. apply IH. exact F.
Qed.
Lemma purse_snoc uri user pass rnd cs n c : purse_of uri user pass rnd (cs ++ [(n, c)]) = taught uri user pass (purse_of uri user pass rnd cs) c.
Proof. unfold purse_of, learns. rewrite map_app, fold_left_app. reflexivity. Qed.

Lemma challenge_link ms uri user pass rnd cs n c i B yp done g w t1 t2 yd' : linked uri user pass rnd cs (Some (n, c, i, B)) (mkX yp done) g -> inv ms None uri [] (mkX yp done) w -> w_in (y_w yp) = [] ->
  ystep (g_y g) (YTurn t1 t2) = Some yd' ->
  xrun ms (mkX yp done) (map XNoise B) (mkX (arrives yp (flat_map item_stream B)) done) /\
  linked uri user pass rnd (cs ++ [(n, c)]) None (mkX (arrives yp (flat_map item_stream B)) done) (mkG yd' (g_done g) (g_asked g)).
Proof.
  intros L I W S. destruct L. cbn [x_y x_done g_y g_done g_asked] in *. destruct lk_pend0 as (P1 & P2 & P3 & P4 & P5 & P6). cbn [x_y x_done] in *. cbn [ahead] in lk_in0. rewrite W in lk_in0. cbn [app] in lk_in0.
  split; [apply noise_xrun; exact P3|].
  destruct (inv_alone _ _ _ _ n I lk_tidy0 W P6 P4 P5) as (req & Al & Qc & Iq). cbn [x_y] in Al, Iq. destruct (inv_numbers _ _ _ _ _ _ I) as (N1 & N2 & N3). destruct (inv_live _ _ _ _ _ _ I) as (_ & _ & _ & _ & Ur). cbn [x_y] in *. rewrite P6 in N2, N3.
  destruct lk_twin0 as (R & E1 & E2 & E3 & E4 & E5).
  assert (Bn : 0 <= n < 2 ^ 63) by (change (2 ^ 63) with 9223372036854775808; lia).
  destruct (challenge_answered _ _ _ n req c i (flat_map item_stream B) t1 t2 user pass R Al lk_user0 Bn P1 P2 lk_in0) as (w1 & r & T & R1 & L1 & U1 & V1).
  cbn [upd_in w_s] in R1, L1. rewrite Ur, lk_rand0 in R1, L1. rewrite lk_rand0 in V1. change (credentials uri user pass (hd [] (pu_rand (purse_of uri user pass rnd cs))) c) with (pu_now (taught uri user pass (purse_of uri user pass rnd cs) c)) in R1, L1.
  rewrite <- (purse_snoc uri user pass rnd cs n c) in R1, L1. change (tl (pu_rand (purse_of uri user pass rnd cs))) with (pu_rand (taught uri user pass (purse_of uri user pass rnd cs) c)) in V1. rewrite <- (purse_snoc uri user pass rnd cs n c) in V1.
  set (P := purse_of uri user pass rnd (cs ++ [(n, c)])) in *. set (rq := mkReq (q_verb req) n (q_uri req) (pu_now P (q_verb req)) (s_session (w_s (y_w yp))) (q_header req)) in *.
  unfold ystep in S. rewrite E5, E1, E3 in S. destruct (y_fate yp) eqn:Fp; try discriminate. destruct (y_loop yp) eqn:Lp; try discriminate. destruct (y_stage yp) eqn:Sp; try discriminate. destruct (_ <=? _) in S; [|discriminate].
  rewrite T, (news_app _ _ _ L1) in S. cbn [stages_in packets_in flat_map app hd_error] in S. rewrite app_nil_r in S. injection S as <-.
  assert (Wi : w_in w1 = flat_map item_stream B) by (destruct (related_eq _ _ _ R1) as (_ & _ & _ & _ & _ & _ & _ & _ & _ & Y & _); exact Y).
  assert (Tg : tag rq = tag req) by (unfold tag, wish_of, rq; cbn [q_cseq q_verb q_uri q_header]; congruence).
  constructor; cbn [x_y x_done g_y g_done g_asked arrives y_w upd_in w_log w_in]; try assumption.
  - unfold twin. cbn [arrives y_w y_loop y_c y_stage y_data y_fate]. rewrite Wi. splits; try assumption; congruence.
  - rewrite L1, firsts_app, app_nil_r. exact lk_firsts0.
  - rewrite L1, retransmissions_app, !map_app, lk_again0. reflexivity.
  - rewrite L1, retransmissions_app. apply Forall_app. split; [exact lk_wish0|]. cbn [retransmissions flat_map app]. apply Forall_cons; [|constructor]. rewrite Tg. apply in_map. exact Iq.
  - rewrite L1. apply pays_app; [exact lk_pays0|rewrite <- (map_length fst cs), <- lk_again0, map_length; reflexivity|]. cbn [pays]. splits; try reflexivity.
    unfold rq. cbn [q_auth q_verb]. unfold P. rewrite purse_snoc. reflexivity.
  - rewrite lk_asked0, map_app. cbn [owing map fst]. rewrite app_nil_r. reflexivity.
  - rewrite Wi, W. cbn [ahead app]. rewrite app_nil_r. reflexivity.
  - exact Logic.I.
Qed.

(* ---- every step ---- *)
Lemma glink ms uri user pass rnd cs pd xp g w e g' : gstep ms true g e g' -> ms <> [] -> Forall sets_ok ms -> linked uri user pass rnd cs pd xp g -> inv ms None uri [] xp w ->
  exists es xp' cs' pd', xrun ms xp es xp' /\ linked uri user pass rnd cs' pd' xp' g' /\ cs' ++ owing pd' = (cs ++ owing pd) ++ challenge_in e /\
    gproper [e] + 2 * zlen cs + zlen (owing pd) <= proper es + 2 * zlen cs' + zlen (owing pd') /\ noises es + zlen (held pd') = gnoises [e] + zlen (held pd).
Proof.
  intros S Ne So L I. destruct xp as [yp done]. destruct S as [g r c i A B C D|g r i A B|g i A B|g e y' A B].
  - destruct pd as [[[[n0 c0] i0] B0]|]; [destruct (linked_quiet _ _ _ _ _ _ _ _ _ _ _ _ _ _ L I A)|].
    exists [], (mkX yp done), cs, (Some (q_cseq r, c, i, [])). pose proof L as []. cbn [x_y x_done g_y g_done g_asked] in *. destruct A as (A1 & A2 & A3). destruct (linked_tags _ _ _ _ _ _ _ _ _ L A1) as (rp & Q1 & Q2). cbn [x_y] in Q1.
    assert (Ec : q_cseq rp = q_cseq r) by (unfold tag in Q2; congruence). assert (Nm : In (q_cseq r) (numbers_sent yp)) by (rewrite <- Ec; apply in_map; exact Q1).
    specialize (B eq_refl). unfold only_one in B. rewrite Forall_forall in B.
    assert (Inc : incl (numbers_sent yp) (numbers_sent (g_y g))).
    { intros k K. unfold numbers_sent in K. rewrite <- (cseq_tags _ _ lk_firsts0) in K. unfold numbers_sent. apply in_map_iff in K as (r1 & <- & K). apply in_map. apply firsts_sent. exact K. }
    destruct (inv_numbers _ _ _ _ _ _ I) as (N1 & N2 & _). cbn [x_y] in N1, N2.
    splits; [constructor| |cbn [owing challenge_in]; rewrite app_nil_r; reflexivity| |reflexivity].
    + constructor; cbn [x_y x_done g_y g_done g_asked arrives y_w upd_in w_log w_in w_s w_rand]; try assumption.
      * apply twin_arrives. assumption.
      * rewrite lk_asked0. cbn [owing map fst]. rewrite app_nil_r. reflexivity.
      * rewrite lk_in0. cbn [ahead flat_map]. rewrite !app_nil_r. reflexivity.
      * cbn [pend_ok x_y x_done]. rewrite lk_done0. splits; try assumption; [constructor| |].
        -- intros k K. apply B. apply Inc. exact K.
        -- assert (K : In (s_cseq (w_s (y_w yp))) (numbers_sent yp)) by (rewrite N1; apply from_z_in; lia). destruct (B _ (Inc _ K)) as [X _]. rewrite N1 in Nm. apply from_z_in in Nm. lia.
    + unfold gproper, proper. cbn [filter is_gnoise negb owing]. rewrite !zlen_cons. change (zlen (@nil gevent)) with 0. change (zlen (@nil xevent)) with 0. change (zlen (@nil (Z * challenge))) with 0. lia.
  - destruct pd as [[[[n0 c0] i0] B0]|]; [destruct (linked_quiet _ _ _ _ _ _ _ _ _ _ _ _ _ _ L I A)|].
    pose proof L as []. cbn [x_y x_done g_y g_done g_asked] in *. destruct A as (A1 & A2 & A3). destruct (linked_tags _ _ _ _ _ _ _ _ _ L A1) as (rp & Q1 & Q2). cbn [x_y] in Q1.
    assert (Ec : q_cseq rp = q_cseq r) by (unfold tag in Q2; congruence). assert (Ev : q_verb rp = q_verb r) by (unfold tag, wish_of in Q2; congruence).
    exists [XAnswer (q_cseq r) i], (mkX (arrives yp (item_stream i)) (q_cseq r :: done)), cs, None. splits; [|constructor; cbn [x_y x_done g_y g_done g_asked arrives y_w upd_in w_log w_in w_s w_rand]; try assumption|cbn [owing challenge_in]; rewrite !app_nil_r; reflexivity| |reflexivity].
    + apply xrun_one. rewrite <- Ec in *. apply xs_answer; [exact Q1|rewrite lk_done0; exact A2|rewrite Ev; exact B].
    + congruence.
    + apply twin_arrives_plain, twin_arrives. assumption.
    + rewrite lk_in0. cbn [ahead]. rewrite !app_nil_r. reflexivity.
    + unfold gproper, proper. cbn [filter is_gnoise is_noise negb owing]. rewrite !zlen_cons. change (zlen (@nil gevent)) with 0. change (zlen (@nil xevent)) with 0. lia.
  - destruct pd as [[[[n0 c0] i0] B0]|].
    + pose proof L as []. cbn [x_y x_done g_y g_done g_asked] in *. exists [], (mkX yp done), cs, (Some (n0, c0, i0, B0 ++ [i])).
      splits; [constructor|constructor; cbn [x_y x_done g_y g_done g_asked arrives y_w upd_in w_log w_in w_s w_rand]; try assumption|cbn [owing challenge_in]; rewrite app_nil_r; reflexivity| |].
      * apply twin_arrives. assumption.
      * rewrite lk_in0. cbn [ahead]. rewrite flat_stream_snoc, <- !app_assoc. reflexivity.
      * destruct lk_pend0 as (P1 & P2 & P3 & P4 & P5 & P6). cbn [x_y x_done] in *. cbn [pend_ok x_y x_done]. splits; try assumption. apply Forall_app. split; [exact P3|]. constructor; [split; assumption|constructor].
      * unfold gproper, proper. cbn [filter is_gnoise negb owing]. change (zlen (@nil gevent)) with 0. change (zlen (@nil xevent)) with 0. lia.
      * unfold gnoises, noises. cbn [filter is_gnoise held]. rewrite L_serve.zlen_app, !zlen_cons. change (zlen (@nil gevent)) with 0. change (zlen (@nil xevent)) with 0. change (zlen (@nil item)) with 0. lia.
    + pose proof L as []. cbn [x_y x_done g_y g_done g_asked] in *. exists [XNoise i], (mkX (arrives yp (item_stream i)) done), cs, None.
      splits; [apply xrun_one, xs_noise; assumption|constructor; cbn [x_y x_done g_y g_done g_asked arrives y_w upd_in w_log w_in w_s w_rand]; try assumption|cbn [owing challenge_in]; rewrite !app_nil_r; reflexivity| |reflexivity].
      * apply twin_arrives_plain, twin_arrives. assumption.
      * rewrite lk_in0. cbn [ahead]. rewrite !app_nil_r. reflexivity.
      * unfold gproper, proper. cbn [filter is_gnoise is_noise negb owing]. change (zlen (@nil gevent)) with 0. change (zlen (@nil xevent)) with 0. lia.
  - pose proof (lk_twin _ _ _ _ _ _ _ _ L) as Tw. pose proof (lk_in _ _ _ _ _ _ _ _ L) as Wi. pose proof (lk_tidy _ _ _ _ _ _ _ _ L) as Ti. cbn [x_y] in Tw, Wi, Ti.
    destruct (inv_live _ _ _ _ _ _ I) as (_ & _ & Pr & _). cbn [x_y] in Pr. assert (Pr' : s_proto (w_s (y_w yp)) <> ProtoHTTP) by (rewrite Pr; discriminate).
    assert (Both : forall yp', (is_turn e = true -> w_in (y_w yp) <> []) -> ystep yp e = Some yp' -> step_twin (pu_now (purse_of uri user pass rnd cs)) (ahead pd) yp (g_y g) yp' y' ->
      exists es xp' cs' pd', xrun ms (mkX yp done) es xp' /\ linked uri user pass rnd cs' pd' xp' (mkG y' (g_done g) (g_asked g)) /\ cs' ++ owing pd' = (cs ++ owing pd) ++ challenge_in (GClient e) /\
        gproper [GClient e] + 2 * zlen cs + zlen (owing pd) <= proper es + 2 * zlen cs' + zlen (owing pd') /\ noises es + zlen (held pd') = gnoises [GClient e] + zlen (held pd)).
    { intros yp' C1 C2 C3. pose proof (xs_client ms yp done e yp' C1 C2) as Xs. destruct (step_inv _ _ _ _ _ _ _ _ Xs Ne So I) as (w' & I' & _).
      exists [XClient e], (mkX yp' done), cs, pd. splits; [apply xrun_one; exact Xs| |cbn [challenge_in]; rewrite app_nil_r; reflexivity| |reflexivity].
      - eapply linked_step; try eassumption. exact (ystep_tidy _ _ _ Pr' C2 Ti).
      - unfold gproper, proper. cbn [filter is_gnoise is_noise negb]. rewrite !zlen_cons. change (zlen (@nil gevent)) with 0. change (zlen (@nil xevent)) with 0. lia. }
    destruct (is_turn e) eqn:Et.
    + destruct e as [t1 t2| | | |]; try discriminate. specialize (A eq_refl).
      assert (Dw : w_in (y_w yp) = [] \/ w_in (y_w yp) <> []) by (destruct (w_in (y_w yp)); [left; reflexivity|right; discriminate]). destruct Dw as [Dw|Dw].
      * destruct pd as [[[[n c] i] B0]|]; [|rewrite Wi, Dw in A; contradiction].
        destruct (challenge_link _ _ _ _ _ _ _ _ _ _ _ _ _ _ _ _ _ L I Dw B) as (X1 & X2).
        exists (map XNoise B0), (mkX (arrives yp (flat_map item_stream B0)) done), (cs ++ [(n, c)]), None. splits; [exact X1|exact X2|cbn [owing challenge_in]; rewrite !app_nil_r; reflexivity| |].
        -- rewrite L_serve.zlen_app. unfold gproper, proper. cbn [filter is_gnoise is_noise negb owing]. rewrite !zlen_cons. change (zlen (@nil gevent)) with 0. change (zlen (@nil (Z * challenge))) with 0.
           match goal with |- _ <= zlen ?l + _ + _ => pose proof (zlen_nonneg l) end. lia.
        -- unfold noises, gnoises. cbn [filter is_gnoise held]. change (zlen (@nil gevent)) with 0. change (zlen (@nil item)) with 0. replace (filter is_noise (map XNoise B0)) with (map XNoise B0).
           ++ unfold zlen. rewrite map_length. lia.
           ++ clear. induction B0 as [|b B0 IH]; [reflexivity|]. cbn [map filter is_noise]. f_equal. exact IH.
      * destruct (turn_twin ms uri _ (ahead pd) _ _ done w t1 t2 y' I Ne So Tw Wi Dw B) as (yp' & C1 & C2). exact (Both yp' (fun _ => Dw) C1 C2).
    + destruct (client_twin _ (ahead pd) _ _ e y' Tw Wi Et B) as (yp' & C1 & C2). apply (Both yp'); [discriminate|exact C1|exact C2].
Qed.

(* ---- runs ---- *)
Lemma linked_start uri user pass rnd :
  linked uri user pass rnd [] None (mkX (launch (wor [] (dialled ProtoTCP None uri) [] [])) []) (mkG (launch (mkW (dialled ProtoTCP (Some (user, pass)) uri) [] [] [] rnd [])) [] []).
Proof.
  set (rq := mkReq (bs "OPTIONS") 1 uri [] [] []).
  assert (E : forall u r, launch (mkW (dialled ProtoTCP u uri) [] [] [] r []) = mkY (mkW (ses u uri [] 0 [(1, rq)] [] [] 0 [] 1) [] [] [] r [Sent false rq]) Live client0 None [] Goes) by reflexivity.
  unfold wor. rewrite !E. clear E. constructor; cbn [x_y x_done g_y g_done g_asked y_w w_log w_s w_in w_rand]; try reflexivity.
  - split; [|splits; reflexivity]. cbn [y_w w_in]. split; [split; reflexivity|]. exists (Some (user, pass)), None, [(1, rq)], rnd, [Sent false rq]. split; [reflexivity|]. split; [intros v; reflexivity|reflexivity].
  - constructor.
  - cbn [pays]. split; reflexivity.
  - unfold tidy. cbn [ses s_queue w_s w_log]. splits; [constructor; [intros []|constructor]| |constructor]. constructor; [|constructor]. cbn [fst snd]. split; [left; reflexivity|reflexivity].
Qed.
Lemma glink_run ms uri user pass rnd g es g' : grun ms true g es g' -> ms <> [] -> Forall sets_ok ms -> forall cs pd xp w, linked uri user pass rnd cs pd xp g -> inv ms None uri [] xp w ->
  exists es' xp' cs' pd' w', xrun ms xp es' xp' /\ inv ms None uri [] xp' w' /\ linked uri user pass rnd cs' pd' xp' g' /\ cs' ++ owing pd' = (cs ++ owing pd) ++ challenges es /\
    gproper es + 2 * zlen cs + zlen (owing pd) <= proper es' + 2 * zlen cs' + zlen (owing pd') /\ noises es' + zlen (held pd') = gnoises es + zlen (held pd).
Proof.
  intros R Ne So. induction R as [g|g e g1 es g2 S R IH]; intros cs pd xp w L I.
  - exists [], xp, cs, pd, w. cbn [challenges flat_map]. rewrite app_nil_r. splits; try assumption; try reflexivity. constructor.
  - destruct (glink _ _ _ _ _ _ _ _ _ _ _ _ S Ne So L I) as (e1 & xp1 & cs1 & pd1 & X1 & L1 & C1 & M1 & N1). destruct (run_inv _ _ _ _ _ _ _ X1 Ne So w I) as (w1 & I1 & _).
    destruct (IH cs1 pd1 xp1 w1 L1 I1) as (e2 & xp2 & cs2 & pd2 & w2 & X2 & I2 & L2 & C2 & M2 & N2). exists (e1 ++ e2), xp2, cs2, pd2, w2. splits; try assumption.
    + exact (xrun_app _ _ _ _ X1 _ _ X2).
    + rewrite C2, C1, <- app_assoc. reflexivity.
    + unfold gproper, proper in *. cbn [filter] in *. rewrite filter_app, L_serve.zlen_app. destruct (negb (is_gnoise e)); rewrite ?zlen_cons in *; change (zlen (@nil gevent)) with 0 in *; lia.
    + unfold gnoises, noises in *. cbn [filter] in *. rewrite filter_app, L_serve.zlen_app. destruct (is_gnoise e); rewrite ?zlen_cons in *; change (zlen (@nil gevent)) with 0 in *; lia.
Qed.

(* ---- what follows ---- *)
Lemma glink_all ms uri user pass rnd es g : ms <> [] -> Forall sets_ok ms -> grun ms true (mkG (launch (mkW (dialled ProtoTCP (Some (user, pass)) uri) [] [] [] rnd [])) [] []) es g ->
  exists xp cs pd w, inv ms None uri [] xp w /\ linked uri user pass rnd cs pd xp g /\ challenges es = cs ++ owing pd /\ gproper es <= 20 + 2 * zlen ms + 2 * gnoises es + 2 * zlen (challenges es).
Proof.
  intros Ne So R. destruct (glink_run _ uri user pass rnd _ _ _ R Ne So _ _ _ _ (linked_start uri user pass rnd) (inv_start ms None uri [])) as (es' & xp & cs & pd & w & X & I & L & C & M & N).
  exists xp, cs, pd, w. destruct (run_inv _ _ _ _ _ _ _ X Ne So _ (inv_start ms None uri [])) as (w2 & I2 & W). apply inv_pos in I2. cbn [owing held app] in *. rewrite <- C, L_serve.zlen_app. splits; try assumption; [reflexivity|].
  change (zlen (@nil (Z * challenge))) with 0 in M. change (zlen (@nil item)) with 0 in N. pose proof (zlen_nonneg (held pd)). pose proof (zlen_nonneg (owing pd)). lia.
Qed.
Lemma pays_more uri user pass log : forall p cs more, pays uri user pass p cs log -> pays uri user pass p (cs ++ more) log.
Proof.
  induction log as [|e log IH]; intros p cs more P; [exact I|]. destruct e as [[|] r| | | | | |]; cbn [pays] in *; auto.
  - destruct cs as [|[n c] cs]; [destruct P|]. destruct P as (A & B & P). cbn [app]. auto.
  - destruct P as (A & P). auto.
Qed.
Lemma wish_tags l l' : map tag l = map tag l' -> map wish_of l = map wish_of l'.
Proof. intros E. apply (f_equal (map snd)) in E. rewrite !map_map in E. exact E. Qed.
Lemma verb_tags l l' : map tag l = map tag l' -> map q_verb l = map q_verb l'.
Proof. intros E. apply (f_equal (map (fun t : Z * wish => fst (fst (snd t))))) in E. rewrite !map_map in E. exact E. Qed.
Lemma linked_moves uri user pass rnd cs pd xp g ms w : linked uri user pass rnd cs pd xp g -> inv ms None uri [] xp w -> y_fate (g_y g) = Goes -> gowed g \/ gmoves g.
Proof.
  intros L I F. pose proof (lk_twin _ _ _ _ _ _ _ _ L) as (R & E1 & E2 & E3 & E4 & E5). destruct (inv_live _ _ _ _ _ _ I) as (Lv & _).
  assert (G : w_in (y_w (g_y g)) <> [] -> gmoves g).
  { intros W. unfold gmoves. destruct (y_stage (g_y g)) as [st|] eqn:Es.
    - exists YStage. unfold ystep. rewrite F, Es. destruct (on_stage _ _ _) as [[w1 c1] f1]. eexists. split; [discriminate|reflexivity].
    - destruct (y_data (g_y g)) as [|[ch p] d] eqn:Ed.
      + exists (YTurn 0 0). unfold ystep. rewrite F, E1, Lv, Es, Ed. change (zlen (@nil (Z * bytes)) <=? 20) with true. cbv iota. destruct (turn (y_w (g_y g)) 0 0) as [w1 en]. eexists. split; [intros _; exact W|reflexivity].
      + exists YPacket. unfold ystep. rewrite F, Ed. destruct (on_packet _ _ _) as [c f]. eexists. split; [discriminate|reflexivity]. }
  destruct (w_in (y_w (g_y g))) as [|b0 t0] eqn:Wd; [|right; apply G; discriminate]. clear G.
  destruct pd as [[[[n c] i] B]|]. { pose proof (lk_in _ _ _ _ _ _ _ _ L) as Wi. rewrite Wd in Wi. symmetry in Wi. apply app_eq_nil in Wi as [_ Wi]. cbn [ahead] in Wi. apply app_eq_nil in Wi as [Wi _]. destruct (item_stream_some i Wi). }
  rewrite E5 in F. destruct (inv_moves _ _ _ _ _ _ I F) as [(r & A & B)|(e & y' & A & B)].
  - left. pose proof (lk_firsts _ _ _ _ _ _ _ _ L) as Ft. assert (X : In (tag r) (map tag (firsts (w_log (y_w (g_y g)))))) by (rewrite Ft; apply in_map; exact A).
    apply in_map_iff in X as (r' & Tg & X). assert (Ec : q_cseq r' = q_cseq r) by (unfold tag in Tg; congruence). exists r'. unfold heard. rewrite Ec, <- (lk_done _ _ _ _ _ _ _ _ L). splits; [apply firsts_sent; exact X|exact B|].
    rewrite (linked_times _ _ _ _ _ _ _ _ _ _ (q_cseq r) L I) by (apply in_map; exact A). rewrite (lk_asked _ _ _ _ _ _ _ _ L). cbn [owing map]. rewrite app_nil_r. lia.
  - right. unfold gmoves. pose proof (lk_in _ _ _ _ _ _ _ _ L) as Wi. rewrite Wd in Wi. symmetry in Wi. apply app_eq_nil in Wi as [Wi _].
    unfold ystep in B. rewrite F in B. rewrite F in E5. destruct e as [t1 t2| | | |]; [destruct (A eq_refl Wi)| | | |].
    + exists YStage. unfold ystep. rewrite E5, E3. destruct (y_stage (x_y xp)) as [st|]; [|discriminate]. destruct (on_stage _ _ st) as [[w1 c1] f1]. destruct (on_stage (y_w (g_y g)) _ st) as [[w2 c2] f2]. eexists. split; [discriminate|reflexivity].
    + exists YPacket. unfold ystep. rewrite E5, E4. destruct (y_data (x_y xp)) as [|[ch p] d]; [discriminate|]. destruct (on_packet (y_c (g_y g)) ch p) as [c f]. eexists. split; [discriminate|reflexivity].
    + exists YTick. unfold ystep. rewrite E5, E2. destruct (c_ticked (y_c (x_y xp))); [|discriminate]. destruct (on_tick (y_w (g_y g)) _) as [[w2 c2] f2]. eexists. split; [discriminate|reflexivity].
    + exists YExpire. unfold ystep. rewrite E5, E2. destruct (c_running (y_c (x_y xp))); [|discriminate]. eexists. split; [discriminate|reflexivity].
Qed.
Lemma plan_length uri ms : length (plan uri ms) = (5 + length ms)%nat.
Proof. unfold plan. rewrite !app_length, set_up_length. cbn [length]. lia. Qed.
Lemma agenda_length ms : length (agenda ms) = (5 + length ms)%nat.
Proof. unfold agenda. rewrite !app_length, map_length. cbn [length]. lia. Qed.
Lemma linked_orderly uri user pass rnd cs pd xp g ms w : linked uri user pass rnd cs pd xp g -> inv ms None uri [] xp w ->
  map wish_of (firsts (w_log (y_w (g_y g)))) = firstn (length (firsts (w_log (y_w (g_y g))))) (plan uri ms) /\
  map q_cseq (firsts (w_log (y_w (g_y g)))) = map Z.of_nat (seq 1 (length (firsts (w_log (y_w (g_y g)))))) /\
  Forall (fun r => nth_error (plan uri ms) (Z.to_nat (q_cseq r - 1)) = Some (wish_of r)) (retransmissions (w_log (y_w (g_y g)))) /\ y_loop (g_y g) = Live /\
  (y_fate (g_y g) = Goes \/ y_fate (g_y g) = Returns /\ map wish_of (firsts (w_log (y_w (g_y g)))) = plan uri ms /\ ~ gowed g).
Proof.
  intros L I. pose proof (lk_firsts _ _ _ _ _ _ _ _ L) as Ft. pose proof (lk_twin _ _ _ _ _ _ _ _ L) as (_ & E1 & _ & _ & _ & E5).
  assert (Ln : length (firsts (w_log (y_w (g_y g)))) = length (sent_requests (w_log (y_w (x_y xp))))) by (apply (f_equal (@length _)) in Ft; rewrite !map_length in Ft; exact Ft).
  rewrite (wish_tags _ _ Ft), (cseq_tags _ _ Ft), Ln. destruct (inv_plan _ _ _ _ _ _ I) as (W & _). destruct (inv_orderly _ _ _ _ _ _ I) as (N & _ & Lv & Fa). unfold wishes, numbers_sent, verbs_sent in *. rewrite map_length in *.
  splits; try assumption.
  - pose proof (lk_wish _ _ _ _ _ _ _ _ L) as Wf. eapply Forall_impl; [|exact Wf]. intros r X. cbv beta in X. apply in_map_iff in X as (rp & Tg & X).
    assert (Ec : q_cseq rp = q_cseq r) by (unfold tag in Tg; congruence). assert (Ew : wish_of rp = wish_of r) by (unfold tag in Tg; congruence). rewrite <- Ec, <- Ew.
    destruct I as [ph P ks done items sinks st q id fs idx verbs csq log cst snk running ticked stg data ft HP HF]. pose proof (fl_asks _ _ _ _ _ _ _ _ _ _ _ HF) as Fa2. rewrite Forall_forall in Fa2. apply Fa2. exact X.
  - congruence.
  - rewrite E5. destruct Fa as [Fa|(Fa & V & _)]; [left; exact Fa|right]. splits; [exact Fa| |].
    + rewrite W. apply (f_equal (@length _)) in V. rewrite map_length, agenda_length in V. rewrite V. apply firstn_all2. rewrite plan_length. lia.
    + intros (r & A1 & A2 & A3). destruct (linked_tags _ _ _ _ _ _ _ _ _ L A1) as (rp & Q1 & Q2). apply (inv_settled _ _ _ _ _ _ I Fa). exists rp. split; [exact Q1|]. rewrite (lk_done _ _ _ _ _ _ _ _ L).
      replace (q_cseq rp) with (q_cseq r) by (unfold tag in Q2; congruence). exact A2.
Qed.

(* ---- a run, computed ---- *)
Definition heard_now (ms : list media) (g : gscene) (n : Z) : bool :=
  existsb (fun r => (q_cseq r =? n) && beq (q_verb r) (verb_no (zlen ms) n)) (sent_requests (w_log (y_w (g_y g)))) && negb (existsb (Z.eqb n) (g_done g)) && (times n (g_asked g) <? times n (numbers_sent (g_y g)))%nat.
Definition gperform1 (ms : list media) (orderly : bool) (g : gscene) (e : gevent) : option gscene :=
  match e with
  | GAsk n c i => if heard_now ms g n && (negb orderly || forallb (fun k => (k <=? n) && ((k =? n) || existsb (Z.eqb k) (g_done g))) (numbers_sent (g_y g)))
                  then Some (mkG (arrives (g_y g) (item_stream i)) (g_done g) (g_asked g ++ [n])) else None
  | GAnswer n i => if heard_now ms g n then Some (mkG (arrives (g_y g) (item_stream i)) (n :: g_done g) (g_asked g)) else None
  | GNoise i => Some (mkG (arrives (g_y g) (item_stream i)) (g_done g) (g_asked g))
  | GClient e => if is_turn e && match w_in (y_w (g_y g)) with [] => true | _ => false end then None
                 else match ystep (g_y g) e with Some y' => Some (mkG y' (g_done g) (g_asked g)) | None => None end
  end.
Fixpoint gperform (ms : list media) (orderly : bool) (g : gscene) (es : list gevent) : option gscene :=
  match es with [] => Some g | e :: r => match gperform1 ms orderly g e with Some g' => gperform ms orderly g' r | None => None end end.
Definition gallowed (ms : list media) (e : gevent) : Prop :=
  match e with GAsk n c i => asks n c i /\ item_ok i | GAnswer n i => fits ms (verb_no (zlen ms) n) n i | GNoise i => item_ok i /\ takeable i | GClient _ => True end.
Lemma existsb_in n l : existsb (Z.eqb n) l = true <-> In n l.
Proof. rewrite existsb_exists. split; [intros (k & A & B); apply Z.eqb_eq in B; subst; exact A|intros A; exists n; split; [exact A|apply Z.eqb_refl]]. Qed.
Lemma heard_now_ok ms g n : heard_now ms g n = true -> exists r, heard g r /\ q_cseq r = n /\ q_verb r = verb_no (zlen ms) n.
Proof.
  unfold heard_now. intros H. apply andb_prop in H as [H T]. apply andb_prop in H as [H D]. apply existsb_exists in H as (r & A & B). apply andb_prop in B as [B V]. apply Z.eqb_eq in B. apply beq_eq in V. subst n.
  exists r. unfold heard. splits; try assumption; try reflexivity.
  - intros X. apply existsb_in in X. rewrite X in D. discriminate.
  - apply Nat.ltb_lt. exact T.
Qed.
Lemma gperform_run ms orderly es : forall g g', Forall (gallowed ms) es -> gperform ms orderly g es = Some g' -> grun ms orderly g es g'.
Proof.
  induction es as [|e es IH]; intros g g' A P; cbn [gperform] in P; [injection P as <-; constructor|]. apply Forall_cons_iff in A as [Ae A].
  destruct (gperform1 ms orderly g e) as [g1|] eqn:E; [|discriminate]. apply (gr_step ms orderly g e g1); [|apply IH; assumption]. destruct e as [n c i|n i|i|e]; cbn [gperform1 gallowed] in *.
  - destruct (heard_now ms g n) eqn:H; [|discriminate]. destruct (heard_now_ok _ _ _ H) as (r & H1 & <- & _). cbn [andb] in E. destruct (_ || _) eqn:O; [|discriminate]. injection E as <-. apply gs_ask; try tauto.
    intros ->. cbn [negb orb] in O. unfold only_one. apply Forall_forall. intros k K. rewrite forallb_forall in O. specialize (O k K). apply andb_prop in O as [O1 O2]. split; [lia|]. apply orb_prop in O2 as [O2|O2]; [left; lia|right; apply existsb_in; exact O2].
  - destruct (heard_now ms g n) eqn:H; [|discriminate]. destruct (heard_now_ok _ _ _ H) as (r & H1 & <- & V). injection E as <-. apply gs_answer; [exact H1|rewrite V; exact Ae].
  - injection E as <-. destruct Ae. apply gs_noise; assumption.
  - destruct (_ && _) eqn:X in E; [discriminate|]. destruct (ystep (g_y g) e) as [y'|] eqn:S; [|discriminate]. injection E as <-. apply gs_client; [|exact S]. intros T N. rewrite T, N in X. discriminate.
Qed.
Definition resp_fine (i : item) : bool :=
  match i with
  | Resp code reason fields body => (100 <=? code) && (code <=? 999) && L_message.plain reason && forallb field_fine fields && body_fine fields body && (zlen body <=? 2048)
  | _ => false
  end.
Lemma resp_fine_ok i : resp_fine i = true -> item_ok i.
Proof.
  destruct i as [|code reason fields body|]; try discriminate. unfold resp_fine. intros H. do 5 (apply andb_prop in H as [H ?]).
  unfold item_ok. splits; [lia|lia|apply plain_line; assumption| | |lia].
  - apply Forall_forall. intros f F. apply field_fine_ok. rewrite forallb_forall in H2. auto.
  - unfold body_fine, content_ok in *. destruct body; [|apply beq_eq; assumption]. intros k E. rewrite E in *. lia.
Qed.
