(* Lemmas: the output of the client as a record of the session. *)
From Coq Require Import String.
From Verif Require Import Base GoStrings M_rtp S_nal M_nal M_conn M_message M_transport M_session S_session M_main M_log S_record L_base L_strings L_frames L_main.
From Coq Require Import ZifyBool ZifyNat.

Lemma merged_app {A} (a b c a' b' c' : list A) : merged a b c -> merged a' b' c' -> merged (a ++ a') (b ++ b') (c ++ c').
Proof. induction 1; intros M; cbn [app]; [exact M|constructor; auto|constructor; auto]. Qed.
Lemma merged_left {A} (a : list A) : merged a [] a.
Proof. induction a; constructor; assumption. Qed.
Lemma merged_right {A} (a : list A) : merged [] a a.
Proof. induction a; constructor; assumption. Qed.

Lemma println_text m : println m = m ++ [10].
Proof. unfold println, entry. rewrite last_last. reflexivity. Qed.
Lemma entry_text m : entry m = m ++ [10] \/ (entry m = m /\ last (entry m) 0 = 10).
Proof. unfold entry. destruct (last m 0 =? 10) eqn:E; [right; split; [reflexivity|lia]|left; reflexivity]. Qed.
Lemma session_entries ord es : session_prints ord es = message_entries ord es.
Proof. unfold session_prints, message_entries. apply flat_map_ext. intros e. unfold effect_prints. destruct e; try reflexivity; rewrite println_text; reflexivity. Qed.
Lemma entries_app ord a b : message_entries ord (a ++ b) = message_entries ord a ++ message_entries ord b.
Proof. apply flat_map_app. Qed.

Lemma error_println txt e : error_entry txt (println (txt e)).
Proof. exists e. left. apply println_text. Qed.
Lemma error_entry_text txt e : error_entry txt (entry (txt e)).
Proof. exists e. destruct (entry_text (txt e)) as [H|[H1 H2]]; [left; exact H|right]. split; assumption. Qed.

(* what a step prints, split into messages and the rest *)
Definition extends (w w' : world) : Prop := exists new, w_log w' = w_log w ++ new.
Lemma extends_refl w : extends w w.
Proof. exists []. rewrite app_nil_r. reflexivity. Qed.
Lemma news_trans w1 w2 w3 : extends w1 w2 -> extends w2 w3 -> news w1 w3 = news w1 w2 ++ news w2 w3 /\ extends w1 w3.
Proof.
  intros (a & A) (b & B). rewrite (news_app w1 w2 a A), (news_app w2 w3 b B). assert (E : w_log w3 = w_log w1 ++ a ++ b) by (rewrite B, A, app_assoc; reflexivity).
  split; [apply news_app; exact E|exists (a ++ b); exact E].
Qed.
Lemma news_same w : news w w = [].
Proof. apply news_app. rewrite app_nil_r. reflexivity. Qed.

Lemma must_split ord txt w r : exists ns, merged (message_entries ord (news w (fst r))) ns (must_prints ord txt w r) /\ Forall (notice txt) ns.
Proof.
  unfold must_prints. rewrite session_entries. exists (match snd r with Err e => [entry (txt e)] | _ => [] end). split.
  - rewrite <- (app_nil_r (message_entries ord (news w (fst r)))) at 1. apply (merged_app _ [] _ [] _ _ (merged_left _) (merged_right _)).
  - destruct (snd r) as [u|e| |]; constructor; [|constructor]. right. apply error_entry_text.
Qed.
Lemma prefix_app p l : has_prefix p (p ++ l) = true.
Proof. unfold has_prefix. rewrite firstn_app, firstn_all, Nat.sub_diag. cbn [firstn]. rewrite app_nil_r. apply beq_refl. Qed.
Lemma notice_prefix txt p l : In p [bs "Stage: "; bs "Timer: stage="; bs "RTP ["; bs "RTCP ["; bs "NAL Zero="] -> notice txt (entry (p ++ l)).
Proof.
  intros J. left. apply Exists_exists. exists p. split; [exact J|]. unfold entry. destruct (last (p ++ l) 0 =? 10); rewrite <- ?app_assoc; apply prefix_app.
Qed.
Lemma notice_stage txt l : notice txt (println (bs "Stage: " ++ l)).
Proof. unfold println. rewrite <- app_assoc. apply notice_prefix. left. reflexivity. Qed.

Lemma command_news w verb uri hs w' o : command w verb uri hs = (w', o) -> exists new, w_log w' = w_log w ++ new /\ (new = [] \/ exists r, new = [Sent false r] /\ q_verb r = verb).
Proof.
  unfold command. destruct (s_conn (w_s w)); cbn [negb]; [|intros E; injection E as <- _; exists []; rewrite app_nil_r; split; [reflexivity|left; reflexivity]]. cbv zeta.
  destruct (call_auth (w_s w) verb) as [s1 auth]. unfold enqueue. cbv zeta. unfold write. cbn [upd_s w_s w_log].
  match goal with |- context [if ?b then _ else _] => destruct b end.
  - intros E; injection E as <- _; exists []; cbn [w_log]; rewrite app_nil_r; split; [reflexivity|left; reflexivity].
  - destruct (w_writes _) as [|[e|] ?]; intros E; injection E as <- _; cbn [w_log]; (eexists; split; [reflexivity|right; eexists; split; [reflexivity|reflexivity]]).
Qed.
Lemma conn_news w verb uri hs w' o : with_conn w (fun s => command w verb (uri s) hs) = (w', o) -> exists new, w_log w' = w_log w ++ new /\ (new = [] \/ exists r, new = [Sent false r] /\ q_verb r = verb).
Proof.
  unfold with_conn. destruct (s_conn (w_s w)); [apply command_news|]. intros E; injection E as <- _; exists []; rewrite app_nil_r; split; [reflexivity|left; reflexivity].
Qed.
Lemma conn_extends w verb uri hs : extends w (fst (with_conn w (fun s => command w verb (uri s) hs))).
Proof. destruct (with_conn w (fun s => command w verb (uri s) hs)) as [w' o] eqn:E. apply conn_news in E. destruct E as (new & E & _). exists new. exact E. Qed.
Lemma must_world r c : fst (fst (must r c)) = fst r.
Proof. destruct r as [w [u|e| |]]; reflexivity. Qed.

Lemma step_split ord txt y e y' : ystep y e = Some y' ->
  extends (y_w y) (y_w y') /\ exists ns, merged (message_entries ord (news (y_w y) (y_w y'))) ns (yprints ord txt y e) /\ Forall (notice txt) ns.
Proof.
  assert (Q : forall w, exists ns, merged (message_entries ord (news w w)) ns [] /\ Forall (notice txt) ns) by (intros w; exists []; rewrite news_same; split; [constructor|constructor]).
  assert (K : forall (w : world) l p (x : list bytes), (exists ns, merged l ns x /\ Forall (notice txt) ns) -> notice txt p -> exists ns, merged l ns (p :: x) /\ Forall (notice txt) ns).
  { intros _ l p x (ns & M & F) N. exists (p :: ns). split; [apply mg_right; exact M|constructor; assumption]. }
  unfold ystep. destruct (y_fate y); try discriminate. destruct e as [t1 t2| | | |]; cbn [yprints].
  - destruct (y_loop y); try discriminate. destruct (y_stage y); try discriminate. destruct (zlen (y_data y) <=? 20); [|discriminate].
    destruct (turn (y_w y) t1 t2) as [w en] eqn:T. apply turn_grows in T. destruct T as (es & L & _). intros E. injection E as <-. cbn [y_w fst].
    split; [exists es; exact L|]. rewrite session_entries.
    exists (end_prints txt (y_w y) t1 t2). split.
    + rewrite <- (app_nil_r (message_entries ord (news (y_w y) w))) at 1. apply (merged_app _ [] _ [] _ _ (merged_left _) (merged_right _)).
    + unfold end_prints.
      assert (R : forall w, Forall (notice txt) (match receive w with (_, Err e) => if is_timeout e then [] else [println (txt e)] | _ => [] end)).
      { intros w0. destruct (receive w0) as [w1 [u|e| |]]; try constructor. destruct (is_timeout e); constructor; [|constructor]. right. apply error_println. }
      destruct (keepalive (y_w y) t1 t2) as [w1 [u|e| |]]; [apply R| |constructor|constructor]. destruct (s_stage (w_s w1) =? StageDone); [constructor|apply R].
  - destruct (y_stage y) as [n|]; [|discriminate]. unfold on_stage, stage_prints. cbv zeta.
    destruct (n =? StageReady).
    + destruct (must (play (y_w y)) _) as [[w c] f] eqn:M. apply (f_equal (fun x => fst (fst x))) in M. rewrite must_world in M. cbn [fst] in M. intros E. injection E as <-. cbn [y_w]. subst w.
      split; [apply conn_extends|]. apply (K (y_w y)); [apply must_split|apply notice_stage].
    + destruct ((n =? StagePlay) || (n =? StagePause) || (n =? StageDone)); intros E; injection E as <-; cbn [y_w]; (split; [apply extends_refl|]);
        (destruct (n =? StagePlay); [apply (K (y_w y)); [apply Q|apply notice_stage]|]); (destruct (n =? StagePause); [apply (K (y_w y)); [apply Q|apply notice_stage]|]);
        (destruct (n =? StageDone); [apply (K (y_w y)); [apply Q|apply notice_stage]|]); (apply (K (y_w y)); [apply Q|apply notice_prefix; left; reflexivity]).
  - destruct (y_data y) as [|[ch p] rest]; [discriminate|]. destruct (on_packet (y_c y) ch p) as [c f]. intros E. injection E as <-. cbn [y_w].
    split; [apply extends_refl|]. rewrite news_same. exists (packet_prints txt (y_c y) ch p). split; [apply merged_right|].
    unfold packet_prints. destruct (ch mod 2 =? 0).
    + destruct (rtp_unpack p) as [k|e| |]; [constructor|constructor; [right; apply error_println|constructor]|constructor|constructor].
      * apply (notice_prefix txt (bs "RTP [")). right; right; left; reflexivity.
      * destruct (push (c_sink (y_c y)) (rtp_pl k) (rtp_ts k)) as [s [u|e| |]]; [|constructor; [right; apply error_println|constructor]|constructor|constructor].
        rewrite Forall_map. apply Forall_forall. intros u0 _. apply (notice_prefix txt (bs "NAL Zero=")). do 4 right. left. reflexivity.
    + destruct (rtcp_unpack p) as [k|e| |]; [constructor; [|constructor]|constructor; [right; apply error_println|constructor]|constructor|constructor].
      apply (notice_prefix txt (bs "RTCP [")). do 3 right. left. reflexivity.
  - destruct (c_ticked (y_c y)); [|discriminate]. cbv zeta. unfold on_tick, tick_prints. cbn [c_state].
    destruct (c_state (y_c y) =? StagePlay); [|destruct (c_state (y_c y) =? StagePause)].
    + destruct (must (pause (y_w y)) _) as [[w c] f] eqn:M. apply (f_equal (fun x => fst (fst x))) in M. rewrite must_world in M. cbn [fst] in M. intros E. injection E as <-. cbn [y_w]. subst w.
      split; [apply conn_extends|]. apply (K (y_w y)); [apply must_split|]. apply notice_prefix. right; left; reflexivity.
    + destruct (must (teardown (y_w y)) _) as [[w c] f] eqn:M. apply (f_equal (fun x => fst (fst x))) in M. rewrite must_world in M. cbn [fst] in M. intros E. injection E as <-. cbn [y_w]. subst w.
      split; [apply conn_extends|]. apply (K (y_w y)); [apply (K (y_w y)); [apply must_split|apply notice_stage]|]. apply notice_prefix. right; left; reflexivity.
    + assert (X : forall w, exists ns, merged (message_entries ord (news w w)) ns [entry (bs "Timer: stage=" ++ itoa (c_state (y_c y)) ++ [10])] /\ Forall (notice txt) ns).
      { intros w. apply (K w); [apply Q|]. apply notice_prefix. right; left; reflexivity. }
      destruct (c_state (y_c y) =? StageDone); intros E; injection E as <-; cbn [y_w]; (split; [apply extends_refl|apply X]).
  - destruct (c_running (y_c y)); [|discriminate]. intros E. injection E as <-. cbn [y_w]. split; [apply extends_refl|apply Q].
Qed.

Lemma output_split ord txt es : forall y y', yrun y es = Some y' ->
  extends (y_w y) (y_w y') /\ exists ns, merged (message_entries ord (news (y_w y) (y_w y'))) ns (map snd (youtput ord txt y es)) /\ Forall (notice txt) ns.
Proof.
  induction es as [|e es IH]; intros y y' R; cbn [yrun youtput] in *.
  - injection R as <-. split; [apply extends_refl|]. exists []. rewrite news_same. split; constructor.
  - destruct (ystep y e) as [y1|] eqn:S; [|discriminate]. destruct (step_split ord txt y e y1 S) as (X1 & n1 & M1 & F1). destruct (IH y1 y' R) as (X2 & n2 & M2 & F2).
    destruct (news_trans _ _ _ X1 X2) as [N X]. split; [exact X|]. exists (n1 ++ n2). split; [|apply Forall_app; split; assumption].
    rewrite N, entries_app, map_app. apply merged_app; [|exact M2]. rewrite map_map. cbn [snd]. rewrite map_id. exact M1.
Qed.

(* ---- notices ---- *)
Lemma prefix_snoc p c m : last p 0 <> c -> p <> [] -> has_prefix p m = false -> has_prefix p (m ++ [c]) = false.
Proof.
  intros L N H. destruct (has_prefix p (m ++ [c])) eqn:E; [|reflexivity]. apply has_prefix_inv in E. remember (skipn (length p) (m ++ [c])) as r eqn:Er. clear Er.
  destruct (rev r) as [|x t] eqn:R.
  - assert (r = []) by (rewrite <- (rev_involutive r), R; reflexivity). subst r. rewrite app_nil_r in E. exfalso. apply L. rewrite <- E. apply last_last.
  - assert (r = rev t ++ [x]) by (rewrite <- (rev_involutive r), R; reflexivity). subst r. rewrite app_assoc in E. apply app_inj_tail in E. destruct E as [E _].
    rewrite E, prefix_app in H. discriminate.
Qed.
Lemma quiet_entry m : is_notice m = false -> is_notice (entry m) = false.
Proof.
  intros H. unfold entry. destruct (last m 0 =? 10); [exact H|]. unfold is_notice in *. apply orb_false_iff in H. destruct H as [A B].
  rewrite (prefix_snoc _ 10 m), (prefix_snoc (bs "Timer: ") 10 m); try assumption; try reflexivity; discriminate.
Qed.

Lemma must_quiet ord txt w verb uri hs : (forall e, is_notice (txt e) = false) -> (forall l, is_notice (verb ++ bs " " ++ l) = false) ->
  filter is_notice (must_prints ord txt w (with_conn w (fun s => command w verb (uri s) hs))) = [].
Proof.
  intros T V. destruct (with_conn w (fun s => command w verb (uri s) hs)) as [w' o] eqn:E. apply conn_news in E. destruct E as (new & L & N).
  unfold must_prints. cbn [fst snd]. rewrite (news_app _ _ _ L), session_entries, filter_app.
  replace (filter is_notice (match o with Err e => [entry (txt e)] | _ => [] end)) with (@nil bytes) by (destruct o as [u|e| |]; try reflexivity; cbn [filter]; rewrite quiet_entry by apply T; reflexivity).
  rewrite app_nil_r. destruct N as [->|(r & -> & Q)]; [reflexivity|]. cbn [message_entries flat_map app filter]. unfold pack_request. rewrite Q, <- !app_assoc, V. reflexivity.
Qed.

Lemma tag_filter (k : yevent -> bool) e (ls : list bytes) : map snd (filter (fun x => k (fst x)) (map (fun l => (e, l)) ls)) = if k e then ls else [].
Proof.
  induction ls as [|l ls IH]; [destruct (k e); reflexivity|]. cbn [map filter fst]. destruct (k e); cbn [map snd]; rewrite ?IH; reflexivity.
Qed.

Lemma stage_notices ord txt w n : (forall e, is_notice (txt e) = false) -> filter is_notice (stage_prints ord txt w n) = [stage_text n].
Proof.
  intros T. unfold stage_prints, StageReady, StagePlay, StagePause, StageDone. rewrite !println_text.
  destruct (n =? 1) eqn:E1; [assert (n = 1) as -> by lia; cbn [filter]; unfold play; rewrite must_quiet by (exact T || reflexivity); reflexivity|].
  destruct (n =? 2) eqn:E2; [assert (n = 2) as -> by lia; reflexivity|]. destruct (n =? 3) eqn:E3; [assert (n = 3) as -> by lia; reflexivity|].
  destruct (n =? 4) eqn:E4; [assert (n = 4) as -> by lia; reflexivity|].
  assert (S : stage_text n = bs "Stage: " ++ itoa n ++ [10]) by (unfold stage_text; destruct n as [|p|p]; try reflexivity; do 3 (destruct p as [p|p|]; try reflexivity; try lia)).
  rewrite S. unfold entry. rewrite (app_assoc (bs "Stage: ")), last_last. cbn [Z.eqb Pos.eqb]. rewrite <- app_assoc. cbn [filter]. unfold is_notice. rewrite prefix_app. reflexivity.
Qed.
Lemma tick_notices ord txt w c : (forall e, is_notice (txt e) = false) -> filter is_notice (tick_prints ord txt w c) = tick_texts (c_state c).
Proof.
  intros T. unfold tick_prints, StagePlay, StagePause. rewrite !println_text. set (n := c_state c).
  replace (entry (bs "Timer: stage=" ++ itoa n ++ [10])) with (bs "Timer: stage=" ++ itoa n ++ [10]) by (unfold entry; rewrite (app_assoc (bs "Timer: stage=")), last_last; reflexivity).
  cbn [filter]. replace (is_notice (bs "Timer: stage=" ++ itoa n ++ [10])) with true by reflexivity.
  destruct (n =? 2) eqn:E2; [assert (n = 2) as -> by lia; unfold pause; rewrite must_quiet by (exact T || reflexivity); reflexivity|].
  destruct (n =? 3) eqn:E3; [assert (n = 3) as -> by lia; cbn [filter]; unfold teardown; rewrite must_quiet by (exact T || reflexivity); reflexivity|].
  unfold tick_texts. destruct n as [|p|p]; try reflexivity. do 2 (destruct p as [p|p|]; try reflexivity). lia.
Qed.

Lemma notices_stage ord txt es : (forall e, is_notice (txt e) = false) -> forall y y', yrun y es = Some y' ->
  notices_at at_stage (youtput ord txt y es) = map stage_text (taken y es).
Proof.
  intros T. unfold notices_at. induction es as [|e es IH]; intros y y' R; [reflexivity|]. cbn [yrun youtput taken] in *. destruct (ystep y e) as [y1|] eqn:S; [|discriminate].
  rewrite filter_app, map_app, filter_app, (IH y1 y' R), map_app. f_equal. rewrite tag_filter. destruct e; try reflexivity. cbn [at_stage yprints].
  unfold ystep in S. destruct (y_fate y); try discriminate. destruct (y_stage y) as [n|]; [|discriminate]. rewrite stage_notices by exact T. reflexivity.
Qed.

Lemma must_client r c w c' f : must r c = (w, c', f) -> c' = c.
Proof. destruct r as [w0 [u|e| |]]; cbn [must]; congruence. Qed.
Lemma step_state y e y' : ystep y e = Some y' -> c_state (y_c y') = match e, y_stage y with YStage, Some n => n | _, _ => c_state (y_c y) end.
Proof.
  unfold ystep. destruct (y_fate y); try discriminate. destruct e as [t1 t2| | | |].
  - destruct (y_loop y); try discriminate. destruct (y_stage y); try discriminate. destruct (zlen (y_data y) <=? 20); [|discriminate].
    destruct (turn (y_w y) t1 t2) as [w en]. intros E. injection E as <-. reflexivity.
  - destruct (y_stage y) as [n|]; [|discriminate]. unfold on_stage. cbv zeta. destruct (n =? StageReady).
    + destruct (must (play (y_w y)) _) as [[w c] f] eqn:M. apply must_client in M. intros E. injection E as <-. subst c. reflexivity.
    + destruct ((n =? StagePlay) || (n =? StagePause) || (n =? StageDone)); intros E; injection E as <-; reflexivity.
  - destruct (y_data y) as [|[ch p] rest]; [discriminate|]. destruct (on_packet (y_c y) ch p) as [c f] eqn:O. intros E. injection E as <-. cbn [y_c].
    unfold on_packet in O. destruct (ch mod 2 =? 0).
    + destruct (rtp_unpack p) as [k|e| |]; try (injection O as <- _; reflexivity). destruct (push (c_sink (y_c y)) (rtp_pl k) (rtp_ts k)) as [s [u|e| |]]; injection O as <- _; reflexivity.
    + destruct (rtcp_unpack p) as [k|e| |]; injection O as <- _; reflexivity.
  - destruct (c_ticked (y_c y)); [|discriminate]. cbv zeta. destruct (on_tick (y_w y) _) as [[w c] f] eqn:O. intros E. injection E as <-. cbn [y_c].
    unfold on_tick in O. cbn [c_state] in O. destruct (c_state (y_c y) =? StagePlay); [apply must_client in O; subst c; reflexivity|].
    destruct (c_state (y_c y) =? StagePause); [apply must_client in O; subst c; reflexivity|]. destruct (c_state (y_c y) =? StageDone); injection O as <- <- <-; reflexivity.
  - destruct (c_running (y_c y)); [|discriminate]. intros E. injection E as <-. reflexivity.
Qed.

Lemma notices_tick ord txt es : (forall e, is_notice (txt e) = false) -> forall y y', yrun y es = Some y' ->
  notices_at at_tick (youtput ord txt y es) = flat_map tick_texts (at_ticks (c_state (y_c y)) y es).
Proof.
  intros T. unfold notices_at. induction es as [|e es IH]; intros y y' R; [reflexivity|]. cbn [yrun youtput at_ticks] in *. destruct (ystep y e) as [y1|] eqn:S; [|discriminate].
  rewrite filter_app, map_app, filter_app, (IH y1 y' R), tag_filter. apply step_state in S. rewrite S. destruct e; cbn [at_tick yprints filter app]; try reflexivity.
  - destruct (y_stage y); reflexivity.
  - rewrite tick_notices by exact T. reflexivity.
Qed.

(* ---- the end ---- *)
Lemma must_fatal ord txt w r c w' c' : must r c = (w', c', Fatals) -> exists e a, must_prints ord txt w r = a ++ [entry (txt e)].
Proof.
  destruct r as [w0 [u|e| |]]; cbn [must]; intros E; try discriminate. unfold must_prints. cbn [snd]. exists e. eexists. reflexivity.
Qed.
Lemma step_why ord txt y e y' : ystep y e = Some y' -> y_fate y' = Returns \/ y_fate y' = Fatals ->
  exists a l, yprints ord txt y e = a ++ [l] /\ (error_entry txt l \/ (e = YTick /\ c_state (y_c y) = 4 /\ l = bs "Timer: stage=4" ++ [10])).
Proof.
  assert (EE : forall e, error_entry txt (entry (txt e))) by (intros; apply error_entry_text). assert (EP : forall e, error_entry txt (println (txt e))) by (intros; apply error_println).
  assert (NR : forall r c w c', must r c = (w, c', Returns) -> False) by (intros [w0 [u|x| |]] c w c'; cbn [must]; discriminate).
  unfold ystep. destruct (y_fate y); try discriminate. destruct e as [t1 t2| | | |]; cbn [yprints].
  - destruct (y_loop y); try discriminate. destruct (y_stage y); try discriminate. destruct (zlen (y_data y) <=? 20); [|discriminate].
    destruct (turn (y_w y) t1 t2) as [w en]. intros E. injection E as <-. cbn [y_fate]. destruct en; intros [H|H]; discriminate.
  - destruct (y_stage y) as [n|]; [|discriminate]. unfold on_stage, stage_prints. cbv zeta. destruct (n =? StageReady).
    + destruct (must (play (y_w y)) _) as [[w c] f] eqn:M. intros E. injection E as <-. cbn [y_fate]. intros [->| ->]; [apply NR in M; destruct M|].
      apply (must_fatal ord txt (y_w y)) in M. destruct M as (x & a & ->). eexists (_ :: a), _. split; [reflexivity|left; apply EE].
    + destruct ((n =? StagePlay) || (n =? StagePause) || (n =? StageDone)); intros E; injection E as <-; cbn [y_fate]; intros [H|H]; discriminate.
  - destruct (y_data y) as [|[ch p] rest]; [discriminate|]. destruct (on_packet (y_c y) ch p) as [c f] eqn:O. intros E. injection E as <-. cbn [y_fate].
    unfold on_packet in O. unfold packet_prints. destruct (ch mod 2 =? 0).
    + destruct (rtp_unpack p) as [k|e| |]; try (injection O as <- <-; intros [H|H]; try discriminate; exists [], (println (txt e)); split; [reflexivity|left; apply EP]).
      destruct (push (c_sink (y_c y)) (rtp_pl k) (rtp_ts k)) as [s [u|e| |]]; injection O as <- <-; intros [H|H]; try discriminate. exists [rtp_line ch k], (println (txt e)). split; [reflexivity|left; apply EP].
      all: injection O as _ <-; intros [H|H]; discriminate.
    + destruct (rtcp_unpack p) as [k|e| |]; injection O as <- <-; intros [H|H]; try discriminate. exists [], (println (txt e)). split; [reflexivity|left; apply EP].
  - destruct (c_ticked (y_c y)); [|discriminate]. cbv zeta. destruct (on_tick (y_w y) _) as [[w c] f] eqn:O. intros E. injection E as <-. cbn [y_fate].
    unfold on_tick in O. unfold tick_prints. cbn [c_state] in O. destruct (c_state (y_c y) =? StagePlay).
    { intros [->| ->]; [apply NR in O; destruct O|]. apply (must_fatal ord txt (y_w y)) in O. destruct O as (x & a & ->). eexists (_ :: a), _. split; [reflexivity|left; apply EE]. }
    destruct (c_state (y_c y) =? StagePause).
    { intros [->| ->]; [apply NR in O; destruct O|]. apply (must_fatal ord txt (y_w y)) in O. destruct O as (x & a & ->). eexists (_ :: _ :: a), _. split; [reflexivity|left; apply EE]. }
    destruct (c_state (y_c y) =? StageDone) eqn:D; injection O as <- <- <-; intros [H|H]; try discriminate.
    unfold StageDone in D. assert (X : c_state (y_c y) = 4) by lia. exists [], (bs "Timer: stage=4" ++ [10]). rewrite X. split; [reflexivity|right; split; [reflexivity|split; reflexivity]].
  - destruct (c_running (y_c y)); [|discriminate]. intros E. injection E as <-. cbn [y_fate]. intros [H|H]; discriminate.
Qed.
Lemma output_why ord txt es : forall y y', y_fate y = Goes -> yrun y es = Some y' -> y_fate y' = Returns \/ y_fate y' = Fatals ->
  exists a l, map snd (youtput ord txt y es) = a ++ [l] /\ (error_entry txt l \/ (c_state (y_c y') = 4 /\ l = bs "Timer: stage=4" ++ [10])).
Proof.
  induction es as [|e es IH]; intros y y' G R F; cbn [yrun youtput] in *; [injection R as <-; rewrite G in F; destruct F; discriminate|].
  destruct (ystep y e) as [y1|] eqn:S; [|discriminate]. rewrite map_app, map_map. cbn [snd]. rewrite map_id.
  assert (D : y_fate y1 = Goes \/ es = []).
  { destruct es as [|e2 es]; [right; reflexivity|]. left. cbn [yrun] in R. unfold ystep in R. destruct (y_fate y1); try discriminate. reflexivity. }
  destruct D as [D| ->].
  - destruct (IH y1 y' D R F) as (a & l & -> & H). exists (yprints ord txt y e ++ a), l. rewrite app_assoc. split; [reflexivity|exact H].
  - cbn [yrun youtput map] in *. injection R as <-. rewrite app_nil_r. destruct (step_why ord txt y e y1 S F) as (a & l & E & H). exists a, l. split; [exact E|].
    destruct H as [H|(-> & H1 & H2)]; [left; exact H|right; split; [|exact H2]]. apply step_state in S. rewrite S. exact H1.
Qed.
