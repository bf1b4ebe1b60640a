(* Lemmas: video carried from a server to the client's sink. *)
From Verif Require Import Base GoStrings S_rtp M_rtp S_annexb M_annexb S_nal M_nal M_conn M_message M_transport M_session S_session M_main S_main S_handshake S_media
  L_base L_annexb L_rtp L_nal L_session L_frames L_main L_handshake P_nal.
From Coq Require Import ZifyBool ZifyNat.

(* ---- one packet ---- *)
Definition with_sink (c : client) (s : sink) : client := mkC (c_state c) s (c_running c) (c_ticked c).
Lemma media_packet c ch h pl : rtp_legal h -> ch mod 2 = 0 ->
  on_packet c ch (rtp_layout h pl) =
  (with_sink c (fst (push (c_sink c) pl (h_time h))), match snd (push (c_sink c) pl (h_time h)) with Ok _ => Goes | Err _ => Returns | _ => Crashes end).
Proof.
  intros L O. unfold on_packet. rewrite O. change (0 =? 0) with true. cbv iota. rewrite rtp_unpack_layout by exact L. cbn [rtp_of rtp_pl rtp_ts].
  destruct (push (c_sink c) pl (h_time h)) as [s [?|?| |]]; reflexivity.
Qed.
Lemma control_packet c k p : bytes_ok p -> k mod 2 = 1 -> ~ control_crash p -> ~ control_leave p -> on_packet c k p = (c, Goes).
Proof. intros B O N1 N2. destruct (control_cases c k p B O) as [[X _]|[[X _]|(_ & _ & X)]]; [contradiction|contradiction|exact X]. Qed.

(* ---- the pushes behind the packets ---- *)
Inductive pushed : sink -> list (Z * bytes) -> list nal_unit -> sink -> Prop :=
| pd_end s : pushed s [] [] s
| pd_cons s ts p s1 l us s2 : push s p ts = (s1, Ok tt) -> pushed s1 l us s2 -> pushed s ((ts, p) :: l) (s_units s1 ++ us) s2.
Lemma pd_eq s ts p s1 l us s2 us0 : push s p ts = (s1, Ok tt) -> pushed s1 l us s2 -> us0 = s_units s1 ++ us -> pushed s ((ts, p) :: l) us0 s2.
Proof. intros E P ->. econstructor; eauto. Qed.
Lemma pushed_app s l us s1 : pushed s l us s1 -> forall l2 us2 s2, pushed s1 l2 us2 s2 -> pushed s (l ++ l2) (us ++ us2) s2.
Proof. induction 1 as [|s ts p s1 l us s2 E P IH]; intros l2 us2 s3 Q; cbn [app]; [exact Q|]. rewrite <- app_assoc. econstructor; eauto. Qed.
Lemma shown_pushed ch : ch mod 2 = 0 -> forall l fs, sent_as ch l fs -> forall c us s, pushed (c_sink c) l us s ->
  exists c', shown c fs = (us, c', Goes) /\ c_sink c' = s.
Proof.
  intros O. induction 1 as [|k p l fs K B N1 N2 S IH|h pl l fs L P S IH]; intros c us s Q.
  - inversion Q; subst. exists c. split; reflexivity.
  - cbn [shown]. rewrite control_packet by assumption. destruct (IH c us s Q) as (c' & E & C). rewrite E. replace (k mod 2 =? 0) with false by lia. exists c'. split; [reflexivity|exact C].
  - inversion Q as [|s0 ts p s1 l0 us0 s2 E Q1]; subst. cbn [shown]. rewrite media_packet, E by assumption. cbn [fst snd]. rewrite O. change (0 =? 0) with true. cbv iota.
    destruct (IH (with_sink c s1) us0 s Q1) as (c' & E' & C). rewrite E'. exists c'. split; [reflexivity|exact C].
Qed.

(* ---- fragments ---- *)
Lemma pushed_tail h ts : forall cs s, byte_ok h -> nal_type h <> 0 -> cs <> [] -> Forall (fun c => ~ contains [0; 0; 1] c) cs ->
  exists s', pushed s (stamped ts (fu_tail (fu_a h) cs)) [mkUnit (no_f h) (s_don s) ts (frag_data s ++ flat_map ebsp_to_raw cs)] s' /\ s_don s' = s_don s /\
    frag_data s' = frag_data s ++ flat_map ebsp_to_raw cs.
Proof.
  induction cs as [|c cs IH]; intros s H N NE F; [congruence|]. apply Forall_cons_iff in F as [Fc F]. destruct cs as [|c2 cs].
  - cbn [fu_tail stamped map flat_map]. rewrite app_nil_r. pose proof (push_fua s h false true c ts H N Fc) as E. rewrite (add_last _ _ h) in E by auto.
    match type of E with _ = (?s1, _) => exists s1 end. splits; [|reflexivity|].
    + eapply pd_eq; [exact E|constructor|reflexivity].
    + unfold frag_data. cbn [s_frags fresh]. rewrite flat_map_app. cbn [flat_map f_unit u_data]. rewrite app_nil_r. reflexivity.
  - change (fu_tail (fu_a h) (c :: c2 :: cs)) with (fu_a h false false c :: fu_tail (fu_a h) (c2 :: cs)). cbn [stamped map].
    pose proof (push_fua s h false false c ts H N Fc) as E. rewrite (add_mid _ _ h) in E by auto.
    match type of E with _ = (?s1, _) => destruct (IH s1 H N ltac:(discriminate) F) as (s' & P & D & G); exists s' end.
    assert (X : forall d, frag_data (mkSink (s_units (fresh s)) (s_frags (fresh s) ++ [mkFrag (mkUnit (no_f h) (s_don s) ts (ebsp_to_raw c)) (fu_header false false h)]) d) = frag_data s ++ ebsp_to_raw c).
    { intros d. unfold frag_data. cbn [s_frags fresh]. rewrite flat_map_app. cbn [flat_map f_unit u_data]. rewrite app_nil_r. reflexivity. }
    rewrite X, <- app_assoc in P, G. cbn [s_don fresh] in *. splits; [|exact D|exact G].
    eapply pd_eq; [exact E|exact P|reflexivity].
Qed.
Lemma pushed_first h ts c s : byte_ok h -> nal_type h <> 0 -> ~ contains [0; 0; 1] c ->
  exists s', push s (fu_a h true false c) ts = (s', Ok tt) /\ s_units s' = [] /\ s_don s' = s_don s /\ frag_data s' = ebsp_to_raw c.
Proof.
  intros H N Fc. pose proof (push_fua s h true false c ts H N Fc) as E. rewrite (add_first _ _ h) in E by auto. eexists. splits; [exact E|reflexivity|reflexivity|].
  unfold frag_data. cbn [s_frags flat_map f_unit u_data]. rewrite app_nil_r. reflexivity.
Qed.
Lemma pushed_mid h ts c s : byte_ok h -> nal_type h <> 0 -> ~ contains [0; 0; 1] c ->
  exists s', push s (fu_a h false false c) ts = (s', Ok tt) /\ s_units s' = [] /\ s_don s' = s_don s /\ frag_data s' = frag_data s ++ ebsp_to_raw c.
Proof.
  intros H N Fc. pose proof (push_fua s h false false c ts H N Fc) as E. rewrite (add_mid _ _ h) in E by auto. eexists. splits; [exact E|reflexivity|reflexivity|].
  unfold frag_data. cbn [s_frags fresh]. rewrite flat_map_app. cbn [flat_map f_unit u_data]. rewrite app_nil_r. reflexivity.
Qed.
Lemma no_f_id h : 0 <= h < 128 -> no_f h = h.
Proof. intros H. unfold no_f, nal_nri, nal_type. rewrite (Z.mod_small (h / 32)) by (split; [apply Z.div_pos; lia|apply Z.div_lt_upper_bound; lia]). pose proof (Z.div_mod h 32 ltac:(lia)). lia. Qed.
Lemma raw_encapsulate d : bytes_ok d -> rbsp_legal d -> ebsp_to_raw (encapsulate d) = d.
Proof.
  intros B L. pose proof (raw_enc_body [3] (or_intror eq_refl) d 0 B ltac:(lia)) as R. cbn [repeat app] in R. unfold encapsulate. rewrite R.
  unfold rbsp_legal in L. rewrite <- Nat.negb_odd in L. destruct (Nat.odd (trail_zeros d)); [discriminate|]. rewrite andb_false_r, app_nil_r. reflexivity.
Qed.

(* ---- one sending ---- *)
Lemma pushed_sending s ts x : sending_ok x -> don_ok s ->
  exists s', pushed s (stamped ts (payloads x)) (units_of (s_don s) ts x) s' /\ s_don s' = (s_don s + counts x) mod 2 ^ 16 /\
    (forall h d c cs, x = Pieces h d c cs -> frag_data s' = d).
Proof.
  intros K D. destruct x as [h d|h d c cs|h us]; cbn [sending_ok payloads units_of counts] in *.
  - destruct K as (Hh & Hd & L & T). pose proof (C15_single s h d ts D Hh Hd L ltac:(lia)) as E. match type of E with _ = (?s1, _) => exists s1 end. splits; [|reflexivity|discriminate].
    cbn [stamped map]. eapply pd_eq; [exact E|constructor|reflexivity].
  - destruct K as (Hh & Hd & L & T & C & NE & O). assert (Hh' : byte_ok h) by (unfold byte_ok; lia).
    assert (NS : Forall (fun c => ~ contains [0; 0; 1] c) (c :: cs)).
    { apply Forall_forall. intros y Hy X. apply (proj1 (encapsulate_props d Hd)). rewrite <- C. apply (contains_concat _ y); assumption. }
    apply Forall_cons_iff in NS as [Nc NS]. unfold fu_packets. cbn [stamped map].
    destruct (pushed_first h ts c s Hh' ltac:(lia) Nc) as (s1 & E1 & U1 & D1 & F1).
    destruct (pushed_tail h ts cs s1 Hh' ltac:(lia) NE NS) as (s2 & P2 & D2 & F2).
    rewrite F1 in F2, P2. pose proof (raw_cuts (c :: cs) [] O) as R. cbn [app ebsp_to_raw] in R. rewrite C, raw_encapsulate in R by assumption. cbn [flat_map] in R.
    rewrite <- R in F2, P2. rewrite no_f_id, D1 in P2 by exact Hh. exists s2. splits.
    + eapply pd_eq; [exact E1|exact P2|]. rewrite U1. reflexivity.
    + rewrite D2, D1, Z.add_0_r, Z.mod_small by exact D. reflexivity.
    + intros h' d' c' cs' X. injection X as <- <- <- <-. exact F2.
  - destruct K as (Hh & T & F). pose proof (C16_stap_a_units_partial s h us ts D Hh T F) as E. match type of E with _ = (?s1, _) => exists s1 end. splits; [|reflexivity|discriminate].
    cbn [stamped map]. eapply pd_eq; [exact E|constructor|]. rewrite app_nil_r. reflexivity.
Qed.
Lemma pushed_all l : forall s, Forall (fun e => sending_ok (snd e)) l -> don_ok s -> exists s', pushed s (all_payloads l) (all_units (s_don s) l) s' /\ don_ok s'.
Proof.
  induction l as [|[ts x] l IH]; intros s F D; [exists s; split; [constructor|exact D]|]. apply Forall_cons_iff in F as [Fx F]. cbn [snd] in Fx.
  destruct (pushed_sending s ts x Fx D) as (s1 & P1 & D1 & _).
  destruct (IH s1 F) as (s2 & P2 & D2); [unfold don_ok; rewrite D1; apply Z.mod_pos_bound; lia|]. rewrite D1 in P2.
  exists s2. split; [|exact D2]. cbn [all_payloads flat_map fst snd all_units]. eapply pushed_app; eauto.
Qed.
Lemma sent_as_split ch a b fs : sent_as ch (a ++ b) fs -> exists f1 f2, fs = f1 ++ f2 /\ sent_as ch a f1 /\ sent_as ch b f2.
Proof.
  remember (a ++ b) as l eqn:E. intros S. revert a E. induction S as [|k p l fs K B N1 N2 S IH|h pl l fs L P S IH]; intros a E.
  - destruct a; [|discriminate]. cbn in E. subst b. exists [], []. splits; constructor.
  - destruct (IH a E) as (f1 & f2 & -> & A & C). exists ((k, p) :: f1), f2. splits; [reflexivity|constructor; assumption|exact C].
  - destruct a as [|x a]; cbn in E.
    + subst b. exists [], ((ch, rtp_layout h pl) :: fs). splits; [reflexivity|constructor|constructor; assumption].
    + injection E as <- E. destruct (IH a E) as (f1 & f2 & -> & A & C). exists ((ch, rtp_layout h pl) :: f1), f2. splits; [reflexivity|constructor; assumption|exact C].
Qed.

(* ---- the whole program ---- *)
Lemma on_packet_sink c c' ch p : c_sink c = c_sink c' -> snd (on_packet c ch p) = snd (on_packet c' ch p) /\ c_sink (fst (on_packet c ch p)) = c_sink (fst (on_packet c' ch p)).
Proof.
  intros E. unfold on_packet. rewrite <- E. destruct (ch mod 2 =? 0).
  - destruct (rtp_unpack p) as [q|?| |]; try (split; [reflexivity|exact E]). destruct (push (c_sink c) (rtp_pl q) (rtp_ts q)) as [s [?|?| |]]; split; reflexivity.
  - destruct (rtcp_unpack p); split; try reflexivity; exact E.
Qed.
Lemma shown_sink ps : forall c c', c_sink c = c_sink c' ->
  fst (fst (shown c ps)) = fst (fst (shown c' ps)) /\ snd (shown c ps) = snd (shown c' ps) /\ c_sink (snd (fst (shown c ps))) = c_sink (snd (fst (shown c' ps))).
Proof.
  induction ps as [|[ch p] ps IH]; intros c c' E; cbn [shown]; [splits; [reflexivity|reflexivity|exact E]|].
  destruct (on_packet_sink c c' ch p E) as [F S]. destruct (on_packet c ch p) as [c1 f1], (on_packet c' ch p) as [c2 f2]. cbn [fst snd] in *. subst f2.
  destruct f1; try (splits; [reflexivity|reflexivity|exact S]). destruct (IH c1 c2 S) as (A & B & D).
  destruct (shown c1 ps) as [[u1 k1] g1], (shown c2 ps) as [[u2 k2] g2]. cbn [fst snd] in *. subst u2 g2. rewrite S. auto.
Qed.
Lemma must_sink r c w' c' f : must r c = (w', c', f) -> c' = c.
Proof. destruct r as [w [u|e| |]]; cbn; congruence. Qed.
Lemma packets_incoming log : packets (incoming log) = packets log.
Proof. induction log as [|e log IH]; [reflexivity|]. unfold packets, incoming in *. destruct e; cbn; rewrite IH; reflexivity. Qed.
Lemma packets_heard items effs : heard_all items effs -> packets effs = frames items.
Proof.
  induction 1 as [|i is e es H A IH]; [reflexivity|]. rewrite packets_app, IH. change (i :: is) with ([i] ++ is). rewrite frames_app. f_equal.
  destruct i; cbn [heard] in H; [subst e; reflexivity|destruct H as (r & -> & _); reflexivity|subst e; reflexivity].
Qed.
(* what one step does to the session, to what is under way and to the sink *)
Lemma ystep_parts y e y' : ystep y e = Some y' ->
  y_fate y = Goes /\
  match e with
  | YTurn t1 t2 => y_loop y = Live /\ (exists en, turn (y_w y) t1 t2 = (y_w y', en) /\ (y_loop y' = Live -> en = Again)) /\
                   y_data y' = y_data y ++ packets (news (y_w y) (y_w y')) /\ c_sink (y_c y') = c_sink (y_c y)
  | YPacket => exists ch p rest, y_data y = (ch, p) :: rest /\ y_data y' = rest /\ y_w y' = y_w y /\ y_loop y' = y_loop y /\ on_packet (y_c y) ch p = (y_c y', y_fate y')
  | _ => acts (y_w y) (y_w y') /\ y_loop y' = y_loop y /\ y_data y' = y_data y /\ c_sink (y_c y') = c_sink (y_c y)
  end.
Proof.
  unfold ystep. destruct (y_fate y) eqn:YF; try discriminate. intros H. split; [reflexivity|].
  assert (K : forall cm c w c1 f, must (do_cmd (y_w y) cm) c = (w, c1, f) -> acts (y_w y) w /\ c1 = c).
  { intros cm c w c1 f M. split; [|eapply must_sink; eauto]. apply must_fate in M as [M _]. destruct (do_cmd (y_w y) cm) as [w1 o] eqn:E. cbn in M. subst w1. eapply do_cmd_acts; eauto. }
  destruct e.
  - destruct (y_loop y) eqn:YL; try discriminate. destruct (y_stage y); try discriminate. destruct (zlen (y_data y) <=? 20); try discriminate.
    destruct (turn (y_w y) t1 t2) as [w en] eqn:T. injection H as <-. cbn. splits; [reflexivity| |reflexivity|reflexivity]. exists en. split; [reflexivity|]. destruct en; auto; discriminate.
  - destruct (y_stage y) as [n|]; try discriminate. unfold on_stage in H. destruct (n =? StageReady).
    + destruct (must (play (y_w y)) _) as [[w c] f] eqn:M. apply (K CPlay) in M as [A ->]. injection H as <-. cbn. auto.
    + cbn [c_sink c_running c_ticked] in H. destruct ((n =? StagePlay) || (n =? StagePause) || (n =? StageDone)); injection H as <-; cbn; splits; auto using acts_refl.
  - destruct (y_data y) as [|[ch p] rest]; try discriminate. destruct (on_packet (y_c y) ch p) as [c f] eqn:P. injection H as <-. exists ch, p, rest. cbn. auto.
  - destruct (c_ticked (y_c y)); try discriminate. cbv zeta in H. unfold on_tick in H. cbn [c_state] in H.
    destruct (c_state (y_c y) =? StagePlay); [|destruct (c_state (y_c y) =? StagePause)].
    + destruct (must (pause (y_w y)) _) as [[w c] f] eqn:M. apply (K CPause) in M as [A ->]. injection H as <-. cbn. auto.
    + destruct (must (teardown (y_w y)) _) as [[w c] f] eqn:M. apply (K CTeardown) in M as [A ->]. injection H as <-. cbn. auto.
    + destruct (c_state (y_c y) =? StageDone); injection H as <-; cbn; splits; auto using acts_refl.
  - cbv zeta in H. destruct (c_running (y_c y)); try discriminate. injection H as <-. cbn. splits; auto using acts_refl.
Qed.

(* packets are taken in the order in which they were delivered *)
Lemma yrun_fifo es : forall y y', yrun y es = Some y' ->
  exists taken new, length taken = ypackets es /\ packets (w_log (y_w y')) = packets (w_log (y_w y)) ++ new /\ y_data y ++ new = taken ++ y_data y' /\
    yshown y es = fst (fst (shown (y_c y) taken)) /\
    (y_fate y = Goes -> taken <> [] -> y_fate y' = Goes -> snd (shown (y_c y) taken) = Goes).
Proof.
  induction es as [|e es IH]; intros y y' R; cbn [yrun] in R.
  { injection R as <-. exists [], []. cbn. rewrite !app_nil_r. splits; auto. }
  destruct (ystep y e) as [y1|] eqn:S; [|discriminate]. destruct (ystep_parts _ _ _ S) as (YF & P). destruct (IH y1 y' R) as (taken & new & T1 & T2 & T3 & T4 & T5).
  cbn [yshown]. rewrite S.
  assert (N : forall taken2, c_sink (y_c y1) = c_sink (y_c y) -> fst (fst (shown (y_c y1) taken2)) = fst (fst (shown (y_c y) taken2)) /\ snd (shown (y_c y1) taken2) = snd (shown (y_c y) taken2)).
  { intros t2 X. destruct (shown_sink t2 _ _ X) as (A & B & _). auto. }
  assert (G : forall e0 es0, y_fate y' = Goes -> yrun y1 (e0 :: es0) = Some y' -> y_fate y1 = Goes).
  { intros e0 es0 _ X. cbn in X. unfold ystep in X. destruct (y_fate y1); [reflexivity| | |]; discriminate. }
  assert (Same : forall new1, ypackets (e :: es) = ypackets es -> packets (w_log (y_w y1)) = packets (w_log (y_w y)) ++ new1 -> y_data y1 = y_data y ++ new1 -> c_sink (y_c y1) = c_sink (y_c y) ->
    exists taken new, length taken = ypackets (e :: es) /\ packets (w_log (y_w y')) = packets (w_log (y_w y)) ++ new /\ y_data y ++ new = taken ++ y_data y' /\
    [] ++ yshown y1 es = fst (fst (shown (y_c y) taken)) /\ (y_fate y = Goes -> taken <> [] -> y_fate y' = Goes -> snd (shown (y_c y) taken) = Goes)).
  { intros new1 C L D X. destruct (N taken X) as [N1 N2]. exists taken, (new1 ++ new). splits.
    - congruence.
    - rewrite T2, L, app_assoc. reflexivity.
    - rewrite app_assoc, <- D. exact T3.
    - cbn [app]. rewrite T4. exact N1.
    - intros _ NE F. rewrite <- N2. apply T5; try assumption. destruct es as [|e0 es0]; [|eapply G; eauto]. cbn in T1. destruct taken; [congruence|discriminate]. }
  assert (Quiet : acts (y_w y) (y_w y1) -> packets (w_log (y_w y1)) = packets (w_log (y_w y)) ++ []).
  { intros (_ & nw & L & I). rewrite L, packets_app. f_equal. rewrite <- (packets_incoming nw), I. reflexivity. }
  destruct e.
  - destruct P as (_ & (en & T & _) & D & X). apply turn_grows in T as (es' & L & _). apply (Same (packets (news (y_w y) (y_w y1)))); try assumption; [reflexivity|].
    rewrite (news_app _ _ _ L), L, packets_app. reflexivity.
  - destruct P as (A & _ & D & X). apply (Same []); try assumption; [reflexivity|auto|rewrite app_nil_r; exact D].
  - destruct P as (ch & p & rest & D & D' & W & _ & O). rewrite D in *. exists ((ch, p) :: taken), new. splits.
    + cbn [length]. rewrite T1. reflexivity.
    + rewrite T2, W. reflexivity.
    + cbn [app]. rewrite <- T3, D'. reflexivity.
    + cbn [shown]. rewrite O. destruct (y_fate y1) eqn:F1.
      * rewrite T4. destruct (shown (y_c y1) taken) as [[u k] g]. reflexivity.
      * cbn [app]. destruct es as [|e0 es0]; [reflexivity|]. exfalso. cbn in R. unfold ystep in R. rewrite F1 in R. discriminate.
      * cbn [app]. destruct es as [|e0 es0]; [reflexivity|]. exfalso. cbn in R. unfold ystep in R. rewrite F1 in R. discriminate.
      * cbn [app]. destruct es as [|e0 es0]; [reflexivity|]. exfalso. cbn in R. unfold ystep in R. rewrite F1 in R. discriminate.
    + intros _ _ F. cbn [shown]. rewrite O. destruct es as [|e0 es0].
      * cbn in R. injection R as <-. rewrite F. destruct taken; [|cbn in T1; discriminate]. reflexivity.
      * rewrite (G e0 es0 F R). destruct taken as [|t0 tk]; [reflexivity|]. assert (Y := T5 (G e0 es0 F R) ltac:(discriminate) F). destruct (shown (y_c y1) (t0 :: tk)) as [[u k] g]. exact Y.
  - destruct P as (A & _ & D & X). apply (Same []); try assumption; [reflexivity|auto|rewrite app_nil_r; exact D].
  - destruct P as (A & _ & D & X). apply (Same []); try assumption; [reflexivity|auto|rewrite app_nil_r; exact D].
Qed.

(* and delivered in the order in which they were sent *)
Lemma yrun_items es : forall y y' items rest, Forall item_ok items -> (yturns es <= length items)%nat ->
  (y_loop y = Live -> w_in (y_w y) = flat_map item_stream items ++ rest) -> yrun y es = Some y' ->
  exists j, packets (w_log (y_w y')) = packets (w_log (y_w y)) ++ frames (firstn j items) /\ (y_loop y' = Live -> j = yturns es).
Proof.
  induction es as [|e es IH]; intros y y' items rest F T I R; cbn [yrun] in R.
  { injection R as <-. exists 0%nat. cbn. rewrite app_nil_r. auto. }
  destruct (ystep y e) as [y1|] eqn:S; [|discriminate]. destruct (ystep_parts _ _ _ S) as (YF & P).
  assert (NL : forall es y y', yrun y es = Some y' -> y_loop y' = Live -> y_loop y = Live).
  { clear. induction es as [|e es IH]; intros y y' R L; cbn [yrun] in R; [congruence|]. destruct (ystep y e) as [y1|] eqn:S; [|discriminate].
    specialize (IH _ _ R L). destruct (ystep_parts _ _ _ S) as (_ & P). destruct e; [exact (proj1 P)|destruct P as (_ & X & _); congruence| |destruct P as (_ & X & _); congruence..].
    destruct P as (? & ? & ? & _ & _ & _ & X & _). congruence. }
  assert (Same : yturns (e :: es) = yturns es -> acts (y_w y) (y_w y1) -> y_loop y1 = y_loop y ->
    exists j, packets (w_log (y_w y')) = packets (w_log (y_w y)) ++ frames (firstn j items) /\ (y_loop y' = Live -> j = yturns (e :: es))).
  { intros C (W & nw & L & N) Y. destruct (IH y1 y' items rest F) as (j & J1 & J2); [congruence|intros X; rewrite W; apply I; congruence|exact R|].
    exists j. split; [|intros X; rewrite C; auto]. rewrite J1, L, packets_app, <- (packets_incoming nw), N, app_nil_r. reflexivity. }
  destruct e.
  - destruct P as (Y & (en & Tu & Lv) & _). specialize (I Y). destruct items as [|it items]; [unfold yturns in T; cbn in T; lia|].
    apply Forall_cons_iff in F as [Fi F]. cbn [flat_map] in I. rewrite <- app_assoc in I.
    assert (Tt : (yturns es <= length items)%nat) by (unfold yturns in *; cbn [filter length] in T; lia).
    destruct (turn_item _ _ _ _ _ _ _ Fi I Tu) as (new & Lg & [(I1 & H)|(I1 & Fn & N)]).
    + destruct (IH y1 y' items rest F Tt (fun _ => I1) R) as (j & J1 & J2). exists (Datatypes.S j). split.
      * rewrite J1, Lg, packets_app, <- app_assoc. f_equal. cbn [firstn]. change (it :: firstn j items) with ([it] ++ firstn j items). rewrite frames_app. f_equal.
        rewrite <- packets_incoming. apply packets_heard. rewrite <- (app_nil_r (incoming new)). constructor; [exact H|constructor].
      * intros X. rewrite (J2 X). reflexivity.
    + destruct (IH y1 y' items rest F Tt) as (j & J1 & J2); [intros X; apply Lv in X; contradiction|exact R|].
      assert (Z : forall es y y', yrun y es = Some y' -> y_loop y <> Live -> packets (w_log (y_w y')) = packets (w_log (y_w y))).
      { clear. induction es as [|e es IH]; intros y y' R L; cbn [yrun] in R; [congruence|]. destruct (ystep y e) as [y1|] eqn:S; [|discriminate].
        destruct (ystep_parts _ _ _ S) as (_ & P).
        assert (K : acts (y_w y) (y_w y1) -> y_loop y1 = y_loop y -> packets (w_log (y_w y')) = packets (w_log (y_w y))).
        { intros (_ & nw & Lg & N) X. rewrite (IH _ _ R) by congruence. rewrite Lg, packets_app, <- (packets_incoming nw), N, app_nil_r. reflexivity. }
        destruct e.
        - destruct P as (X & _). contradiction.
        - destruct P as (A & X & _). auto.
        - destruct P as (? & ? & ? & _ & _ & W & X & _). rewrite (IH _ _ R) by congruence. rewrite W. reflexivity.
        - destruct P as (A & X & _). auto.
        - destruct P as (A & X & _). auto. }
      exists 0%nat. split; [|intros X; exfalso; apply N, Lv; eapply NL; eauto].
      rewrite (Z _ _ _ R) by (intros X; apply N, Lv; exact X). rewrite Lg, packets_app, <- (packets_incoming new), Fn. cbn. rewrite !app_nil_r. reflexivity.
  - destruct P as (A & Y & _). apply Same; auto.
  - destruct P as (? & ? & ? & _ & _ & W & Y & _). apply Same; auto. rewrite W. apply acts_refl.
  - destruct P as (A & Y & _). apply Same; auto.
  - destruct P as (A & Y & _). apply Same; auto.
Qed.
Lemma shown_prefix ps : forall c qs, exists u, fst (fst (shown c (ps ++ qs))) = fst (fst (shown c ps)) ++ u.
Proof.
  induction ps as [|[ch p] ps IH]; intros c qs; cbn [app shown]; [eexists; reflexivity|]. destruct (on_packet c ch p) as [c1 f]. destruct f; try (exists []; rewrite app_nil_r; reflexivity).
  destruct (IH c1 qs) as (u & E). destruct (shown c1 (ps ++ qs)) as [[u1 k1] g1], (shown c1 ps) as [[u2 k2] g2]. cbn [fst snd] in *. exists u. rewrite E, app_assoc. reflexivity.
Qed.
Lemma launch_parts w proto : opened w proto -> w_in (y_w (launch w)) = w_in w /\ packets (w_log (y_w (launch w))) = [] /\ y_data (launch w) = [] /\ y_c (launch w) = client0 /\ y_loop (launch w) = Live.
Proof.
  intros (user & uri & Es & El). unfold launch. destruct (options w) as [w' r] eqn:E. apply (do_cmd_acts w COptions) in E as (I & nw & L & N). cbn [y_w y_data y_c y_loop]. splits; auto.
  rewrite L, El, packets_app, <- (packets_incoming nw), N. reflexivity.
Qed.

(* ---- several feeds in turn ---- *)
Lemma shown_in_turn l fs : sent_in_turn l fs -> Forall (fun e => fst e mod 2 = 0) l -> forall c us s, pushed (c_sink c) (map snd l) us s ->
  exists c', shown c fs = (us, c', Goes) /\ c_sink c' = s.
Proof.
  induction 1 as [|k p l fs K B N1 N2 S IH|ch h pl l fs L P S IH]; intros Ev c us s Q.
  - inversion Q; subst. exists c. split; reflexivity.
  - cbn [shown]. rewrite control_packet by assumption. destruct (IH Ev c us s Q) as (c' & E & C). rewrite E. replace (k mod 2 =? 0) with false by lia. exists c'. split; [reflexivity|exact C].
  - apply Forall_cons_iff in Ev as [O Ev]. cbn [fst] in O. cbn [map snd] in Q. inversion Q as [|s0 ts p s1 l0 us0 s2 E Q1]; subst. cbn [shown]. rewrite media_packet, E by assumption. cbn [fst snd]. rewrite O. change (0 =? 0) with true. cbv iota.
    destruct (IH Ev (with_sink c s1) us0 s Q1) as (c' & E' & C). rewrite E'. exists c'. split; [reflexivity|exact C].
Qed.
Lemma fed_payloads l : map snd (fed l) = all_payloads (map snd l).
Proof.
  induction l as [|[k [ts x]] l IH]; [reflexivity|]. unfold fed, all_payloads in *. cbn [flat_map map fst snd]. rewrite map_app, IH, map_map. cbn [snd]. rewrite map_id. reflexivity.
Qed.
Lemma fed_even l : Forall (fun e => fst e mod 2 = 0 /\ sending_ok (snd (snd e))) l -> Forall (fun e => fst e mod 2 = 0) (fed l).
Proof.
  intros F. apply Forall_forall. intros x X. unfold fed in X. apply in_flat_map in X as (e & I & X). apply in_map_iff in X as (p & <- & _).
  cbn [fst]. rewrite Forall_forall in F. apply (F e I).
Qed.

Lemma feeds_shown : forall (proto : Z) (w : world) (items : list item) (rest : stream) (es : list yevent) (y : system) (l : list (Z * (Z * sending))),
  opened w proto -> w_in w = flat_map item_stream items ++ rest -> Forall item_ok items -> (yturns es <= length items)%nat ->
  Forall (fun e => fst e mod 2 = 0 /\ sending_ok (snd (snd e))) l -> sent_in_turn (fed l) (frames items) ->
  yrun (launch w) es = Some y ->
  (exists more, all_units 0 (map snd l) = yshown (launch w) es ++ more) /\
  (ypackets es = length (frames items) -> yshown (launch w) es = all_units 0 (map snd l)).
Proof.
  intros proto w items rest es y l O I K T F S R. destruct (launch_parts w proto O) as (LI & LP & LD & LC & LL).
  destruct (yrun_fifo es _ _ R) as (taken & new & T1 & T2 & T3 & T4 & _). destruct (yrun_items es _ _ items rest K T ltac:(intros _; rewrite LI; exact I) R) as (j & J & _).
  assert (F1 : Forall (fun e => sending_ok (snd e)) (map snd l)).
  { apply Forall_map. eapply Forall_impl; [|exact F]. intros e [_ X]. exact X. }
  destruct (pushed_all (map snd l) (c_sink client0) F1 ltac:(unfold don_ok; change (s_don (c_sink client0)) with 0; lia)) as (s' & P & _).
  rewrite <- fed_payloads in P. destruct (shown_in_turn _ _ S (fed_even l F) client0 _ _ P) as (c' & E & _). change (s_don (c_sink client0)) with 0 in E.
  rewrite LP in T2, J. rewrite T2 in J. cbn [app] in J. subst new. rewrite LD in T3. cbn [app] in T3. rewrite LC in T4. rewrite T4.
  assert (Q : frames items = taken ++ (y_data y ++ frames (skipn j items))).
  { rewrite app_assoc, <- T3. unfold frames. rewrite <- flat_map_app, firstn_skipn. reflexivity. }
  split.
  - destruct (shown_prefix taken client0 (y_data y ++ frames (skipn j items))) as (u & X). rewrite <- Q, E in X. exists u. exact X.
  - intros N. assert (Zr : y_data y ++ frames (skipn j items) = []) by (apply length_zero_iff_nil; rewrite Q, app_length in N; lia).
    rewrite Zr, app_nil_r in Q. rewrite <- Q, E. reflexivity.
Qed.
