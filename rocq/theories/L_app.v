(* Lemmas about a session and the channels to its application. *)
From Verif Require Import Base M_conn M_message M_session M_main S_session S_handshake S_main M_app L_base L_session L_frames L_main.
From Coq Require Import ZifyBool.

Lemma stages_app a b : stages (a ++ b) = stages a ++ stages b.
Proof. apply flat_map_app. Qed.
Lemma packets_app a b : packets (a ++ b) = packets a ++ packets b.
Proof. apply flat_map_app. Qed.
Lemma quiet_signals es : signals es = [] -> stages es = [] /\ packets es = [].
Proof.
  induction es as [|e es IH]; [split; reflexivity|]. unfold signals, stages, packets in *. destruct e; cbn [filter flat_map app]; try discriminate; exact IH.
Qed.
Lemma one_signal es : (length (signals es) <= 1)%nat ->
  (stages es = [] /\ packets es = []) \/ (exists n, stages es = [n] /\ packets es = []) \/ (exists p, stages es = [] /\ packets es = [p]).
Proof.
  induction es as [|e es IH]; [left; split; reflexivity|].
  assert (Q : forall e' l, (length (e' :: signals l) <= 1)%nat -> stages l = [] /\ packets l = []).
  { intros e' l L. apply quiet_signals. destruct (signals l); [reflexivity|cbn in L; lia]. }
  destruct e; try exact IH; intros L.
  - right; left. exists stage. change (signals (Notified stage :: es)) with (Notified stage :: signals es) in L. apply Q in L. destruct L as [A B].
    change (stages (Notified stage :: es)) with (stage :: stages es). change (packets (Notified stage :: es)) with (packets es). rewrite A, B. split; reflexivity.
  - right; right. exists (ch, payload). change (signals (Delivered ch payload :: es)) with (Delivered ch payload :: signals es) in L. apply Q in L. destruct L as [A B].
    change (stages (Delivered ch payload :: es)) with (stages es). change (packets (Delivered ch payload :: es)) with ((ch, payload) :: packets es). rewrite A, B. split; reflexivity.
Qed.

(* commands take nothing from the connection and signal nothing *)
Definition still (w w' : world) : Prop := w_in w' = w_in w /\ exists new, w_log w' = w_log w ++ new /\ stages new = [] /\ incoming new = [].
Lemma still_refl w : still w w.
Proof. split; [reflexivity|]. exists []. rewrite app_nil_r. splits; reflexivity. Qed.
Lemma still_trans a b c : still a b -> still b c -> still a c.
Proof.
  intros (I1 & n1 & L1 & S1 & F1) (I2 & n2 & L2 & S2 & F2). split; [congruence|]. exists (n1 ++ n2). rewrite L2, L1, app_assoc, stages_app, S1, S2.
  unfold incoming in *. rewrite filter_app, F1, F2. splits; reflexivity.
Qed.
Lemma incoming_packets es : incoming es = [] -> packets es = [].
Proof.
  induction es as [|e es IH]; [reflexivity|]. unfold incoming. destruct e; cbn [filter is_incoming]; try discriminate; intros H; exact (IH H).
Qed.
Lemma silent_still w w' : acts w w' -> grows 0 w w' -> still w w'.
Proof.
  intros (I & new & L & F) (es & L' & _ & N). assert (es = new) by (rewrite L in L'; apply app_inv_head in L'; congruence). subst es.
  split; [exact I|]. exists new. splits; try assumption. apply quiet_signals. destruct (signals new); [reflexivity|cbn in N; lia].
Qed.
Lemma command_still w verb uri hs w' o : command w verb uri hs = (w', o) -> still w w'.
Proof.
  intros E. pose proof (command_acts _ _ _ _ _ _ E) as (I & _). split; [exact I|]. apply command_log in E as [E|(r & E & _)].
  - exists []. rewrite app_nil_r. splits; [exact E|reflexivity|reflexivity].
  - exists [Sent false r]. splits; [exact E|reflexivity|reflexivity].
Qed.
Lemma with_conn_still w k w' o : (forall w' o, k (w_s w) = (w', o) -> still w w') -> with_conn w k = (w', o) -> still w w'.
Proof. unfold with_conn. intros K. destruct (s_conn (w_s w)); [apply K|]. intros E. inversion E; subst. apply still_refl. Qed.
Lemma do_cmd_still w c w' o : do_cmd w c = (w', o) -> still w w'.
Proof.
  destruct c; cbn [do_cmd]; try (apply with_conn_still; intros ? ?; apply command_still).
  - intros E. apply silent_still; [exact (do_cmd_acts w CSetup w' o E)|]. eapply setup_from_grows. exact E.
  - intros E. apply silent_still; [apply keepalive_acts in E; exact E|]. eapply keepalive_grows. exact E.
Qed.

(* a turn signals at most one thing *)
Lemma turn_signals w t1 t2 w' en : turn w t1 t2 = (w', en) -> exists new, w_log w' = w_log w ++ new /\ news w w' = new /\
  ((stages new = [] /\ packets new = []) \/ (exists n, stages new = [n] /\ packets new = []) \/ (exists p, stages new = [] /\ packets new = [p])).
Proof.
  intros E. apply turn_grows in E as (es & L & _ & N). exists es. splits; [exact L|apply news_app; exact L|]. apply one_signal. destruct en; lia.
Qed.

(* ---- what is taken and what waits is what was signalled ---- *)
Definition waiting (u : hub) : list Z := match u_stage u with Some n => [n] | None => [] end.
Definition accounted (u : hub) : Prop :=
  u_stages u ++ waiting u = stages (w_log (u_w u)) /\ u_packets u ++ u_data u = packets (w_log (u_w u)) /\ zlen (u_data u) <= 21 /\ (u_stage u <> None -> zlen (u_data u) <= 20).

Lemma ustep_accounted u e u' : ustep u e = Some u' -> accounted u -> accounted u'.
Proof.
  intros E (A & B & C & D). destruct e as [t1 t2|c| |]; cbn [ustep] in E.
  - destruct (u_loop u); try discriminate. destruct (u_stage u) eqn:ES; [discriminate|]. destruct (zlen (u_data u) <=? 20) eqn:EL; [|discriminate].
    destruct (turn (u_w u) t1 t2) as [w en] eqn:T. destruct (turn_signals _ _ _ _ _ T) as (new & L & N & X). rewrite N in E. injection E as <-.
    unfold accounted, waiting in *. cbn [u_stages u_stage u_w u_data u_packets]. rewrite ES in A. rewrite L, stages_app, packets_app. fold stages packets.
    change (stages_in new) with (stages new). change (packets_in new) with (packets new). rewrite <- A, <- B, app_nil_r.
    destruct X as [[-> ->]|[(n & -> & ->)|(q & -> & ->)]]; cbn [hd_error]; rewrite ?app_nil_r; splits; try reflexivity; try congruence; try lia.
    + rewrite app_assoc. reflexivity.
    + unfold zlen in *. rewrite app_length. cbn [length]. lia.
  - destruct (u_loop u) eqn:UL; try discriminate; destruct (do_cmd (u_w u) c) as [w o] eqn:T; apply do_cmd_still in T as (_ & new & L & S & F); apply incoming_packets in F;
      (assert (X : stages (w_log w) = stages (w_log (u_w u)) /\ packets (w_log w) = packets (w_log (u_w u))) by (rewrite L, stages_app, packets_app, S, F, !app_nil_r; split; reflexivity));
      destruct X as [X1 X2]; destruct o; injection E as <-; unfold accounted, waiting in *; cbn [u_stages u_stage u_w u_data u_packets]; rewrite X1, X2; splits; assumption.
  - destruct (u_stage u) as [n|] eqn:ES; [|discriminate]. injection E as <-. unfold accounted, waiting in *. cbn [u_stages u_stage u_w u_data u_packets].
    rewrite ES in A. rewrite app_nil_r. splits; try assumption. intros X. contradiction X. reflexivity.
  - destruct (u_data u) as [|q r] eqn:ED; [discriminate|]. injection E as <-. unfold accounted, waiting in *. cbn [u_stages u_stage u_w u_data u_packets].
    rewrite <- app_assoc. unfold zlen in *. cbn [length] in *. splits; try assumption; try lia.
Qed.
Lemma urun_accounted es : forall u u', urun u es = Some u' -> accounted u -> accounted u'.
Proof.
  induction es as [|e es IH]; intros u u' E A; cbn [urun] in E; [congruence|]. destruct (ustep u e) as [u1|] eqn:S; [|discriminate].
  eapply IH; [exact E|]. eapply ustep_accounted; eassumption.
Qed.
Lemma fresh_accounted w : w_log w = [] -> accounted (fresh_hub w).
Proof. intros E. unfold accounted, waiting, fresh_hub. cbn [u_stages u_stage u_w u_data u_packets]. rewrite E. unfold zlen; cbn [length Z.of_nat]. splits; try reflexivity; lia. Qed.

(* ---- a loop that stands still ---- *)
Definition by_stage (u u1 : hub) : Prop := still (u_w u) (u_w u1) /\ u_stage u1 = u_stage u /\ u_stages u1 = u_stages u.
Lemma stuck_stage es : forall u u' n, urun u es = Some u' -> u_stage u = Some n -> ~ In UStage es -> by_stage u u'.
Proof.
  induction es as [|e es IH]; intros u u' n E H N; cbn [urun] in E.
  - injection E as <-. unfold by_stage. splits; try reflexivity. apply still_refl.
  - destruct (ustep u e) as [u1|] eqn:S; [|discriminate].
    assert (X : by_stage u u1).
    { unfold by_stage. destruct e as [t1 t2|c| |]; cbn [ustep] in S.
      - rewrite H in S. destruct (u_loop u); discriminate.
      - destruct (u_loop u); try discriminate; destruct (do_cmd (u_w u) c) as [w o] eqn:T; apply do_cmd_still in T; destruct o; injection S as <-; cbn [u_w u_stage u_stages]; auto.
      - contradiction N. left. reflexivity.
      - destruct (u_data u) as [|q r]; [discriminate|]. injection S as <-. cbn [u_w u_stage u_stages]. splits; try reflexivity. apply still_refl. }
    destruct X as (X1 & X2 & X3). destruct (IH u1 u' n E) as (Y1 & Y2 & Y3); [congruence|intros I; apply N; right; exact I|].
    unfold by_stage. splits; [eapply still_trans; eassumption|congruence|congruence].
Qed.
Definition by_data (u u1 : hub) : Prop := still (u_w u) (u_w u1) /\ u_data u1 = u_data u /\ u_packets u1 = u_packets u /\
  (u_stages u1 ++ waiting u1 = u_stages u ++ waiting u).
Lemma stuck_data es : forall u u', urun u es = Some u' -> 20 < zlen (u_data u) -> ~ In UPacket es -> by_data u u'.
Proof.
  induction es as [|e es IH]; intros u u' E H N; cbn [urun] in E.
  - injection E as <-. unfold by_data. splits; try reflexivity. apply still_refl.
  - destruct (ustep u e) as [u1|] eqn:S; [|discriminate].
    assert (X : by_data u u1).
    { unfold by_data, waiting. destruct e as [t1 t2|c| |]; cbn [ustep] in S.
      - destruct (u_loop u); try discriminate. destruct (u_stage u); [discriminate|]. destruct (zlen (u_data u) <=? 20) eqn:EL; [lia|discriminate].
      - destruct (u_loop u); try discriminate; destruct (do_cmd (u_w u) c) as [w o] eqn:T; apply do_cmd_still in T; destruct o; injection S as <-; cbn [u_w u_stage u_stages u_data u_packets]; auto.
      - destruct (u_stage u) as [n|]; [|discriminate]. injection S as <-. cbn [u_w u_stage u_stages u_data u_packets]. rewrite app_nil_r. splits; try reflexivity. apply still_refl.
      - contradiction N. left. reflexivity. }
    destruct X as (X1 & X2 & X3 & X4). destruct (IH u1 u' E) as (Y1 & Y2 & Y3 & Y4); [congruence|intros I; apply N; right; exact I|].
    unfold by_data. splits; [eapply still_trans; eassumption|congruence|congruence|congruence].
Qed.

(* ---- frames first: without a packet taken, what comes behind 21 of them is never reached ---- *)
Lemma keepalive_still w t1 t2 w' o : keepalive w t1 t2 = (w', o) -> still w w'.
Proof. intros E. apply silent_still; [eapply keepalive_acts; exact E|eapply keepalive_grows; exact E]. Qed.
Lemma turn_frame w t1 t2 ch p rest w' x : zlen p <= 2048 -> w_in w = item_stream (Frame ch p) ++ rest -> turn w t1 t2 = (w', x) ->
  (still w w' /\ x <> Again) \/
  (w_in w' = rest /\ x = Again /\ exists new, w_log w' = w_log w ++ new /\ stages new = [] /\ packets new = [(ch, p)]).
Proof.
  intros K E T. unfold turn in T. destruct (keepalive w t1 t2) as [w1 k] eqn:KA. apply keepalive_still in KA.
  assert (R : match receive w1 with (w, Ok _) => (w, Again) | (w, Err e) => (w, if is_timeout e then Again else Stop) | (w, Panic) | (w, Fuel) => (w, Crash) end = (w', x) ->
     w_in w' = rest /\ x = Again /\ exists new, w_log w' = w_log w ++ new /\ stages new = [] /\ packets new = [(ch, p)]).
  { destruct KA as (I & n1 & L1 & S1 & F1). rewrite (receive_frame w1 ch p rest) by (try lia; rewrite I; exact E). replace (zlen p <=? 2048) with true by lia.
    intros X. inversion X; subst. splits; try reflexivity. exists (n1 ++ [Delivered ch p]). cbn [note upd_in w_log]. rewrite L1, app_assoc, stages_app, packets_app, S1, (incoming_packets _ F1). splits; reflexivity. }
  destruct k as [u|e| |].
  - right. apply R. exact T.
  - destruct (s_stage (w_s w1) =? StageDone); [|right; apply R; exact T]. inversion T; subst. left. split; [exact KA|discriminate].
  - inversion T; subst. left. split; [exact KA|discriminate].
  - inversion T; subst. left. split; [exact KA|discriminate].
Qed.

Definition frames (fs : list (Z * bytes)) : stream := flat_map (fun f => item_stream (Frame (fst f) (snd f))) fs.
Definition out_of_reach (X : stream) (u u' : hub) : Prop :=
  (exists pre, w_in (u_w u') = pre ++ X) /\ u_stage u' = None /\ u_stages u' = u_stages u /\ stages (w_log (u_w u')) = stages (w_log (u_w u)).
Lemma ended X es : forall u u', u_loop u <> Live -> u_stage u = None -> (exists pre, w_in (u_w u) = pre ++ X) -> urun u es = Some u' -> out_of_reach X u u'.
Proof.
  induction es as [|e es IH]; intros u u' L S I E; cbn [urun] in E; [injection E as <-; unfold out_of_reach; splits; try reflexivity; assumption|].
  destruct (ustep u e) as [u1|] eqn:SE; [|discriminate].
  assert (H : u_loop u1 <> Live /\ out_of_reach X u u1).
  { unfold out_of_reach. destruct e as [t1 t2|c| |]; cbn [ustep] in SE.
    - destruct (u_loop u); [congruence|discriminate|discriminate].
    - destruct (u_loop u); try discriminate; [congruence|]. destruct (do_cmd (u_w u) c) as [w o] eqn:T. apply do_cmd_still in T as (I1 & new & LG & S1 & _).
      destruct o; injection SE as <-; cbn [u_loop u_w u_stage u_stages]; (split; [discriminate|]); rewrite LG, stages_app, S1, app_nil_r, I1; splits; try assumption; reflexivity.
    - rewrite S in SE. discriminate.
    - destruct (u_data u); [discriminate|]. injection SE as <-. cbn [u_loop u_w u_stage u_stages]. splits; try assumption; reflexivity. }
  destruct H as (L1 & I1 & S1 & T1 & G1). destruct (IH u1 u' L1 S1 I1 E) as (I2 & S2 & T2 & G2). unfold out_of_reach. splits; try assumption; congruence.
Qed.
Lemma behind_frames X es : forall fs u u', Forall (fun f => zlen (snd f) <= 2048) fs ->
  w_in (u_w u) = frames fs ++ X -> 21 - zlen (u_data u) <= zlen fs -> u_stage u = None ->
  urun u es = Some u' -> ~ In UPacket es -> out_of_reach X u u'.
Proof.
  induction es as [|e es IH]; intros fs u u' K I L S E N; cbn [urun] in E.
  - injection E as <-. unfold out_of_reach. splits; try reflexivity; [|exact S]. eexists. exact I.
  - destruct (ustep u e) as [u1|] eqn:SE; [|discriminate]. assert (N' : ~ In UPacket es) by (intros A; apply N; right; exact A).
    destruct e as [t1 t2|c| |]; cbn [ustep] in SE.
    + destruct (u_loop u); try discriminate. rewrite S in SE. destruct (zlen (u_data u) <=? 20) eqn:EL; [|discriminate].
      destruct (turn (u_w u) t1 t2) as [w en] eqn:T. destruct fs as [|[ch p] fs]; [unfold zlen in *; cbn [length] in L; lia|].
      apply Forall_cons_iff in K. destruct K as [K1 K]. cbn [frames flat_map] in I. cbn [fst snd] in I, K1. rewrite <- app_assoc in I. fold (frames fs) in I.
      destruct (turn_frame _ _ _ _ _ _ _ _ K1 I T) as [[(I1 & new & LG & SK & F) EN]|(I1 & -> & new & LG & SK & PK)].
      * assert (H : u_loop u1 <> Live /\ u_stage u1 = None /\ u_w u1 = w /\ u_stages u1 = u_stages u).
        { rewrite (news_app _ _ _ LG) in SE. change (stages_in new) with (stages new) in SE. rewrite SK in SE. injection SE as <-. cbn [u_loop u_stage u_w u_stages hd_error]. splits; try reflexivity. destruct en; congruence. }
        destruct H as (H1 & H2 & H3 & H4). destruct (ended X es u1 u' H1 H2) as (R1 & R2 & R3 & R4); [rewrite H3, I1, I; eexists; rewrite app_assoc; reflexivity|exact E|].
        unfold out_of_reach. splits; try assumption; [congruence|]. rewrite R4, H3, LG, stages_app, SK, app_nil_r. reflexivity.
      * rewrite (news_app _ _ _ LG) in SE. change (stages_in new) with (stages new) in SE. change (packets_in new) with (packets new) in SE. rewrite SK, PK in SE. cbn [hd_error] in SE. injection SE as <-.
        destruct (IH fs (mkHub w Live None (u_data u ++ [(ch, p)]) (u_stages u) (u_packets u)) u' K I1) as (R1 & R2 & R3 & R4); cbn [u_data u_stage]; try assumption; try reflexivity.
        { unfold zlen in *. rewrite app_length. cbn [length] in *. lia. }
        cbn [u_w u_stages] in R3, R4. unfold out_of_reach. splits; try assumption. rewrite R4, LG, stages_app, SK, app_nil_r. reflexivity.
    + destruct (u_loop u) eqn:UL; try discriminate; destruct (do_cmd (u_w u) c) as [w o] eqn:T; apply do_cmd_still in T as (I1 & new & LG & S1 & _);
        (assert (H : w_in (u_w u1) = frames fs ++ X /\ u_data u1 = u_data u /\ u_stage u1 = None /\ u_stages u1 = u_stages u /\ u_w u1 = w)
          by (destruct o; injection SE as <-; cbn [u_w u_data u_stage u_stages]; rewrite I1; splits; assumption || reflexivity));
        destruct H as (H1 & H2 & H3 & H4 & H5);
        destruct (IH fs u1 u' K H1 ltac:(rewrite H2; exact L) H3 E N') as (R1 & R2 & R3 & R4);
        unfold out_of_reach; splits; try assumption; try congruence; rewrite R4, H5, LG, stages_app, S1, app_nil_r; reflexivity.
    + rewrite S in SE. discriminate.
    + contradiction N. left. reflexivity.
Qed.
