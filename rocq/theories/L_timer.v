(* The times of the command-line client. *)
From Coq Require Import String.
From Verif Require Import Base GoStrings M_conn M_message M_transport M_sdp M_session S_session M_main S_main M_timer S_steps S_timer L_base L_session L_flow L_serve L_main L_steps.
From Coq Require Import ZifyBool ZifyNat.

Definition took_when (x : clocked) (e : yevent) (t : Z) : list (Z * Z) := match e, y_stage (k_y x) with YStage, Some n => [(n, t)] | _, _ => [] end.
(* the stage the client is in was taken five seconds before the timer is due, and before its tick *)
Definition kinv (h : list (Z * Z)) (x : clocked) : Prop :=
  inv (map fst h) (k_y x) /\
  (c_running (y_c (k_y x)) = true -> exists t1, In (c_state (y_c (k_y x)), t1) h /\ k_due x = t1 + 5 * 10 ^ 9) /\
  (c_ticked (y_c (k_y x)) = true -> exists t1, In (c_state (y_c (k_y x)), t1) h /\ t1 + 5 * 10 ^ 9 <= k_now x).

Lemma inv_stage_off h y n : inv h y -> y_fate y = Goes -> y_stage y = Some n -> off (y_c y).
Proof. intros [? E|j ? ? E|j v ? ? ? E|j ? ? E|F] G S; try congruence. Qed.

Lemma cmd_news w verb c w' c' f : must (with_conn w (fun s => command w verb (s_uri s) [])) c = (w', c', f) -> c' = c /\ (verbs_asked (news w w') = [] \/ verbs_asked (news w w') = [verb]).
Proof.
  intros M. pose proof (with_conn_command w verb []) as K. cbv zeta in K. destruct (with_conn w _) as [w1 o]. cbn [fst] in K.
  assert (c' = c /\ w' = w1) as [-> ->] by (destruct o; inversion M; auto). split; [reflexivity|].
  destruct K as [K|(q & K & V)].
  - left. rewrite (news_app w w1 []); [reflexivity|]. rewrite app_nil_r. exact K.
  - right. rewrite (news_app _ _ _ K). cbn. rewrite V. reflexivity.
Qed.
Lemma own_verbs es v : Forall own es -> In v (verbs_asked es) -> waits_for v = None.
Proof.
  intros F I. unfold verbs_asked in I. apply in_flat_map in I as (e & I & V). rewrite Forall_forall in F. specialize (F e I). destruct e as [[|] r| | | | | |]; cbn in *; try contradiction. destruct V as [<-|[]]. exact F.
Qed.
Lemma news_same w w' : w_log w' = w_log w -> verbs_asked (news w w') = [].
Proof. intros E. rewrite (news_app w w' []); [reflexivity|]. rewrite app_nil_r. exact E. Qed.

Lemma kstep_inv h x e t x' : kstep x e t = Some x' -> countable (w_log (y_w (k_y x'))) -> kinv h x ->
  kinv (h ++ took_when x e t) x' /\
  (forall v n, In v (verbs_asked (news (y_w (k_y x)) (y_w (k_y x')))) -> waits_for v = Some n -> 2 <= n -> exists t1, In (n, t1) h /\ t1 + 5 * 10 ^ 9 <= t) /\
  (e = YTick -> y_fate (k_y x') = Returns -> exists t1, In (StageDone, t1) h /\ t1 + 5 * 10 ^ 9 <= t).
Proof.
  unfold kstep. destruct (t <? k_now x) eqn:N; [discriminate|]. destruct (match e with YExpire => t <? k_due x | _ => false end) eqn:D; [discriminate|].
  destruct (ystep (k_y x) e) as [y|] eqn:Y; [|discriminate]. intros E CT (I & R & T). injection E as <-. cbn [k_y k_now k_due] in *.
  assert (IH : inv (map fst (h ++ took_when x e t)) y).
  { rewrite map_app. replace (map fst (took_when x e t)) with (took_stage (k_y x) e) by (unfold took_when, took_stage; destruct e; try reflexivity; destruct (y_stage (k_y x)); reflexivity).
    eapply ystep_inv; eassumption. }
  unfold kinv. cbn [k_y k_now k_due]. unfold ystep in Y. destruct (y_fate (k_y x)) eqn:YF; try discriminate. destruct x as [y0 now due]. cbn [k_y k_now k_due] in *.
  assert (T' : c_ticked (y_c y0) = true -> exists t1, In (c_state (y_c y0), t1) h /\ t1 + 5 * 10 ^ 9 <= t) by (intros H; destruct (T H) as (t1 & A & B); exists t1; split; [exact A|lia]).
  clear T N. destruct e; cbn [took_when k_y] in *; rewrite ?app_nil_r in *.
  - destruct (y_loop y0); try discriminate. destruct (y_stage y0); try discriminate. destruct (zlen (y_data y0) <=? 20); try discriminate.
    destruct (turn (y_w y0) t1 t2) as [w en] eqn:TE. injection Y as <-. cbn [y_c y_w] in *. splits; try assumption.
    + intros v n V W L. apply turn_grows in TE as (es & TL & TF & _). rewrite (news_app _ _ _ TL) in V. rewrite (own_verbs _ _ TF V) in W. discriminate.
    + discriminate.
  - destruct (y_stage y0) as [n|] eqn:YS; try discriminate. destruct (inv_stage_off _ _ _ I YF YS) as [O1 O2]. unfold on_stage in Y. cbv zeta in Y.
    destruct (n =? StageReady) eqn:E1.
    + assert (n = 1) as -> by (unfold StageReady in E1; lia). destruct (must (play (y_w y0)) _) as [[w c] f] eqn:M. apply cmd_news in M as (-> & M). injection Y as <-. cbn [y_c y_w c_running c_ticked] in *. rewrite O1, O2 in *. splits; try assumption; try discriminate.
      intros v n V W L. destruct M as [M|M]; rewrite M in V; cbn [In] in V; [contradiction|]. destruct V as [<-|[]]. change (waits_for (bs "PLAY")) with (Some 1) in W. injection W as <-. lia.
    + fold (resets n) in Y. destruct (resets n) eqn:E2.
      * injection Y as <-. cbn [y_c y_w c_running c_ticked c_state] in *. rewrite O2 in *. splits; try assumption; try discriminate.
        -- intros _. exists t. split; [apply in_or_app; right; left; reflexivity|reflexivity].
        -- rewrite news_same by reflexivity. intros v m [].
      * injection Y as <-. cbn [y_c y_w c_running c_ticked c_state] in *. rewrite O1, O2 in *. splits; try assumption; try discriminate. rewrite news_same by reflexivity. intros v m [].
  - destruct (y_data y0) as [|[ch p] rest]; try discriminate. destruct (on_packet (y_c y0) ch p) as [c f] eqn:P. injection Y as <-. apply on_packet_step in P as (P1 & P2 & P3).
    cbn [y_c y_w] in *. rewrite P1, P2, P3. splits; try assumption; try discriminate. rewrite news_same by reflexivity. intros v m [].
  - destruct (c_ticked (y_c y0)) eqn:TK; try discriminate. specialize (T' eq_refl). cbv zeta in Y. unfold on_tick in Y. cbn [c_state] in Y. destruct T' as (t1 & T1 & T2).
    destruct (c_state (y_c y0) =? StagePlay) eqn:E1; [|destruct (c_state (y_c y0) =? StagePause) eqn:E2].
    + destruct (must (pause (y_w y0)) _) as [[w c] f] eqn:M. pose proof M as M0. apply cmd_news in M as (-> & M). injection Y as <-. cbn [y_c y_w c_running c_ticked c_state] in *. splits; try assumption; try discriminate.
      * intros v n V W L. destruct M as [M|M]; rewrite M in V; cbn [In] in V; [contradiction|]. destruct V as [<-|[]]. change (waits_for (bs "PAUSE")) with (Some 2) in W. injection W as <-. exists t1. split; [|exact T2]. replace 2 with (c_state (y_c y0)) by (unfold StagePlay in E1; lia). exact T1.
      * intros _ RF. cbn [y_fate] in RF. destruct (pause (y_w y0)) as [w1 [u|er| |]]; inversion M0; subst; discriminate.
    + destruct (must (teardown (y_w y0)) _) as [[w c] f] eqn:M. pose proof M as M0. apply cmd_news in M as (-> & M). injection Y as <-. cbn [y_c y_w c_running c_ticked c_state] in *. splits; try assumption; try discriminate.
      * intros v n V W L. destruct M as [M|M]; rewrite M in V; cbn [In] in V; [contradiction|]. destruct V as [<-|[]]. change (waits_for (bs "TEARDOWN")) with (Some 3) in W. injection W as <-. exists t1. split; [|exact T2]. replace 3 with (c_state (y_c y0)) by (unfold StagePause in E2; lia). exact T1.
      * intros _ RF. cbn [y_fate] in RF. destruct (teardown (y_w y0)) as [w1 [u|er| |]]; inversion M0; subst; discriminate.
    + destruct (c_state (y_c y0) =? StageDone) eqn:E3; injection Y as <-; cbn [y_c y_w y_fate c_running c_ticked c_state] in *; splits; try assumption; try discriminate; try (rewrite news_same by reflexivity; intros v m []).
      intros _ _. exists t1. split; [|exact T2]. replace StageDone with (c_state (y_c y0)) by lia. exact T1.
  - destruct (c_running (y_c y0)) eqn:RN; try discriminate. injection Y as <-. cbn [y_c y_w c_running c_ticked c_state] in *. destruct (R eq_refl) as (t1 & A & B). splits; try assumption; try discriminate.
    + intros _. exists t1. split; [exact A|]. lia.
    + rewrite news_same by reflexivity. intros v m [].
Qed.

Lemma kstep_ystep x e t x' : kstep x e t = Some x' -> ystep (k_y x) e = Some (k_y x').
Proof.
  unfold kstep. destruct (t <? k_now x); [discriminate|]. destruct (match e with YExpire => t <? k_due x | _ => false end); [discriminate|]. destruct (ystep (k_y x) e); [|discriminate]. intros E. injection E as <-. reflexivity.
Qed.
Lemma krun_log es : forall x x', krun x es = Some x' -> exists new, w_log (y_w (k_y x')) = w_log (y_w (k_y x)) ++ new.
Proof.
  induction es as [|[e t] es IH]; intros x x' H; cbn [krun] in H; [injection H as <-; exists []; rewrite app_nil_r; reflexivity|].
  destruct (kstep x e t) as [x1|] eqn:E; [|discriminate]. apply kstep_ystep, ystep_log in E as (n1 & E). apply IH in H as (n2 & H). exists (n1 ++ n2). rewrite H, E, app_assoc. reflexivity.
Qed.
Lemma krun_inv es : forall h x x', krun x es = Some x' -> countable (w_log (y_w (k_y x'))) -> kinv h x ->
  kinv (h ++ taken_when x es) x' /\
  forall v t n, In (v, t) (asked_when x es) -> waits_for v = Some n -> 2 <= n -> exists t1, In (n, t1) (h ++ taken_when x es) /\ t1 + 5 * 10 ^ 9 <= t.
Proof.
  induction es as [|[e t] es IH]; intros h x x' H C K; cbn [krun taken_when asked_when] in *; [injection H as <-; rewrite app_nil_r; split; [exact K|intros v t n []]|].
  destruct (kstep x e t) as [x1|] eqn:E; [|discriminate]. fold (took_when x e t).
  assert (C1 : countable (w_log (y_w (k_y x1)))).
  { apply krun_log in H as (new & L). rewrite L in C. unfold countable in *. rewrite Forall_app in C. apply C. }
  destruct (kstep_inv h x e t x1 E C1 K) as (K1 & A & _). destruct (IH _ _ _ H C K1) as (K2 & B). rewrite app_assoc. split; [exact K2|].
  intros v t' n I W L. apply in_app_or in I as [I|I]; [|exact (B v t' n I W L)].
  apply in_map_iff in I as (v0 & I & V). injection I as -> ->. destruct (A v n V W L) as (t1 & T1 & T2). exists t1. split; [|exact T2]. rewrite <- app_assoc. apply in_or_app. left. exact T1.
Qed.
Lemma klaunch_inv w t : opened w ProtoTCP -> kinv [] (klaunch w t).
Proof.
  intros O. split; [exact (launch_inv w O)|]. unfold klaunch, launch. cbn [k_y k_now k_due]. destruct (options w) as [w' r]. cbn [y_c client0 c_running c_ticked]. split; discriminate.
Qed.
Lemma krun_split es : forall x x' e t, krun x (es ++ [(e, t)]) = Some x' -> exists x1, krun x es = Some x1 /\ kstep x1 e t = Some x'.
Proof.
  induction es as [|[e0 t0] es IH]; intros x x' e t H; cbn [krun app] in *.
  - exists x. split; [reflexivity|]. destruct (kstep x e t); [exact H|discriminate].
  - destruct (kstep x e0 t0); [|discriminate]. apply IH. exact H.
Qed.
Lemma taken_when_split es : forall x x1 e t x', krun x es = Some x1 -> kstep x1 e t = Some x' -> taken_when x (es ++ [(e, t)]) = taken_when x es ++ took_when x1 e t.
Proof.
  induction es as [|[e0 t0] es IH]; intros x x1 e t x' H K; cbn [krun app taken_when] in *.
  - injection H as ->. rewrite K. apply app_nil_r.
  - destruct (kstep x e0 t0) as [x2|]; [|discriminate]. rewrite (IH _ _ _ _ _ H K), app_assoc. reflexivity.
Qed.
