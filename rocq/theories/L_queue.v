(* Lemmas: the requests a session keeps. *)
From Coq Require Import String.
From Verif Require Import Base GoStrings M_conn M_message M_transport M_session S_session S_handshake S_queue L_base L_session L_flow.
From Coq Require Import ZifyBool ZifyNat.

Lemma qget_nil q : (forall k, qget q k = None) -> q = [].
Proof. destruct q as [|[k r] q]; intros H; [reflexivity|]. specialize (H k). cbn [qget fst snd] in H. rewrite Z.eqb_refl in H. discriminate. Qed.

Lemma kept_outstanding proto w es w' l' k : proto <> ProtoHTTP -> opened w proto -> M_session.run (w, Live) es = (w', l') ->
  ((exists rq, qget (s_queue (w_s w')) k = Some rq) <-> outstanding (w_log w') k).
Proof.
  intros P O E. destruct (run_legal _ _ _ _ _ P O E) as (c & (A & _) & _). cbn [fst] in A. rewrite <- observe_outstanding, A.
  split; [intros [rq ->]; discriminate|]. destruct (qget (s_queue (w_s w')) k) as [rq|]; [exists rq; reflexivity|contradiction].
Qed.

Lemma quiet_turn w t1 t2 rest : s_conn (w_s w) = true -> s_proto (w_s w) <> ProtoHTTP -> s_proto (w_s w) <> ProtoTCP -> 1 <= s_stage (w_s w) <= 3 ->
  match s_last (w_s w) with None => True | Some l => 2000000000 <= t1 - l end -> w_in w = None :: rest ->
  exists rq w', turn w t1 t2 = (w', Again) /\ s_conn (w_s w') = true /\ s_proto (w_s w') = s_proto (w_s w) /\ s_stage (w_s w') = s_stage (w_s w) /\ s_last (w_s w') = Some t2 /\ w_in w' = rest /\
    s_cseq (w_s w') = i64 (s_cseq (w_s w) + 1) /\ q_verb rq = bs "OPTIONS" /\ s_session (w_s w') = s_session (w_s w) /\
    (forall k, qget (s_queue (w_s w')) k = if k =? i64 (s_cseq (w_s w) + 1) then Some rq else qget (s_queue (w_s w)) k).
Proof.
  intros C P T S L I. pose proof (keepalive_exact w t1 t2 C P) as K.
  assert (B : negb (s_proto (w_s w) =? ProtoTCP) && (1 <=? s_stage (w_s w)) && (s_stage (w_s w) <=? 3) && match s_last (w_s w) with None => true | Some l => 2000000000 <=? t1 - l end = true).
  { destruct (s_last (w_s w)); lia. }
  rewrite B in K. set (w0 := note (upd_s w (fun s => set_last s (Some t2))) (Alive t1 t2)) in *.
  destruct (command_exact w0 (bs "OPTIONS") (s_uri (w_s w)) [(bs "Session", s_session (w_s w))] C P) as (rq & w1 & o & E & LG & V & U & H & Q1 & Q2 & Q3 & Q4 & Q5 & Q6 & Q7 & Q8 & Q9 & Q10 & Q11 & Q12 & Q13 & Q14 & Q15 & Q16 & Q17).
  rewrite E in K. change (s_cseq (w_s w0)) with (s_cseq (w_s w)) in Q1. change (s_queue (w_s w0)) with (s_queue (w_s w)) in Q3. change (w_in w0) with (w_in w) in Q14.
  exists rq, (upd_in w1 rest).
  assert (R : receive w1 = (upd_in w1 rest, Err ErrTimeout)).
  { unfold receive. rewrite Q14, I. reflexivity. }
  assert (ST : s_stage (w_s w1) = s_stage (w_s w)) by exact Q10.
  assert (TU : turn w t1 t2 = (upd_in w1 rest, Again)).
  { unfold turn. rewrite K. assert (O : o = Ok tt \/ exists e, o = Err e) by (rewrite Q12; destruct (w_writes w0) as [|[e|] ?]; eauto).
    destruct O as [->|[e ->]].
    - rewrite R. reflexivity.
    - replace (s_stage (w_s w1) =? StageDone) with false by (unfold StageDone; lia). rewrite R. reflexivity. }
  cbn [upd_in w_s w_in]. splits; try assumption; try reflexivity; try (rewrite ?Q7; exact C); try congruence.
  intros k. rewrite Q3, Q1. reflexivity.
Qed.

Lemma pile clocks : forall w rest, s_conn (w_s w) = true -> s_proto (w_s w) <> ProtoHTTP -> s_proto (w_s w) <> ProtoTCP -> 1 <= s_stage (w_s w) <= 3 ->
  spaced (s_last (w_s w)) clocks -> w_in w = repeat None (length clocks) ++ rest -> 0 <= s_cseq (w_s w) -> s_cseq (w_s w) + zlen clocks < 2 ^ 63 ->
  exists w', M_session.run (w, Live) (turns_at clocks) = (w', Live) /\ w_in w' = rest /\
    (forall k rq, k <= s_cseq (w_s w) -> qget (s_queue (w_s w)) k = Some rq -> qget (s_queue (w_s w')) k = Some rq) /\
    (forall k, s_cseq (w_s w) < k <= s_cseq (w_s w) + zlen clocks -> exists rq, qget (s_queue (w_s w')) k = Some rq /\ q_verb rq = bs "OPTIONS").
Proof.
  induction clocks as [|[t1 t2] clocks IH]; intros w rest C P T S L I N B.
  - exists w. splits; [reflexivity|exact I|auto|]. intros k K. change (zlen (@nil (Z * Z))) with 0 in K. lia.
  - destruct L as [L1 L]. rewrite zlen_cons in B |- *. assert (Nn : 0 <= zlen clocks) by (unfold zlen; lia). cbn [length repeat app] in I.
    destruct (quiet_turn w t1 t2 _ C P T S L1 I) as (rq & w1 & TU & C1 & P1 & S1 & L2 & I1 & N1 & V & _ & Q).
    assert (E : i64 (s_cseq (w_s w) + 1) = s_cseq (w_s w) + 1) by (apply i64_small; lia). rewrite E in N1, Q.
    destruct (IH w1 rest C1 ltac:(congruence) ltac:(congruence) ltac:(lia) ltac:(rewrite L2; exact L) I1 ltac:(lia) ltac:(lia)) as (w' & R & I2 & O1 & O2).
    exists w'. splits.
    + cbn [turns_at map M_session.run fold_left fst snd step]. rewrite TU. exact R.
    + exact I2.
    + intros k r K G. apply O1; [lia|]. rewrite Q. destruct (k =? s_cseq (w_s w) + 1) eqn:X; [lia|exact G].
    + intros k K. destruct (Z.eq_dec k (s_cseq (w_s w) + 1)) as [->|D].
      * exists rq. split; [|exact V]. apply O1; [lia|]. rewrite Q, Z.eqb_refl. reflexivity.
      * apply O2. lia.
Qed.
