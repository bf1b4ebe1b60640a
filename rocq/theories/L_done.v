(* Lemmas for C126: what a session does after Done. *)
From Coq Require Import String.
From Verif Require Import Base GoStrings M_conn S_message M_message M_transport M_session S_session L_base L_session L_frames L_flow.
From Coq Require Import ZifyBool.

Definition done_with (w : world) : Prop := s_conn (w_s w) = true /\ s_stage (w_s w) = StageDone.

Lemma keepalive_done w t1 t2 : done_with w -> keepalive w t1 t2 = (w, Ok tt).
Proof.
  intros (C & S). unfold keepalive, with_conn. rewrite C, S.
  destruct (negb (s_proto (w_s w) =? ProtoHTTP) && negb (s_proto (w_s w) =? ProtoTCP)); reflexivity.
Qed.

Lemma turn_done w t1 t2 : done_with w -> turn w t1 t2 =
  match receive w with
  | (w, Ok _) => (w, Again) | (w, Err e) => (w, if is_timeout e then Again else Stop) | (w, Panic) | (w, Fuel) => (w, Crash)
  end.
Proof. intros D. unfold turn. rewrite keepalive_done by exact D. reflexivity. Qed.

Definition still (it : item) : Prop := match it with Resp _ _ _ _ => False | _ => True end.
Definition passed (it : item) : list effect := match it with Frame ch p => [Delivered ch p] | _ => [] end.

Lemma turn_still w t1 t2 it rest : done_with w -> item_ok it -> still it -> w_in w = item_stream it ++ rest ->
  turn w t1 t2 = (mkW (w_s w) rest (w_writes w) (w_listens w) (w_rand w) (w_log w ++ passed it), Again).
Proof.
  intros D K S E. rewrite turn_done by exact D. destruct it as [ch p| |]; [|destruct S|]; cbn [item_stream passed] in *.
  - destruct K as (B & L). rewrite (receive_frame w ch p rest ltac:(lia) E). destruct (zlen p <=? 2048) eqn:G; [reflexivity|lia].
  - unfold receive. rewrite E. cbn [app]. unfold peek. change (1 >? bufio_size) with false. change (Z.to_nat 1) with 1%nat. cbn [take_bytes]. rewrite app_nil_r. reflexivity.
Qed.

Lemma run_still items : forall w ts rest, done_with w -> Forall item_ok items -> Forall still items -> length ts = length items ->
  w_in w = flat_map item_stream items ++ rest ->
  run (w, Live) (map (fun t => Turn (fst t) (snd t)) ts) =
  (mkW (w_s w) rest (w_writes w) (w_listens w) (w_rand w) (w_log w ++ flat_map passed items), Live).
Proof.
  induction items as [|it items IH]; intros w ts rest D K S L E.
  - destruct ts; [|discriminate]. cbn [map run fold_left flat_map]. rewrite app_nil_r. cbn [flat_map app] in E. destruct w. cbn in *. subst. reflexivity.
  - destruct ts as [|[t1 t2] ts]; [discriminate|]. apply Forall_cons_iff in K as [K1 K]. apply Forall_cons_iff in S as [S1 S].
    cbn [map fst snd]. unfold run. cbn [fold_left step]. cbn [flat_map] in E. rewrite <- app_assoc in E.
    rewrite (turn_still w t1 t2 it _ D K1 S1 E).
    match goal with |- fold_left step ?l (?x, Live) = ?y => change (run (x, Live) l = y) end.
    rewrite (IH _ ts rest); [|exact D|exact K|exact S|cbn in L; lia|reflexivity].
    cbn [w_s w_in w_writes w_listens w_rand w_log flat_map]. rewrite <- app_assoc. reflexivity.
Qed.

(* with nothing outstanding: packets are passed on; anything else ends the loop *)
Definition silent (w : world) : Prop := done_with w /\ forall k, qget (s_queue (w_s w)) k = None.

Lemma receive_silent w w' o : silent w -> receive w = (w', o) ->
  w_s w' = w_s w /\
  ((w_log w' = w_log w) \/ (exists ch p, w_log w' = w_log w ++ [Delivered ch p] /\ o = Ok tt) \/
   (exists r, w_log w' = w_log w ++ [Got r] /\ o = Err ErrBadResponse)).
Proof.
  intros (D & Q) R. unfold receive in R. destruct (peek 1 (w_in w)) as [s0 [v|e| |]].
  - assert (N : match unpack_response s0 with
        | (s1, Ok r) => handle_response (upd_in w s1) r
        | (s1, Err e) => (upd_in w s1, Err e) | (s1, Panic) => (upd_in w s1, Panic) | (s1, Fuel) => (upd_in w s1, Fuel)
        end = (w', o) -> w_s w' = w_s w /\
        ((w_log w' = w_log w) \/ (exists ch p, w_log w' = w_log w ++ [Delivered ch p] /\ o = Ok tt) \/
         (exists r, w_log w' = w_log w ++ [Got r] /\ o = Err ErrBadResponse))).
    { clear R. destruct (unpack_response s0) as [s1 [r|e| |]]; intros R; try (inversion R; subst; auto; fail).
      unfold handle_response in R. cbn [note upd_in w_s] in R. rewrite Q in R. inversion R; subst. split; [reflexivity|]. right; right.
      exists r. split; reflexivity. }
    destruct v as [|b v]; [exact (N R)|]. 
    destruct (Z.eq_dec b 36) as [->|Nb].
    + destruct v as [|? ?]; [|exact (N R)]. clear N.
      destruct (read_byte (discard 1 s0)) as [s1 [ch|e| |]]; try (inversion R; subst; auto; fail).
      destruct (read_uint16 s1) as [s2 [len|e| |]]; try (inversion R; subst; auto; fail).
      destruct (read_bytes len s2) as [s3 [p|e| |]]; try (inversion R; subst; auto; fail).
      inversion R; subst. split; [reflexivity|]. right; left. exists ch, p. split; reflexivity.
    + apply N. revert R. destruct b as [|b|b]; try (intros R; exact R).
      do 6 (try (destruct b as [b|b|]; try (intros R; exact R))). exfalso; apply Nb; reflexivity.
  - inversion R; subst; auto.
  - inversion R; subst; auto.
  - inversion R; subst; auto.
Qed.

Lemma run_noloop_turns ts : forall w, Forall (fun e => exists t1 t2, e = Turn t1 t2) ts -> run (w, NoLoop) ts = (w, NoLoop) /\ run (w, Dead) ts = (w, Dead).
Proof.
  induction ts as [|e ts IH]; intros w H; [split; reflexivity|]. apply Forall_cons_iff in H as [(t1 & t2 & ->) H].
  destruct (IH w H) as (A & B). split; [exact A|exact B].
Qed.

Lemma run_silent ts : forall w w' l', silent w -> Forall (fun e => exists t1 t2, e = Turn t1 t2) ts -> run (w, Live) ts = (w', l') ->
  exists fs tail, w_log w' = w_log w ++ map (fun f => Delivered (fst f) (snd f)) fs ++ tail /\
    (tail = [] \/ exists r, tail = [Got r] /\ l' = NoLoop).
Proof.
  induction ts as [|e ts IH]; intros w w' l' Q H R.
  - inversion R; subst. exists [], []. split; [rewrite app_nil_r; reflexivity|auto].
  - apply Forall_cons_iff in H as [(t1 & t2 & ->) H]. unfold run in R. cbn [fold_left step] in R.
    rewrite turn_done in R by apply Q. destruct (receive w) as [w1 o] eqn:E. pose proof (receive_silent _ _ _ Q E) as (Es & L).
    assert (Q1 : silent w1) by (unfold silent, done_with in *; rewrite Es; exact Q).
    assert (Go : forall l, fold_left step ts (w1, l) = (w', l') -> (l = Live \/ l = NoLoop \/ l = Dead) ->
       w_log w1 = w_log w \/ (exists ch p, w_log w1 = w_log w ++ [Delivered ch p]) \/ (exists r, w_log w1 = w_log w ++ [Got r] /\ l = NoLoop) ->
       exists fs tail, w_log w' = w_log w ++ map (fun f => Delivered (fst f) (snd f)) fs ++ tail /\
         (tail = [] \/ exists r, tail = [Got r] /\ l' = NoLoop)).
    { intros l R1 Hl [X|[(ch & p & X)|(r & X & ->)]].
      - destruct Hl as [->|[->| ->]].
        + destruct (IH _ _ _ Q1 H R1) as (fs & tail & A & B). exists fs, tail. rewrite A, X. auto.
        + destruct (run_noloop_turns ts w1 H) as (A & _). unfold run in A. rewrite A in R1. inversion R1; subst. exists [], []. cbn. rewrite app_nil_r. auto.
        + destruct (run_noloop_turns ts w1 H) as (_ & A). unfold run in A. rewrite A in R1. inversion R1; subst. exists [], []. cbn. rewrite app_nil_r. auto.
      - destruct Hl as [->|[->| ->]].
        + destruct (IH _ _ _ Q1 H R1) as (fs & tail & A & B). exists ((ch, p) :: fs), tail. rewrite A, X, <- app_assoc. auto.
        + destruct (run_noloop_turns ts w1 H) as (A & _). unfold run in A. rewrite A in R1. inversion R1; subst. exists [(ch, p)], []. auto.
        + destruct (run_noloop_turns ts w1 H) as (_ & A). unfold run in A. rewrite A in R1. inversion R1; subst. exists [(ch, p)], []. auto.
      - destruct (run_noloop_turns ts w1 H) as (A & _). unfold run in A. rewrite A in R1. inversion R1; subst. exists [], [Got r]. split; [exact X|]. right. eauto. }
    destruct L as [L|[(ch & p & L & ->)|(r & L & ->)]].
    + destruct o as [u|e| |]; [|destruct (is_timeout e)| |]; apply (Go _ R); auto.
    + apply (Go _ R); eauto.
    + apply (Go _ R); eauto.
Qed.

(* what a history with this log has left behind *)
Lemma reached_done proto w es w1 : proto <> ProtoHTTP -> opened w proto -> run (w, Live) es = (w1, Live) -> last_stage (w_log w1) = 4 -> done_with w1.
Proof.
  intros P O R S. destruct (run_legal proto w es w1 Live P O R) as (c & (_ & _ & St & _) & _). cbn [fst] in St.
  destruct O as (user & uri & Es & _). destruct (run_prims es w Live w1 Live None) as (c' & PS); [rewrite Es; exact P|exact R|].
  apply prims_proto in PS. cbn [fst] in PS. destruct PS as (_ & C). split; [rewrite C, Es; reflexivity|]. rewrite <- St, observe_stage. exact S.
Qed.

Lemma reached_silent proto w es w1 : proto <> ProtoHTTP -> opened w proto -> run (w, Live) es = (w1, Live) -> last_stage (w_log w1) = 4 ->
  (forall k, ~ outstanding (w_log w1) k) -> silent w1.
Proof.
  intros P O R S N. split; [exact (reached_done proto w es w1 P O R S)|]. intros k.
  destruct (run_legal proto w es w1 Live P O R) as (c & (Q & _) & _). cbn [fst] in Q. rewrite <- Q.
  destruct (o_pending (observe (w_log w1)) k) eqn:E; [|reflexivity]. exfalso. apply (N k). apply observe_outstanding. congruence.
Qed.
