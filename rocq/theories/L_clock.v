(* Lemmas on M_clock. *)
From Coq Require Import ZifyBool ZifyNat.
From Verif Require Import Base L_base M_conn M_clock S_clock.

Ltac wfin := first
  [ lia | exists []; now rewrite app_nil_r | discriminate
  | let E := fresh in intros E; first [congruence | discriminate | lia | (split; [reflexivity|lia]) | (split; [reflexivity|intros []])
    | now rewrite app_nil_r | (destruct E as [E|E]; discriminate) | (destruct E; discriminate) | (eexists; reflexivity) ] ].

Lemma wait_spec : forall f d net now buf now' buf' net' out, now < d -> wait f (Some d) now buf net = (now', buf', net', out) ->
  now <= now' <= d /\
  (exists got, buf' = buf ++ got) /\
  (f buf' = true -> exists v, out = TOk v) /\
  ((exists v, out = TOk v) -> f buf' = true) /\
  ((out = TTimeout \/ out = TEnd) -> buf' = buf ++ before d net) /\
  (out = TTimeout -> now' = d /\ ~ ends_before d net) /\
  (out = TEnd -> ends_before d net) /\ out <> THang.
Proof.
  intros f d net. induction net as [|a net IH]; intros now buf now' buf' net' out L H.
  - cbn [wait late before ends_before] in *. destruct (f buf) eqn:F.
    + injection H as <- <- <- <-. splits; wfin.
    + replace (d <=? now) with false in H by lia. injection H as <- <- <- <-. splits; wfin.
  - cbn [wait] in H. destruct (f buf) eqn:F.
    + injection H as <- <- <- <-. splits; wfin.
    + cbn [late] in H. replace (d <=? now) with false in H by lia. destruct a as [t l|t].
      * destruct (d <=? t) eqn:T.
        -- injection H as <- <- <- <-. cbn [before ends_before]. replace (t <? d) with false by lia. splits; wfin.
        -- apply IH in H; [|lia]. destruct H as (B & (got & G) & O & O2 & Z1 & Z2 & Z3 & Z4). cbn [before ends_before].
           replace (t <? d) with true by lia. splits; try lia; eauto.
           ++ exists (l ++ got). now rewrite G, app_assoc.
           ++ intros E. rewrite Z1 by exact E. now rewrite app_assoc.
           ++ intros E. destruct (Z2 E) as (E1 & E2). split; [exact E1|]. intros (_ & E3). exact (E2 E3).
           ++ intros E. split; [lia|exact (Z3 E)].
      * destruct (d <=? t) eqn:T; injection H as <- <- <- <-; cbn [before ends_before]; splits; wfin.
Qed.

(* nothing is missing that was there before, and what was missing came late *)
Definition grows (f : bytes -> bool) : Prop := forall a b, f a = true -> f (a ++ b) = true.

Lemma wait_prompt : forall f d net now buf now' buf' net' out, grows f -> wait f (Some d) now buf net = (now', buf', net', out) -> now < d ->
  f buf' = true -> forall m, now < m <= now' -> f (buf ++ before m net) = false.
Proof.
  intros f d net. induction net as [|a net IH]; intros now buf now' buf' net' out G H L F m M.
  - cbn [wait] in H. destruct (f buf) eqn:E; [injection H as <- <- <- <-; lia|].
    destruct (late (Some d) now); injection H as <- <- <- <-; congruence.
  - cbn [wait] in H. destruct (f buf) eqn:E; [injection H as <- <- <- <-; lia|].
    destruct (late (Some d) now); [injection H as <- <- <- <-; congruence|].
    destruct a as [t l|t].
    + cbn [before]. destruct (late (Some d) t) eqn:T; [injection H as <- <- <- <-; congruence|].
      destruct (t <? m) eqn:TM.
      * rewrite app_assoc. destruct (Z.leb_spec m (Z.max now t)) as [Hm|Hm]; [lia|].
        eapply IH; eauto; cbn [late] in T; lia.
      * rewrite app_nil_r. exact E.
    + destruct (late (Some d) t); injection H as <- <- <- <-; congruence.
Qed.

Lemma grows_enough : forall o, grows (enough o).
Proof.
  intros o a b H. destruct o; cbn [enough] in *; rewrite ?app_length; try lia.
  rewrite existsb_app, H. reflexivity.
Qed.

Lemma line_len_spec : forall buf, existsb (Z.eqb 10) buf = true ->
  exists l rest, buf = l ++ 10 :: rest /\ ~ In 10 l /\ line_len buf = S (length l).
Proof.
  induction buf as [|b r IH]; cbn [existsb line_len]; [discriminate|]. intros H. destruct (b =? 10) eqn:E.
  - exists [], r. apply Z.eqb_eq in E. subst. splits; [reflexivity|intros []|reflexivity].
  - replace (10 =? b) with false in H by lia. destruct (IH H) as (l & rest & A & B & C). exists (b :: l), rest. rewrite C. subst r.
    splits; [reflexivity| |reflexivity]. intros [D|D]; [lia|exact (B D)].
Qed.

Lemma asked_of : forall o buf, enough o buf = true -> asked o buf (firstn (gives o buf) buf).
Proof.
  intros o buf H. destruct o as [n|n| | |]; cbn [enough gives] in *.
  - rewrite <- (firstn_skipn n buf) at 1. replace n with (length (firstn n buf)) at 1 by (rewrite firstn_length; lia). apply asked_peek.
  - rewrite <- (firstn_skipn n buf) at 1. replace n with (length (firstn n buf)) at 1 by (rewrite firstn_length; lia). apply asked_bytes.
  - destruct (line_len_spec _ H) as (l & rest & A & B & C). rewrite C, A.
    replace (firstn (S (length l)) (l ++ 10 :: rest)) with (l ++ [10]). { now constructor. }
    replace (S (length l)) with (length l + 1)%nat by lia. rewrite firstn_app_2. reflexivity.
  - destruct buf; [discriminate|]. apply asked_byte.
  - destruct buf as [|a [|b r]]; try discriminate. apply asked_short.
Qed.

Lemma asked_enough : forall o x v, asked o x v -> enough o x = true.
Proof.
  intros o x v A. destruct A; cbn [enough]; rewrite ?app_length; cbn [length]; try lia.
  rewrite existsb_app. cbn [existsb]. rewrite Z.eqb_refl. now rewrite Bool.orb_true_r.
Qed.

Lemma asked_more : forall o x y v, asked o x v -> asked o (x ++ y) v.
Proof.
  intros o x y v A. destruct A; rewrite <- ?app_assoc; cbn [app]; constructor; assumption.
Qed.

Lemma line_fun : forall (l l' r r' : bytes), ~ In 10 l -> ~ In 10 l' -> l ++ 10 :: r = l' ++ 10 :: r' -> l = l'.
Proof.
  induction l as [|a l IH]; intros l' r r' A B E; destruct l' as [|b l']; cbn [app] in E.
  - reflexivity.
  - injection E as E1 E2. exfalso. apply B. left. lia.
  - injection E as E1 E2. exfalso. apply A. left. lia.
  - injection E as E1 E2. subst b. f_equal. eapply IH; [| |exact E2]; intros D; [apply A|apply B]; now right.
Qed.

Lemma asked_fun : forall o x v w, asked o x v -> asked o x w -> v = w.
Proof.
  intros o x v w A B. destruct A; inversion B; subst; try reflexivity.
  - match goal with H : ?a ++ _ = ?b ++ _, L : length ?a = length ?b |- _ => apply (f_equal (firstn (length b))) in H; rewrite !firstn_app, L, !Nat.sub_diag, !app_nil_r, firstn_all in H; rewrite <- L in H; rewrite firstn_all in H end. congruence.
  - match goal with H : ?a ++ _ = ?b ++ _, L : length ?a = length ?b |- _ => apply (f_equal (firstn (length b))) in H; rewrite !firstn_app, L, !Nat.sub_diag, !app_nil_r, firstn_all in H; rewrite <- L in H; rewrite firstn_all in H end. congruence.
  - f_equal. eapply line_fun; [| |symmetry; eassumption]; assumption.
Qed.

Lemma call_positive : forall c now o c' now' out, 0 < t_timeout c -> call c now o = (c', now', out) ->
  let d := now + t_timeout c in
  now <= now' <= d /\
  (forall v, out = TOk v <-> asked o (t_buf c ++ before d (t_net c)) v) /\
  (out = TTimeout -> now' = d /\ ~ ends_before d (t_net c)) /\
  (out = TEnd -> ends_before d (t_net c)) /\
  out <> THang /\
  (forall v m, out = TOk v -> now < m <= now' -> forall w, ~ asked o (t_buf c ++ before m (t_net c)) w).
Proof.
  intros c now o c' now' out T H d. unfold call, arm in H. replace (t_timeout c >? 0) with true in H by lia. fold d in H.
  destruct (wait (enough o) (Some d) now (t_buf c) (t_net c)) as [[[n b] nt] w] eqn:W.
  assert (L : now < d) by (subst d; lia).
  pose proof (wait_spec _ _ _ _ _ _ _ _ _ L W) as (B & (got & G) & O & O2 & Z1 & Z2 & Z3 & Z4).
  pose proof (wait_prompt _ _ _ _ _ _ _ _ _ (grows_enough o) W L) as PR.
  assert (NE : forall v, w = TTimeout \/ w = TEnd -> ~ asked o (t_buf c ++ before d (t_net c)) v).
  { intros v E A. rewrite <- Z1 in A by exact E. apply asked_enough in A. destruct (O A) as (v' & ->). destruct E; discriminate. }
  assert (PRE : forall v, w = TOk v -> exists more, t_buf c ++ before d (t_net c) = b ++ more).
  { intros v ->. clear - W L. clearbody d. revert now L W. generalize (t_buf c) as buf. induction (t_net c) as [|a net IH]; intros buf now L W.
    - cbn [wait late] in W. destruct (enough o buf); [injection W as <- <- <-; exists []; reflexivity|].
      destruct (d <=? now); discriminate.
    - cbn [wait] in W. destruct (enough o buf). { injection W as <- <- <-. eexists. reflexivity. }
      destruct (late (Some d) now); [discriminate|]. destruct a as [t l|t]; [|destruct (late (Some d) t); discriminate].
      cbn [late] in W. destruct (d <=? t) eqn:E; [discriminate|]. apply IH in W; [|lia]. destruct W as (m & W).
      exists m. cbn [before]. replace (t <? d) with true by lia. now rewrite app_assoc. }
  destruct w as [v0| | |]; injection H as <- <- <-; splits; try assumption; try discriminate; try lia.
  - intros v. destruct (PRE _ eq_refl) as (more & PE). rewrite PE. assert (F : enough o b = true) by (apply O2; eauto). split.
    + intros E. injection E as <-. apply asked_more, asked_of, F.
    + intros A. f_equal. eapply asked_fun; [|exact A]. apply asked_more, asked_of, F.
  - intros v m E M x A. apply asked_enough in A. rewrite PR in A; [discriminate|apply O2; eauto|exact M].
  - intros v. split; [discriminate|]. intros A. exfalso. eapply NE; eauto.
  - intros v. split; [discriminate|]. intros A. exfalso. eapply NE; eauto.
  - intros v. split; [discriminate|]. congruence.
Qed.

Lemma wait_none : forall f net now buf now' buf' net' out, wait f None now buf net = (now', buf', net', out) ->
  out <> TTimeout /\ (exists more, buf ++ ever net = buf' ++ more) /\ (f buf' = true <-> exists v, out = TOk v) /\
  ((out = TEnd \/ out = THang) -> buf' = buf ++ ever net).
Proof.
  intros f net. induction net as [|a net IH]; intros now buf now' buf' net' out H; cbn [wait late ever] in *;
    destruct (f buf) eqn:F.
  1,3: injection H as <- <- <- <-; splits; [discriminate|eexists; reflexivity|split; eauto|intros [|]; discriminate].
  - injection H as <- <- <- <-. splits; [discriminate|exists []; reflexivity|split; [congruence|intros (v & E); discriminate]|now rewrite app_nil_r].
  - destruct a as [t l|t].
    + apply IH in H. rewrite <- app_assoc in H. exact H.
    + injection H as <- <- <- <-. splits; [discriminate|exists []; reflexivity|split; [congruence|intros (v & E); discriminate]|now rewrite app_nil_r].
Qed.

Lemma call_never : forall c now o c' now' out, t_timeout c <= 0 -> t_deadline c = None -> call c now o = (c', now', out) ->
  t_deadline c' = None /\ t_timeout c' = t_timeout c /\ out <> TTimeout /\ (forall v, out = TOk v <-> asked o (t_buf c ++ ever (t_net c)) v).
Proof.
  intros c now o c' now' out T D H. unfold call, arm in H. replace (t_timeout c >? 0) with false in H by lia. rewrite D in H.
  destruct (wait (enough o) None now (t_buf c) (t_net c)) as [[[n b] nt] w] eqn:W.
  destruct (wait_none _ _ _ _ _ _ _ _ W) as (A & (more & M) & F & E). rewrite M.
  assert (NE : forall v, w = TEnd \/ w = THang -> ~ asked o (b ++ more) v).
  { intros v X Y. rewrite <- M, <- (E X) in Y. apply asked_enough in Y. apply F in Y. destruct Y as (v' & ->). destruct X; discriminate. }
  destruct w as [v0| | |]; injection H as <- <- <-; splits; try reflexivity; try assumption; try discriminate.
  - intros v. assert (G : enough o b = true) by (apply F; eauto). split.
    + intros X. injection X as <-. apply asked_more, asked_of, G.
    + intros X. f_equal. eapply asked_fun; [|exact X]. apply asked_more, asked_of, G.
  - congruence.
  - intros v; split; [discriminate|]. intros X. exfalso. eapply NE; eauto.
  - intros v; split; [discriminate|]. intros X. exfalso. eapply NE; eauto.
Qed.

(* the deadline of an earlier read, once passed, ends every read that needs the connection *)
Lemma call_stale : forall c now o c' now' out d, t_timeout c <= 0 -> t_deadline c = Some d -> d <= now -> call c now o = (c', now', out) ->
  t_deadline c' = Some d /\ t_timeout c' = t_timeout c /\ t_net c' = t_net c /\ now' = now /\
  (forall v, out = TOk v <-> asked o (t_buf c) v) /\ ((forall v, ~ asked o (t_buf c) v) -> out = TTimeout) /\ out <> THang /\
  (t_buf c = [] -> t_buf c' = []).
Proof.
  intros c now o c' now' out d T D L H. unfold call, arm in H. replace (t_timeout c >? 0) with false in H by lia. rewrite D in H.
  assert (W : wait (enough o) (Some d) now (t_buf c) (t_net c)
              = if enough o (t_buf c) then (now, t_buf c, t_net c, TOk []) else (now, t_buf c, t_net c, TTimeout)).
  { destruct (t_net c); cbn [wait late]; replace (d <=? now) with true by lia; reflexivity. }
  rewrite W in H. clear W. destruct (enough o (t_buf c)) eqn:F; injection H as <- <- <-; splits; try reflexivity; try discriminate.
  - intros v. split.
    + intros E. injection E as <-. now apply asked_of.
    + intros A. f_equal. eapply asked_fun; [|exact A]. now apply asked_of.
  - intros A. exfalso. eapply A. now apply asked_of.
  - cbn [t_buf]. intros ->. now destruct (takes o []).
  - intros v. split; [discriminate|]. intros A. apply asked_enough in A. congruence.
  - cbn [t_buf]. intros ->. now destruct o.
Qed.

Lemma needs_none : forall o v, needs o -> ~ asked o [] v.
Proof.
  intros o v N A. inversion A; subst; cbn [needs] in N;
  try (match goal with H : ?v ++ _ = [] |- _ => destruct v; [|discriminate H] end; cbn in N; contradiction);
  try discriminate. destruct l; discriminate.
Qed.

Lemma trun_stale : forall es c now c' now' rs d, t_timeout c <= 0 -> t_deadline c = Some d -> d <= now -> Forall unset es ->
  trun c now es = (c', now', rs) ->
  t_net c' = t_net c /\ (t_buf c = [] -> Forall needy es -> Forall (fun r => rd_out r = TTimeout /\ rd_to r = rd_from r) rs) /\
  Forall (fun r => rd_to r = rd_from r) rs.
Proof.
  induction es as [|[g e] es IH]; intros c now c' now' rs d T D L U H.
  - cbn in H. injection H as <- <- <-. splits; constructor.
  - inversion U as [|x l U1 U2]; subst. destruct U1 as (U0 & U1). cbn [fst snd] in *. destruct e as [o|t]; cbn [trun] in H.
    + destruct (call c (now + g) o) as [[c1 n1] out] eqn:C.
      destruct (call_stale c (now + g) o c1 n1 out d T D ltac:(lia) C) as (A1 & A2 & A3 & A4 & A5 & A6 & A7 & A8).
      destruct (trun c1 n1 es) as [[c2 n2] l] eqn:R.
      assert (H' : (c2, n2, mkRd (now + g) n1 out :: l) = (c', now', rs)) by (destruct out; [exact H|exact H|exact H|congruence]).
      injection H' as <- <- <-.
      destruct (IH c1 n1 c2 n2 l d) as (B1 & B2 & B3); try assumption; try lia.
      splits; [congruence| |constructor; [cbn; lia|exact B3]].
      intros E N. inversion N as [|x y N1 N2]; subst. cbn in N1. constructor; [|apply B2; auto].
      cbn [rd_out rd_to rd_from]. split; [|lia]. apply A6. intros v. rewrite E. now apply needs_none.
    + destruct (IH (mkT (t_buf c) (t_deadline c) (t_net c) t) (now + g) c' now' rs d U1 D ltac:(lia) U2 H) as (B1 & B2 & B3). splits; try assumption.
      intros E N. inversion N; subst. now apply B2.
Qed.

Lemma call_arms : forall c now o c' now' out, 0 < t_timeout c -> call c now o = (c', now', out) ->
  t_deadline c' = Some (now + t_timeout c) /\ t_timeout c' = t_timeout c.
Proof.
  intros c now o c' now' out T H. unfold call, arm in H. replace (t_timeout c >? 0) with true in H by lia.
  destruct (wait _ _ _ _ _) as [[[n b] nt] w]. destruct w; injection H as <- <- <-; split; reflexivity.
Qed.

(* the reads without a clock *)
Lemma take_ok : forall n l s, (n <= length l)%nat -> take_bytes n (map Some l ++ s) = (map Some l ++ s, Ok (firstn n l)).
Proof.
  induction n as [|n IH]; intros l s H; [reflexivity|]. destruct l as [|a l]; cbn [length] in H; [lia|].
  cbn [map app take_bytes firstn]. rewrite IH by lia. reflexivity.
Qed.
Lemma take_timeout : forall n l s, (length l < n)%nat -> take_bytes n (map Some l ++ None :: s) = (map Some l ++ s, Err ErrTimeout).
Proof.
  induction n as [|n IH]; intros l s H; [lia|]. destruct l as [|a l]; cbn [length] in H; [reflexivity|].
  cbn [map app take_bytes]. rewrite IH by lia. reflexivity.
Qed.
Lemma take_end : forall n l, (length l < n)%nat -> take_bytes n (map Some l) = (map Some l, Err ErrEOF).
Proof.
  induction n as [|n IH]; intros l H; [lia|]. destruct l as [|a l]; cbn [length] in H; [reflexivity|].
  cbn [map take_bytes]. rewrite IH by lia. reflexivity.
Qed.
Lemma line_ok : forall l s, existsb (Z.eqb 10) l = true ->
  read_line (map Some l ++ s) = (map Some (skipn (line_len l) l) ++ s, Ok (firstn (line_len l) l)).
Proof.
  induction l as [|a l IH]; intros s H; cbn [existsb] in H; [discriminate|]. cbn [map app read_line line_len].
  destruct (a =? 10) eqn:E; [reflexivity|]. replace (10 =? a) with false in H by lia. rewrite IH by exact H. reflexivity.
Qed.
Lemma line_timeout : forall l s, existsb (Z.eqb 10) l = false -> read_line (map Some l ++ None :: s) = (s, Err ErrTimeout).
Proof.
  induction l as [|a l IH]; intros s H; cbn [existsb] in H; [reflexivity|]. cbn [map app read_line].
  destruct (a =? 10) eqn:E; [exfalso; destruct (10 =? a) eqn:X; [discriminate|lia]|].
  replace (10 =? a) with false in H by lia. rewrite IH by exact H. reflexivity.
Qed.
Lemma line_end : forall l, existsb (Z.eqb 10) l = false -> read_line (map Some l) = ([], Err ErrEOF).
Proof.
  induction l as [|a l IH]; intros H; cbn [existsb] in H; [reflexivity|]. cbn [map read_line].
  destruct (a =? 10) eqn:E; [exfalso; destruct (10 =? a) eqn:X; [discriminate|lia]|].
  replace (10 =? a) with false in H by lia. rewrite IH by exact H. reflexivity.
Qed.

Definition small (o : op) : Prop := match o with OPeek n | OBytes n => (n <= Z.to_nat bufio_size)%nat | _ => True end.
Local Opaque bufio_size.
Lemma peek_small : forall n s, (n <= Z.to_nat bufio_size)%nat -> peek (Z.of_nat n) s = take_bytes n s.
Proof.
  intros n s H. unfold peek. assert (0 < bufio_size) by reflexivity. replace (Z.of_nat n >? bufio_size) with false by lia. now rewrite Nat2Z.id.
Qed.

Lemma map_firstn_skipn : forall n (l : bytes) s, (n <= length l)%nat -> skipn n (map Some l ++ s) = map Some (skipn n l) ++ s.
Proof.
  intros n l s H. rewrite skipn_app, map_length, skipn_map. replace (n - length l)%nat with 0%nat by lia. reflexivity.
Qed.

Lemma conn_ok : forall o b s, small o -> enough o b = true ->
  exists r, conn_call o (map Some b ++ s) = (map Some (skipn (takes o b) b) ++ s, r) /\ shown (TOk (firstn (gives o b) b)) r.
Proof.
  intros o b s M E. destruct o as [n|n| | |]; cbn [small enough conn_call takes gives] in *.
  - rewrite peek_small, take_ok by lia. eexists. split; [reflexivity|now left].
  - unfold read_bytes. rewrite peek_small, take_ok by lia. unfold discard. rewrite firstn_length, map_firstn_skipn by lia.
    replace (Nat.min n (length b)) with n by lia. eexists. split; [reflexivity|now left].
  - rewrite line_ok by exact E. eexists. split; [reflexivity|now left].
  - destruct b as [|a b]; [discriminate|]. eexists. split; [reflexivity|now left].
  - destruct b as [|a [|a' b]]; try discriminate. eexists. split; [reflexivity|]. right. split; [|reflexivity].
    cbn. do 2 f_equal. lia.
Qed.

Lemma conn_timeout : forall o b s, small o -> enough o b = false ->
  conn_call o (map Some b ++ None :: s) = (map Some (leaves o b) ++ s, Err ErrTimeout).
Proof.
  intros o b s M E. destruct o as [n|n| | |]; cbn [small enough conn_call leaves] in *.
  - rewrite peek_small, take_timeout by lia. reflexivity.
  - unfold read_bytes. rewrite peek_small, take_timeout by lia. reflexivity.
  - rewrite line_timeout by exact E. reflexivity.
  - destruct b as [|a b]; [reflexivity|discriminate].
  - destruct b as [|a [|a' b]]; [reflexivity|reflexivity|discriminate].
Qed.

Lemma conn_end : forall o b, small o -> enough o b = false -> conn_call o (map Some b) = (map Some (leaves o b), Err ErrEOF).
Proof.
  intros o b M E. destruct o as [n|n| | |]; cbn [small enough conn_call leaves] in *.
  - rewrite peek_small, take_end by lia. reflexivity.
  - unfold read_bytes. rewrite peek_small, take_end by lia. reflexivity.
  - rewrite line_end by exact E. reflexivity.
  - destruct b as [|a b]; [reflexivity|discriminate].
  - destruct b as [|a [|a' b]]; [reflexivity|reflexivity|discriminate].
Qed.

(* the connection has ended and all that came before the end is buffered *)
Definition over (net : list arrival) (now : Z) : Prop := match net with End t :: _ => t <= now | _ => False end.

Lemma wait_more : forall f d net now buf now' buf' net' out, now < d -> wait f (Some d) now buf net = (now', buf', net', out) ->
  buf ++ ever net = buf' ++ ever net' /\ (out = TEnd -> over net' now' /\ ever net' = []) /\
  (over net now -> buf' = buf /\ net' = net /\ now' = now /\ out <> TTimeout).
Proof.
  intros f d net. induction net as [|a net IH]; intros now buf now' buf' net' out L H; cbn [wait late] in H;
    replace (d <=? now) with false in H by lia; destruct (f buf).
  1,3: injection H as <- <- <- <-; splits; try reflexivity; try discriminate; intros _; splits; try reflexivity; discriminate.
  - injection H as <- <- <- <-. splits; try reflexivity; try discriminate. intros [].
  - destruct a as [t l|t].
    + destruct (d <=? t) eqn:E.
      * injection H as <- <- <- <-. splits; try reflexivity; try discriminate. intros [].
      * apply IH in H; [|lia]. destruct H as (A & B & _). cbn [ever]. rewrite <- app_assoc in A. splits; [exact A|exact B|intros []].
    + destruct (d <=? t) eqn:E; injection H as <- <- <- <-; splits; try reflexivity; try discriminate.
      * intros O. cbn [over] in O. lia.
      * intros _. split; [cbn [over]; lia|reflexivity].
      * intros O. cbn [over] in O. splits; [reflexivity|reflexivity|lia|discriminate].
Qed.

Lemma stream_bytes_some : forall l s, stream_bytes (map Some l ++ s) = l ++ stream_bytes s.
Proof. induction l as [|a l IH]; intros s; [reflexivity|]. cbn. f_equal. apply IH. Qed.
Lemma pauses_some : forall l s, pauses (map Some l ++ s) = pauses s.
Proof. induction l as [|a l IH]; intros s; [reflexivity|]. cbn. apply IH. Qed.

Lemma trun_stream : forall es c now c' now' rs, 0 < t_timeout c -> Forall positive es -> trun c now es = (c', now', rs) ->
  exists s, Forall2 shown (map rd_out rs) (conn_calls (map Some (t_buf c) ++ s) es) /\
    (over (t_net c) now -> s = []) /\ pauses s = timeouts rs /\ exists rest, stream_bytes s ++ rest = ever (t_net c).
Proof.
  induction es as [|[g e] es IH]; intros c now c' now' rs T P H.
  - cbn in H. injection H as <- <- <-. exists []. splits; [constructor|reflexivity|reflexivity|eexists; reflexivity].
  - inversion P as [|x l P1 P2]; subst. destruct P1 as (P0 & P1). cbn [fst snd] in *. destruct e as [o|t]; cbn [trun] in H.
    2: { destruct (IH (mkT (t_buf c) (t_deadline c) (t_net c) t) _ _ _ _ P1 P2 H) as (s & A & B & C & D). cbn [t_buf t_net] in *. exists s. splits; try assumption.
         intros O. apply B. destruct (t_net c) as [|[|t0] ?]; try exact O. cbn [over] in *. lia. }
    assert (M : small o) by (destruct o; exact P1).
    destruct (call c (now + g) o) as [[c1 n1] out] eqn:C.
    destruct (call_arms _ _ _ _ _ _ T C) as (_ & T1).
    assert (NH : out <> THang) by (destruct (call_positive _ _ _ _ _ _ T C) as (_ & _ & _ & _ & X & _); exact X).
    destruct (trun c1 n1 es) as [[c2 n2] rl] eqn:R.
    assert (H' : (c2, n2, mkRd (now + g) n1 out :: rl) = (c', now', rs)) by (destruct out; [exact H|exact H|exact H|congruence]).
    injection H' as <- <- <-. clear H.
    destruct (IH c1 n1 c2 n2 rl ltac:(lia) P2 R) as (s & A & B & PA & (rest & D)). clear IH.
    unfold call, arm in C. replace (t_timeout c >? 0) with true in C by lia. set (d := now + g + t_timeout c) in *.
    assert (L : now + g < d) by (subst d; lia).
    destruct (wait (enough o) (Some d) (now + g) (t_buf c) (t_net c)) as [[[n b] nt] w] eqn:W.
    pose proof (wait_spec _ _ _ _ _ _ _ _ _ L W) as (_ & (got & G) & O & O2 & _).
    pose proof (wait_more _ _ _ _ _ _ _ _ _ L W) as (EV & TE & OV).
    assert (OV' : over (t_net c) now -> got = [] /\ nt = t_net c /\ n = now + g /\ w <> TTimeout).
    { intros X. assert (Y : over (t_net c) (now + g)) by (destruct (t_net c) as [|[|t0] ?]; try exact X; cbn [over] in *; lia).
      destruct (OV Y) as (X1 & X2 & X3 & X4). splits; try assumption. rewrite G in X1. rewrite <- (app_nil_r (t_buf c)) in X1 at 2.
      now apply app_inv_head in X1. }
    clear OV. assert (EV' : ever (t_net c) = got ++ ever nt) by (rewrite G, <- app_assoc in EV; now apply app_inv_head in EV).
    assert (OVN : forall t, over (t_net c) t -> t <= now + g -> over (t_net c) (now + g)).
    { intros t X Y. destruct (t_net c) as [|[|t0] ?]; try exact X; cbn [over] in *; lia. }
    destruct w as [v0| | |]; injection C as <- <- <-; cbn [t_buf t_net] in *.
    + destruct (conn_ok o b s M ltac:(apply O2; eauto)) as (r & C1 & C2). exists (map Some got ++ s).
      rewrite app_assoc, <- map_app, <- G. cbn [map conn_calls rd_out]. rewrite C1.
      splits; [constructor; assumption| | |].
      * intros X. destruct (OV' X) as (-> & -> & -> & _). cbn [map app]. apply B. eapply OVN; [exact X|lia].
      * rewrite pauses_some, PA. reflexivity.
      * exists rest. rewrite stream_bytes_some, <- app_assoc, D. now symmetry.
    + assert (F : enough o b = false) by (destruct (enough o b) eqn:E; [destruct (O eq_refl); discriminate|reflexivity]).
      exists (map Some got ++ None :: s).
      rewrite app_assoc, <- map_app, <- G. cbn [map conn_calls rd_out]. rewrite (conn_timeout o b s M F).
      splits; [constructor; [reflexivity|assumption]| | |].
      * intros X. destruct (OV' X) as (_ & _ & _ & X4). congruence.
      * rewrite pauses_some. cbn. f_equal. exact PA.
      * exists rest. rewrite stream_bytes_some, <- app_assoc. change (stream_bytes (None :: s)) with (stream_bytes s). rewrite D. now symmetry.
    + assert (F : enough o b = false) by (destruct (enough o b) eqn:E; [destruct (O eq_refl); discriminate|reflexivity]).
      destruct (TE eq_refl) as (TE1 & TE2). rewrite (B TE1) in *. cbn [app] in *. rewrite app_nil_r in A.
      exists (map Some got). rewrite <- map_app, <- G. cbn [map conn_calls rd_out]. rewrite (conn_end o b M F).
      splits; [constructor; [reflexivity|assumption]| | |].
      * intros X. destruct (OV' X) as (-> & _). reflexivity.
      * rewrite <- (app_nil_r (map Some got)), pauses_some. exact PA.
      * exists []. rewrite <- (app_nil_r (map Some got)), stream_bytes_some, EV', TE2. cbn. now rewrite !app_nil_r.
    + congruence.
Qed.
