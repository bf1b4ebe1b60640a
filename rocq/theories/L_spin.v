(* Lemmas: a turn of the loop takes something from the connection. *)
From Coq Require Import String.
From Verif Require Import Base GoStrings M_conn M_message M_session S_session L_base L_frames.
From Coq Require Import ZifyBool ZifyNat.

(* after it the loop goes on *)
Definition onward {A} (o : res A) : Prop := match o with Ok _ | Err ErrTimeout => True | _ => False end.
Definition took {A} (s s' : stream) (o : res A) : Prop := (length s' <= length s)%nat /\ (onward o -> (length s' < length s)%nat).

Lemma take_took n : forall s s' o, take_bytes n s = (s', o) -> (length s' <= length s)%nat /\ (o = Err ErrTimeout -> (length s' < length s)%nat) /\
  (forall l, o = Ok l -> s' = s /\ length l = n).
Proof.
  induction n as [|n IH]; intros s s' o H; cbn [take_bytes] in H.
  - injection H as <- <-. splits; [lia|discriminate|]. intros l L. injection L as <-. split; reflexivity.
  - destruct s as [|[b|] r].
    + injection H as <- <-. splits; [lia|discriminate|discriminate].
    + destruct (take_bytes n r) as [r' x] eqn:E. destruct (IH _ _ _ E) as (A & B & C). destruct x as [l|e| |]; injection H as <- <-; cbn [length]; splits; try lia; try discriminate.
      intros l0 L. injection L as <-. destruct (C l eq_refl) as [-> <-]. split; reflexivity.
    + injection H as <- <-. splits; cbn [length]; try lia; discriminate.
Qed.
Lemma peek_took n s s' o : peek n s = (s', o) -> (length s' <= length s)%nat /\ (o = Err ErrTimeout -> (length s' < length s)%nat) /\
  (forall l, o = Ok l -> s' = s /\ length l = Z.to_nat n).
Proof.
  unfold peek. destruct (n >? bufio_size); [intros H; injection H as <- <-; splits; [lia|discriminate|discriminate]|]. apply take_took.
Qed.
Lemma byte_took s s' o : read_byte s = (s', o) -> took s s' o.
Proof.
  unfold read_byte, took. destruct s as [|[b|] r]; intros H; injection H as <- <-; cbn [length]; split; try lia; intros []. 
Qed.
Lemma uint16_took s s' o : read_uint16 s = (s', o) -> took s s' o.
Proof.
  unfold read_uint16. destruct (read_byte s) as [r x] eqn:E. apply byte_took in E as [A B]. destruct x as [a|e| |]; cbn [onward] in B.
  - destruct (read_byte r) as [r' y] eqn:E2. apply byte_took in E2 as [C D]. specialize (B Logic.I). intros H. destruct y; injection H as <- <-; split; lia.
  - intros H; injection H as <- <-. split; assumption.
  - intros H; injection H as <- <-. split; assumption.
  - intros H; injection H as <- <-. split; assumption.
Qed.
Lemma bytes_took n s s' o : read_bytes n s = (s', o) -> (length s' <= length s)%nat /\ (o = Err ErrTimeout -> (length s' < length s)%nat).
Proof.
  unfold read_bytes. destruct (peek n s) as [r x] eqn:E. apply peek_took in E as (A & B & C). destruct x as [l|e| |]; intros H; injection H as <- <-; split; try assumption; try discriminate.
  unfold discard. rewrite skipn_length. lia.
Qed.
Lemma line_took s : forall s' o, read_line s = (s', o) -> took s s' o.
Proof.
  induction s as [|[b|] r IH]; intros s' o H; cbn [read_line] in H.
  - injection H as <- <-. split; [lia|intros []].
  - destruct (b =? 10); [injection H as <- <-; split; cbn [length]; lia|]. destruct (read_line r) as [r' x] eqn:E. destruct (IH _ _ eq_refl) as [A B].
    destruct x; injection H as <- <-; split; cbn [length]; lia.
  - injection H as <- <-. split; cbn [length]; lia.
Qed.
Lemma lines_took f : forall h s s' o, header_lines f h s = (s', o) -> (length s' <= length s)%nat.
Proof.
  induction f as [|f IH]; intros h s s' o H; cbn [header_lines] in H; [injection H as <- <-; lia|].
  destruct (read_line s) as [r x] eqn:E. apply line_took in E as [A _]. destruct x as [l|e| |]; try (injection H as <- <-; exact A). cbv zeta in H.
  destruct (beq (trim_space l) []); [injection H as <- <-; exact A|].
  destruct (split2 58 (trim_space l)) as [|k [|v [|? ?]]]; try (injection H as <- <-; exact A). apply IH in H. lia.
Qed.
Lemma unpack_took s s' o : unpack_response s = (s', o) -> took s s' o.
Proof.
  unfold unpack_response. destruct (read_line s) as [r x] eqn:E. apply line_took in E as [A B]. destruct x as [l|e| |].
  - specialize (B Logic.I). assert (X : forall t, (length t <= length r)%nat -> took s t o) by (intros t T; split; lia).
    destruct (status_line _ l) as [[status code]|e| |]; try (intros H; injection H as <- <-; apply X; lia).
    destruct (header_lines (S (length r)) [] r) as [s2 y] eqn:E2. apply lines_took in E2. destruct y as [h|e| |]; try (intros H; injection H as <- <-; apply X; lia).
    cbv zeta. destruct (_ >? 0); [|intros H; injection H as <- <-; apply X; lia].
    destruct (read_bytes _ s2) as [s3 z] eqn:E3. apply bytes_took in E3 as [C _]. intros H. destruct z; injection H as <- <-; apply X; lia.
  - intros H; injection H as <- <-. split; assumption.
  - intros H; injection H as <- <-. split; assumption.
  - intros H; injection H as <- <-. split; assumption.
Qed.
Lemma handle_in w r w' o : handle_response w r = (w', o) -> w_in w' = w_in w.
Proof. intros H. apply handle_response_acts in H as [H _]. exact H. Qed.
Lemma receive_took w w' o : receive w = (w', o) -> took (w_in w) (w_in w') o.
Proof.
  unfold receive. destruct (peek 1 (w_in w)) as [s0 x] eqn:E. assert (N0 : w_in w = [] -> x = Err ErrEOF) by (intros W0; rewrite W0 in E; injection E as _ <-; reflexivity).
  apply peek_took in E as (A & B & C). destruct x as [l|e| |].
  - destruct (C l eq_refl) as [-> L]. change (Z.to_nat 1) with 1%nat in L. destruct l as [|c [|? ?]]; try discriminate L.
    assert (MSG : forall w' o, (match unpack_response (w_in w) with
      | (s1, Ok r) => handle_response (upd_in w s1) r | (s1, Err e) => (upd_in w s1, Err e) | (s1, Panic) => (upd_in w s1, Panic) | (s1, Fuel) => (upd_in w s1, Fuel) end) = (w', o) ->
      took (w_in w) (w_in w') o).
    { intros v p. destruct (unpack_response (w_in w)) as [s1 x] eqn:E1. apply unpack_took in E1 as [D1 D2]. destruct x as [r|e| |]; intros H.
      - apply handle_in in H. cbn [upd_in w_in] in H. rewrite H. specialize (D2 Logic.I). split; lia.
      - injection H as <- <-. split; assumption.
      - injection H as <- <-. split; assumption.
      - injection H as <- <-. split; assumption. }
    destruct (Z.eq_dec c 36) as [->|NC].
    + clear MSG. assert (D : (length (discard 1 (w_in w)) <= length (w_in w))%nat) by (unfold discard; rewrite skipn_length; lia).
      assert (N : (length (w_in w) > 0)%nat) by (destruct (w_in w); [discriminate (N0 eq_refl)|cbn; lia]).
      destruct (read_byte (discard 1 (w_in w))) as [s1 y] eqn:E1. apply byte_took in E1 as [F1 F2]. destruct y as [ch|e| |]; try (intros H; injection H as <- <-; cbn [upd_in w_in]; split; [lia|intros X; specialize (F2 X); lia]).
      specialize (F2 Logic.I). destruct (read_uint16 s1) as [s2 z] eqn:E2. apply uint16_took in E2 as [G1 G2]. destruct z as [len|e| |]; try (intros H; injection H as <- <-; cbn [upd_in w_in]; split; lia).
      destruct (read_bytes len s2) as [s3 q] eqn:E3. apply bytes_took in E3 as [H1 _]. intros H. destruct q; injection H as <- <-; cbn [note upd_in w_in]; split; lia.
    + intros H. apply MSG. destruct c as [|p|p]; try exact H.
      do 6 (destruct p as [p|p|]; try exact H). exfalso. apply NC. reflexivity.
  - intros H; injection H as <- <-. cbn [upd_in w_in]. split; [exact A|]. intros X. destruct e; try contradiction. apply B. reflexivity.
  - intros H; injection H as <- <-. cbn [upd_in w_in]. split; [exact A|]. intros [].
  - intros H; injection H as <- <-. cbn [upd_in w_in]. split; [exact A|]. intros [].
Qed.
Lemma turn_took w t1 t2 w' x : turn w t1 t2 = (w', x) -> (length (w_in w') <= length (w_in w))%nat /\ (x = Again -> (length (w_in w') < length (w_in w))%nat).
Proof.
  unfold turn. destruct (keepalive w t1 t2) as [w1 k] eqn:E. pose proof (keepalive_acts _ _ _ _ _ E) as [I _]. rewrite <- I.
  assert (R : forall w' x, (match receive w1 with (w, Ok _) => (w, Again) | (w, Err e) => (w, if is_timeout e then Again else Stop) | (w, Panic) | (w, Fuel) => (w, Crash) end) = (w', x) ->
    (length (w_in w') <= length (w_in w1))%nat /\ (x = Again -> (length (w_in w') < length (w_in w1))%nat)).
  { intros v y. destruct (receive w1) as [w2 o] eqn:E2. apply receive_took in E2 as [A B]. destruct o as [u|e| |]; intros H; injection H as <- <-; split; try assumption; try discriminate.
    - intros _. apply B. exact Logic.I.
    - intros X. apply B. destruct e; try discriminate X. exact Logic.I. }
  destruct k as [u|e| |]; try (intros H; injection H as <- <-; split; [lia|discriminate]).
  - apply R.
  - destruct (_ =? StageDone); [intros H; injection H as <- <-; split; [lia|discriminate]|apply R].
Qed.

Lemma run_live es : forall w l w', M_session.run (w, l) es = (w', Live) -> l = Live /\ (turns es + length (w_in w') <= length (w_in w))%nat.
Proof.
  induction es as [|e es IH]; intros w l w' H; [injection H as <- <-; split; [reflexivity|cbn; lia]|].
  change (M_session.run (w, l) (e :: es)) with (M_session.run (step (w, l) e) es) in H. destruct (step (w, l) e) as [w1 l1] eqn:E.
  destruct (IH _ _ _ H) as [-> B]. clear IH H. unfold step in E. destruct l.
  - destruct e as [c|t1 t2].
    + destruct (do_cmd w c) as [w2 o] eqn:D. apply do_cmd_acts in D as [I _]. destruct o; injection E as <- ; try discriminate; split; try reflexivity; unfold turns in *; cbn [filter]; rewrite I in B; exact B.
    + destruct (turn w t1 t2) as [w2 x] eqn:D. apply turn_took in D as [_ C]. destruct x; try discriminate E. injection E as <-. specialize (C eq_refl). split; [reflexivity|]. unfold turns in *. cbn [filter length]. lia.
  - exfalso. destruct e as [c|t1 t2]; [|discriminate E]. destruct (do_cmd w c) as [w2 o]. destruct o; discriminate E.
  - exfalso. destruct e; discriminate E.
Qed.
