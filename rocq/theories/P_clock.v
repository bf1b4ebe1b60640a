(* Reads in time (property C146). *)
From Verif Require Import Base M_conn M_clock S_clock L_clock.

(* A read with a positive Timeout gives what it asks for exactly if that is buffered or comes before the Timeout has passed since
   the read began, no later than it comes; otherwise it fails, with a timeout at that very moment unless the connection ended before. *)
Theorem C146_partial : forall c now o c' now' out, 0 < t_timeout c -> call c now o = (c', now', out) ->
  let d := now + t_timeout c in
  now <= now' <= d /\
  (forall v, out = TOk v <-> asked o (t_buf c ++ before d (t_net c)) v) /\
  (out = TTimeout -> now' = d /\ ~ ends_before d (t_net c)) /\
  (out = TEnd -> ends_before d (t_net c)) /\
  out <> THang /\
  (forall v m, out = TOk v -> now < m <= now' -> forall w, ~ asked o (t_buf c ++ before m (t_net c)) w).
Proof. exact call_positive. Qed.
Print Assumptions C146_partial.
(* a line comes in pieces a second apart: none of the waits is as long as the Timeout of two seconds, but the line takes three *)
Example C146_case : exists c,
  let net := [Bytes 1000000000 [82; 84]; Bytes 2000000000 [83; 80]; Bytes 3000000000 [13; 10]] in
  call (tconn0 net) 500000000 OLine = (c, 2500000000, TTimeout) /\ t_buf c = [] /\
  snd (trun (tconn0 net) 500000000 [(0, Call OLine); (0, Call OLine)]) = [mkRd 500000000 2500000000 TTimeout; mkRd 2500000000 3000000000 (TOk [13; 10])].
Proof. eexists. vm_compute. repeat split. Qed.
(* no pause: the line comes in a tenth of a second *)
Example C146_case_line : snd (trun (tconn0 [Bytes 1000000000 [82; 84]; Bytes 1100000000 [10; 83]]) 0 [(0, Call OLine); (5, Call OByte); (7, Call OByte)])
  = [mkRd 0 1100000000 (TOk [82; 84; 10]); mkRd 1100000005 1100000005 (TOk [83]); mkRd 1100000012 3100000012 TTimeout].
Proof. reflexivity. Qed.

(* If no read ever had a positive Timeout, a read gives what it asks for exactly if that ever comes, and none times out. *)
Theorem C146_zero_partial : forall c now o c' now' out, t_timeout c <= 0 -> t_deadline c = None -> call c now o = (c', now', out) ->
  t_deadline c' = None /\ t_timeout c' = t_timeout c /\ out <> TTimeout /\
  (forall v, out = TOk v <-> asked o (t_buf c ++ ever (t_net c)) v).
Proof. exact call_never. Qed.
Print Assumptions C146_zero_partial.
Example C146_zero_case : snd (trun (tconn0 [Bytes 900000000000 [82; 10]]) 0 [(0, SetTimeout 0); (0, Call OLine)])
  = [mkRd 0 900000000000 (TOk [82; 10])].
Proof. reflexivity. Qed.

(* But the deadline of an earlier read stays in force: after a read with a positive Timeout, once Timeout has been set to zero and
   the earlier deadline has passed, no read ever takes anything from the connection again, however much comes; with nothing
   buffered each fails with a timeout at once, for as long as Timeout is not positive. *)
Theorem C146_refuted : forall c start o c1 now1 out1 gap t es c2 now2 rs, 0 < t_timeout c ->
  call c start o = (c1, now1, out1) -> t <= 0 -> start + t_timeout c <= now1 + gap -> Forall unset es ->
  trun c1 now1 ((gap, SetTimeout t) :: es) = (c2, now2, rs) ->
  t_net c2 = t_net c1 /\
  (t_buf c1 = [] -> Forall needy es -> Forall (fun r => rd_out r = TTimeout /\ rd_to r = rd_from r) rs) /\
  Forall (fun r => rd_to r = rd_from r) rs.
Proof.
  intros c start o c1 now1 out1 gap t es c2 now2 rs T C Ht G U H. destruct (call_arms _ _ _ _ _ _ T C) as (D & _). cbn [trun] in H.
  exact (trun_stale es (mkT (t_buf c1) (t_deadline c1) (t_net c1) t) _ _ _ _ _ Ht D G U H).
Qed.
Print Assumptions C146_refuted.
(* the answer is there long before the second read, which fails all the same, and so does the third *)
Example C146_refuted_case : exists c n,
  trun (tconn0 [Bytes 100 [65; 10]; Bytes 4000000000 [66; 10]]) 0
    [(0, Call OLine); (0, SetTimeout 0); (9000000000, Call OLine); (1000000000, Call OLine)]
  = (c, n, [mkRd 0 100 (TOk [65; 10]); mkRd 9000000100 9000000100 TTimeout; mkRd 10000000100 10000000100 TTimeout]) /\
  t_net c = [Bytes 4000000000 [66; 10]].
Proof. do 2 eexists. vm_compute. split; reflexivity. Qed.

(* The stream of M_conn, on which every other property of the reads is stated, loses nothing: whatever reads are made, at whatever
   times, on whatever arrivals, with Timeout positive, their results are those of the same reads on a stream with as many pauses as
   reads that timed out, and with the bytes of the connection in their order. *)
Theorem C146_stream_partial : forall es c now c' now' rs, 0 < t_timeout c -> Forall positive es -> trun c now es = (c', now', rs) ->
  exists s, Forall2 shown (map rd_out rs) (conn_calls s es) /\ pauses s = timeouts rs /\
    exists rest, stream_bytes s ++ rest = t_buf c ++ ever (t_net c).
Proof.
  intros es c now c' now' rs T P H. destruct (trun_stream _ _ _ _ _ _ T P H) as (s & A & _ & B & (rest & C)).
  exists (map Some (t_buf c) ++ s). rewrite pauses_some, stream_bytes_some. repeat split; try assumption. exists rest.
  now rewrite <- app_assoc, C.
Qed.
Print Assumptions C146_stream_partial.
Example C146_stream_case : Forall2 shown
  (map rd_out (snd (trun (tconn0 [Bytes 1000000000 [82; 84]; Bytes 3000000000 [83; 10]; End 3000000001]) 0 [(0, Call OLine); (0, Call OShort); (0, Call OByte)])))
  (conn_calls [Some 82; Some 84; None; Some 83; Some 10] [(0, Call OLine); (0, Call OShort); (0, Call OByte)]).
Proof. vm_compute. constructor; [reflexivity|]. constructor; [right; split; reflexivity|]. constructor; [reflexivity|constructor]. Qed.
