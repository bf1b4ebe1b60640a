(* Property C168: how often a stage is announced. *)
From Coq Require Import String.
From Verif Require Import Base GoStrings M_conn M_message M_transport M_session S_session S_tally L_base L_session L_tally.
From Coq Require Import ZifyBool.

(* Whatever the application does and the server sends, a stage has been announced no more often than its request has been made. *)
Theorem C168_asked : forall (proto : Z) (w : world) (es : list event) (w' : world) (l' : life) (verb : bytes) (stage : Z),
  proto <> ProtoHTTP -> opened w proto -> asks_for verb stage -> M_session.run (w, Live) es = (w', l') ->
  times_announced stage (w_log w') <= times_asked verb (w_log w').
Proof.
  intros proto w es w' l' verb stage P O A R. apply (run_tally verb stage) in R; [|exact A|destruct O as (u & uri & -> & _); exact P].
  rewrite (opened_tally verb stage w proto O) in R. pose proof (tally_announced verb stage w'). lia.
Qed.
Print Assumptions C168_asked.
(* For each announcement of the last three there has been an answer of its own with status 200. *)
Theorem C168_answered : forall (proto : Z) (w : world) (es : list event) (w' : world) (l' : life) (stage : Z),
  proto <> ProtoHTTP -> opened w proto -> 2 <= stage -> M_session.run (w, Live) es = (w', l') ->
  times_announced stage (w_log w') <= times_answered 200 (w_log w').
Proof.
  intros proto w es w' l' stage P (u & uri & S & L) B R. destruct (run_prims es w Live w' l' None) as (c & PS); [rewrite S; exact P|exact R|].
  pose proof (prims_answers _ _ PS stage B) as K. cbn [fst snd] in K. rewrite L in K. unfold one_if in K. change (times_announced stage []) with 0 in K. change (times_answered 200 []) with 0 in K. destruct (match c with Some (_, r) => p_code r =? 200 | None => false end); lia.
Qed.
Print Assumptions C168_answered.

(* PLAY is asked for three times; the first is refused, the second granted, and that answer repeated, which ends the loop: it plays once *)
Example C168_case :
  let answer l := map Some (flat_map (fun c => if c =? 124 then [13; 10] else [c]) l ++ [13; 10; 13; 10]) in
  let w := mkW (dialled ProtoTCP None (bs "rtsp://h/s")) (answer (bs "RTSP/1.0 455 No|CSeq: 1") ++ answer (bs "RTSP/1.0 200 OK|CSeq: 2") ++ answer (bs "RTSP/1.0 200 OK|CSeq: 2")) [] [] [] [] in
  let st := M_session.run (w, Live) [App CPlay; App CPlay; App CPlay; Turn 0 0; Turn 0 0; Turn 0 0] in
  opened w ProtoTCP /\ snd st = NoLoop /\ times_announced 2 (w_log (fst st)) = 1 /\ times_asked (bs "PLAY") (w_log (fst st)) = 3 /\ times_answered 200 (w_log (fst st)) = 2.
Proof. cbv zeta. split; [exists None, (bs "rtsp://h/s"); split; reflexivity|]. vm_compute. splits; reflexivity. Qed.
