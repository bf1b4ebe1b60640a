(* C111: goroutines that use one session. *)
From Verif Require Import Base M_access S_access L_base L_access.

(* No two goroutines are ever at the queue of requests, one of them changing it, nor at the table of methods, the reader of the
   connection or the count of the streams set up: however many goroutines call whatever methods, in every order of steps. *)
Theorem C111_tables_partial : forall (c c' : crowd) (schedule : list nat) (v : shared), starts c -> crowd_run c schedule = Some c' ->
  In v [VQueue; VVerbs; VReader; VFeedidx] -> ~ clash c' v.
Proof.
  intros c c' sch v S R I. pose proof (run_orderly sch c c' (starts_orderly c S) R) as O. pose proof (run_apart sch c c' (starts_apart c S) R) as A.
  destruct I as [<-|[<-|[<-|[<-|[]]]]]; [apply orderly_queue; exact O|apply apart_private; [exact A|reflexivity]..].
Qed.
Print Assumptions C111_tables_partial.

(* whoever has the lock gives it back by itself: no goroutine waits for anything while it holds it *)
Theorem C111_lock : forall (c c' : crowd) (schedule : list nat) (i : nat), starts c -> crowd_run c schedule = Some c' -> c_lock c' = Some i ->
  exists n c'', crowd_run c' (repeat i n) = Some c'' /\ c_lock c'' = None.
Proof. intros c c' sch i S R L. eapply orderly_release; [|exact L|reflexivity]. exact (run_orderly sch c c' (starts_orderly c S) R). Qed.
Print Assumptions C111_lock.

(* Everything else is shared without care.  One command of the application and one turn of the loop suffice for the number of the
   requests, the session identifier, the closure for authentication, the digest, and the request itself. *)
Theorem C111_commands_refuted : forall v, In v [VCseq; VId; VAuth; VDigest; VReq] ->
  exists (loop command : list act) (schedule : list nat) (c' : crowd), loop_does loop /\ command_does command /\
    crowd_run (pair_of loop command) schedule = Some c' /\ clash c' v.
Proof.
  intros v I. assert (A : command_does ([Rd VAuth; Rd VAuth; Rd VDigest; Wr VDigest; Rd VDigest] ++ [Rd VCseq; Wr VCseq] ++ enqueue_acts ++ pack_acts ++ write_acts)) by apply (command_auth _ auth_digest).
  destruct I as [<-|[<-|[<-|[<-|[<-|[]]]]]].
  - (* the loop sends DESCRIBE *)
    exists ([Wr VReader; Wait] ++ [Wr VReader; Wait] ++ [Acq; Rd VQueue; Wr VQueue; Rel] ++ [] ++ ([Rd VStage] ++ repeat (Wr VVerbs) 1 ++ ([Rd VAuth; Rd VCseq; Wr VCseq] ++ enqueue_acts ++ pack_acts ++ write_acts))),
      ([Rd VAuth; Rd VCseq; Wr VCseq] ++ enqueue_acts ++ pack_acts ++ write_acts), (repeat 0%nat 12 ++ [1%nat]).
    apply shown; [apply one_turn, rtsp_other; [constructor|constructor|apply (switch_describe 1), command_plain]|apply command_plain|vm_compute; split; reflexivity].
  - (* a Session header arrives *)
    exists ([Wr VReader; Wait] ++ [Wr VReader; Wait] ++ [Acq; Rd VQueue; Wr VQueue; Rel] ++ [Wr VId] ++ []),
      ([Rd VAuth; Rd VCseq; Wr VCseq] ++ enqueue_acts ++ pack_acts ++ write_acts), (repeat 0%nat 8 ++ repeat 1%nat 5).
    apply shown; [apply one_turn, rtsp_other; [constructor|apply session_set|apply switch_other]|apply command_plain|vm_compute; split; reflexivity].
  - (* a challenge arrives *)
    exists ([Wr VReader; Wait] ++ [Wr VReader; Wait] ++ [Acq; Rd VQueue; Wr VQueue; Rel] ++ ([Wr VAuth] ++ [Rd VAuth] ++ [Wr VReq] ++ enqueue_acts ++ pack_acts ++ write_acts)),
      ([Rd VAuth; Rd VCseq; Wr VCseq] ++ enqueue_acts ++ pack_acts ++ write_acts), (repeat 0%nat 8).
    apply shown; [apply one_turn, rtsp_401; [constructor|apply authorize_ok, auth_basic]|apply command_plain|vm_compute; split; reflexivity].
  - (* the loop sends DESCRIBE with a digest *)
    exists ([Wr VReader; Wait] ++ [Wr VReader; Wait] ++ [Acq; Rd VQueue; Wr VQueue; Rel] ++ [] ++ ([Rd VStage] ++ repeat (Wr VVerbs) 1 ++ ([Rd VAuth; Rd VAuth; Rd VDigest; Wr VDigest; Rd VDigest] ++ [Rd VCseq; Wr VCseq] ++ enqueue_acts ++ pack_acts ++ write_acts))),
      ([Rd VAuth; Rd VAuth; Rd VDigest; Wr VDigest; Rd VDigest] ++ [Rd VCseq; Wr VCseq] ++ enqueue_acts ++ pack_acts ++ write_acts), (repeat 0%nat 13 ++ repeat 1%nat 3).
    apply shown; [apply one_turn, rtsp_other; [constructor|constructor|apply (switch_describe 1), A]|exact A|vm_compute; split; reflexivity].
  - (* the request is refused before it is written *)
    exists ([Wr VReader; Wait] ++ [Wr VReader; Wait] ++ [Acq; Rd VQueue; Wr VQueue; Rel] ++ ([Wr VAuth] ++ [Rd VAuth] ++ [Wr VReq] ++ enqueue_acts ++ pack_acts ++ write_acts)),
      ([Rd VAuth; Rd VCseq; Wr VCseq] ++ enqueue_acts ++ pack_acts ++ write_acts), (repeat 1%nat 8 ++ repeat 0%nat 10).
    apply shown; [apply one_turn, rtsp_401; [constructor|apply authorize_ok, auth_basic]|apply command_plain|vm_compute; split; reflexivity].
Qed.
Print Assumptions C111_commands_refuted.

(* and other calls for the rest *)
Theorem C111_calls_refuted : forall v, In v [VStage; VFeeds; VFeed; VLast; VSinks] ->
  exists (loop call : list act) (schedule : list nat) (c' : crowd), loop_does loop /\ call_does call /\
    crowd_run (pair_of loop call) schedule = Some c' /\ clash c' v.
Proof.
  intros v I.
  assert (K : keepalive_does ([Rd VStage; Rd VStage; Rd VLast; Rd VLast; Wr VLast; Rd VId] ++ [])) by (apply keepalive_sent, command_none).
  destruct I as [<-|[<-|[<-|[<-|[<-|[]]]]]].
  - (* KeepAlive while PLAY is answered *)
    exists ([Wr VReader; Wait] ++ [Wr VReader; Wait] ++ [Acq; Rd VQueue; Wr VQueue; Rel] ++ [] ++ notify_acts), ([Rd VStage; Rd VStage]), (repeat 0%nat 8).
    apply shown; [apply one_turn, rtsp_other; [constructor|constructor|apply switch_stage]|apply call_keepalive, keepalive_stage|vm_compute; split; reflexivity].
  - (* Setup while DESCRIBE is answered *)
    exists ([Wr VReader; Wait] ++ [Wr VReader; Wait] ++ [Acq; Rd VQueue; Wr VQueue; Rel] ++ [] ++ ([Wr VFeeds] ++ [Rd VFeeds])), ([Rd VFeeds]), (repeat 0%nat 8).
    apply shown; [apply one_turn, rtsp_other; [constructor|constructor|apply switch_setup, setup_end]|apply call_setup, setup_end|vm_compute; split; reflexivity].
  - (* Setup while a SETUP is answered *)
    exists ([Wr VReader; Wait] ++ [Wr VReader; Wait] ++ [Acq; Rd VQueue; Wr VQueue; Rel] ++ [] ++ ([Rd VFeeds] ++ ([Rd VFeed; Rd VFeedidx; Wr VFeedidx; Wr VFeed]))), ([Rd VFeeds; Rd VFeed] ++ []), (repeat 0%nat 12 ++ [1%nat]).
    apply shown; [apply one_turn, rtsp_other; [constructor|constructor|apply switch_answered, hs_error, feeds_error]|apply call_setup, setup_failed, command_none|vm_compute; split; reflexivity].
  - (* KeepAlive in both *)
    exists (([Rd VStage; Rd VStage; Rd VLast; Rd VLast; Wr VLast; Rd VId] ++ []) ++ [Rd VStage]), ([Rd VStage; Rd VStage; Rd VLast; Rd VLast; Wr VLast; Rd VId] ++ []), (repeat 0%nat 4 ++ repeat 1%nat 2).
    apply shown; [apply loop_done; exact K|apply call_keepalive; exact K|vm_compute; split; reflexivity].
  - (* Stop while a SETUP is answered *)
    exists ([Wr VReader; Wait] ++ [Wr VReader; Wait] ++ [Acq; Rd VQueue; Wr VQueue; Rel] ++ [] ++ ([Rd VFeeds] ++ ([Rd VFeed; Rd VFeedidx; Wr VFeedidx; Wr VFeed; Rd VFeed; Rd VFeedidx; Rd VFeed; Wr VSinks; Rd VFeed; Wr VSinks] ++ []))), ([Rd VSinks] ++ repeat Wait 0 ++ [Wr VSinks]), (repeat 0%nat 16).
    apply shown; [apply one_turn, rtsp_other; [constructor|constructor|apply switch_answered, hs_error, feeds_udp, feeds_end]|apply call_stop|vm_compute; split; reflexivity].
Qed.
Print Assumptions C111_calls_refuted.

(* the loop is kept out of the queue while the application is in it *)
Example C111_case :
  let loop := [Wr VReader; Wait] ++ [Wr VReader; Wait] ++ [Acq; Rd VQueue; Wr VQueue; Rel] ++ [Wr VId] ++ [] in
  let app := [Rd VAuth; Rd VCseq; Wr VCseq] ++ enqueue_acts ++ pack_acts ++ write_acts in
  starts (pair_of loop app) /\
  crowd_run (pair_of loop app) (repeat 1%nat 6 ++ repeat 0%nat 4) <> None /\
  crowd_run (pair_of loop app) (repeat 1%nat 6 ++ repeat 0%nat 5) = None /\
  crowd_run (pair_of loop app) (repeat 1%nat 9 ++ repeat 0%nat 9) <> None.
Proof.
  cbv zeta. splits; [|discriminate|reflexivity|discriminate].
  apply pair_starts; [apply one_turn, rtsp_other; [constructor|apply session_set|apply switch_other]|apply call_command, command_plain].
Qed.
