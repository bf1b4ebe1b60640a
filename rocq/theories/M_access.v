(* Model of what the goroutines of one session touch in common, and in which order: /repo/net/rtsp/session.go and the part of
   connection.go that they share.  One goroutine is the session's loop (session.go:195-210 process, started at line 52), the
   others belong to the application, which calls the exported methods.

   A behaviour is the list of accesses to what is shared, of operations on the lock, and of operations that may block
   (channels, the network).  Conditions are not evaluated: where the code branches, every branch is a behaviour.
   Not listed: what is written only before the loop starts (Conn, State, BaseURI, URL, Proto, Timeout, done), the log, which has
   a lock of its own, and the POST connection, since over HTTP the first command ends the program (C69).  Of requests (message.go:
   18-25 Request) those are listed that can be found in the queue; each of a goroutine's accesses is to the one it has just put
   there or taken from it. *)
From Verif Require Import Base.

(* session.go:18-31 Session, connection.go:18-31 Conn, digest.go:24-40 Digest (of the closure in auth), feed.go:11-17 Feed *)
Inductive shared := VStage | VAuth | VDigest | VQueue | VId | VFeeds | VFeed | VFeedidx | VVerbs | VLast | VCseq | VReader | VSinks | VReq.
(* Rd and Wr: one access; Acq and Rel: Lock and Unlock; Wait: may block for something else than the lock *)
Inductive act := Rd (v : shared) | Wr (v : shared) | Acq | Rel | Wait.

(* session.go:70-76  enqueue *)
Definition enqueue_acts : list act := [Acq; Rd VCseq; Rd VId; Wr VQueue; Rel].
(* session.go:78-86  dequeue: found and deleted, or not *)
Inductive dequeue_does : list act -> Prop :=
| dequeue_found : dequeue_does [Acq; Rd VQueue; Wr VQueue; Rel]
| dequeue_not : dequeue_does [Acq; Rd VQueue; Rel].
(* connection.go:124-127  Write *)
Definition write_acts : list act := [Wait].
(* message.go:70-93  Pack of a request that is in the queue *)
Definition pack_acts : list act := [Rd VReq].
(* digest.go:105-107, 128-130, 145-170: a Basic closure touches nothing more, a Digest one keeps ha2 in the digest, and
   replaces ha1 there under MD5-sess *)
Inductive auth_does : list act -> Prop :=
| auth_basic : auth_does [Rd VAuth]
| auth_digest : auth_does [Rd VAuth; Rd VDigest; Wr VDigest; Rd VDigest]
| auth_sess : auth_does [Rd VAuth; Rd VDigest; Wr VDigest; Rd VDigest; Wr VDigest; Rd VDigest].
(* session.go:88-109  command: no connection; without and with auth *)
Inductive command_does : list act -> Prop :=
| command_none : command_does []
| command_plain : command_does ([Rd VAuth; Rd VCseq; Wr VCseq] ++ enqueue_acts ++ pack_acts ++ write_acts)
| command_auth a : auth_does a -> command_does ([Rd VAuth] ++ a ++ [Rd VCseq; Wr VCseq] ++ enqueue_acts ++ pack_acts ++ write_acts).
(* session.go:122-136  Setup: range over feeds; each command is followed by the store of its number, unless it fails *)
Inductive setup_does : list act -> Prop :=
| setup_end : setup_does [Rd VFeeds]
| setup_failed c : command_does c -> setup_does ([Rd VFeeds; Rd VFeed] ++ c)
| setup_next c r : command_does c -> setup_does r -> setup_does ([Rd VFeeds; Rd VFeed] ++ c ++ [Rd VCseq; Rd VFeeds; Wr VFeed] ++ r).
(* session.go:156-165  KeepAlive: not needed (by protocol, or by stage); too early; sent *)
Inductive keepalive_does : list act -> Prop :=
| keepalive_tcp : keepalive_does []
| keepalive_stage : keepalive_does [Rd VStage; Rd VStage]
| keepalive_early : keepalive_does [Rd VStage; Rd VStage; Rd VLast; Rd VLast]
| keepalive_sent c : command_does c -> keepalive_does ([Rd VStage; Rd VStage; Rd VLast; Rd VLast; Wr VLast; Rd VId] ++ c).

(* what the application may call: session.go:112-119, 139-152 Options, Describe, Play, Pause, Teardown (each a command), Setup,
   KeepAlive, and connection.go:226-233 Stop *)
Inductive call_does : list act -> Prop :=
| call_command c : command_does c -> call_does c
| call_setup c : setup_does c -> call_does c
| call_keepalive c : keepalive_does c -> call_does c
| call_stop n : call_does ([Rd VSinks] ++ repeat Wait n ++ [Wr VSinks]).
Inductive app_does : list act -> Prop :=
| app_end : app_does []
| app_call c r : call_does c -> app_does r -> app_does (c ++ r).

(* session.go:213-218  notify *)
Definition notify_acts : list act := [Wr VStage; Wait].
(* session.go:291-319  handleSetup: the feeds looked at, those whose number it is set up, with a listener for each of two ports
   over UDP (connection.go:178-197 AddSink); 314-317 Ready and connection.go:200-223 Start, or not yet *)
Inductive feeds_does : list act -> Prop :=
| feeds_end : feeds_does []
| feeds_other r : feeds_does r -> feeds_does ([Rd VFeed] ++ r)
| feeds_error : feeds_does [Rd VFeed; Rd VFeedidx; Wr VFeedidx; Wr VFeed]
| feeds_tcp r : feeds_does r -> feeds_does ([Rd VFeed; Rd VFeedidx; Wr VFeedidx; Wr VFeed; Rd VFeed] ++ r)
| feeds_udp r : feeds_does r -> feeds_does ([Rd VFeed; Rd VFeedidx; Wr VFeedidx; Wr VFeed; Rd VFeed; Rd VFeedidx; Rd VFeed; Wr VSinks; Rd VFeed; Wr VSinks] ++ r).
Inductive ready_does : list act -> Prop :=
| ready_not : ready_does [Rd VFeedidx; Rd VFeeds]
| ready_now : ready_does ([Rd VFeedidx; Rd VFeeds] ++ notify_acts ++ [Rd VSinks]).
Inductive handle_setup_does : list act -> Prop :=
| hs_ok f r : feeds_does f -> ready_does r -> handle_setup_does ([Rd VFeeds] ++ f ++ r)
| hs_error f : feeds_does f -> handle_setup_does ([Rd VFeeds] ++ f)
| hs_refused r : ready_does r -> handle_setup_does ([Rd VFeedidx; Wr VFeedidx] ++ r).
(* session.go:251-255: the Session header *)
Inductive session_does : list act -> Prop := session_none : session_does [] | session_set : session_does [Wr VId].
(* session.go:257-286  the switch *)
Inductive switch_does : list act -> Prop :=
| switch_other : switch_does []
| switch_options : switch_does [Rd VStage]
| switch_describe n c : command_does c -> switch_does ([Rd VStage] ++ repeat (Wr VVerbs) n ++ c)
| switch_no_body : switch_does [Wr VFeeds]
| switch_setup c : setup_does c -> switch_does ([Wr VFeeds] ++ c)
| switch_stage : switch_does notify_acts
| switch_answered c : handle_setup_does c -> switch_does c.
(* session.go:56-68  authorize, 238-249: refused, or a new closure, with a digest of its own, and the request again *)
Inductive authorize_does : list act -> Prop :=
| authorize_error : authorize_does []
| authorize_ok a : auth_does a -> authorize_does ([Wr VAuth] ++ a ++ [Wr VReq] ++ enqueue_acts ++ pack_acts ++ write_acts).
(* session.go:220-289  handleRtsp: not read; not asked for; 401; other *)
Inductive rtsp_does : list act -> Prop :=
| rtsp_error : rtsp_does [Wr VReader; Wait]
| rtsp_unasked d : dequeue_does d -> rtsp_does ([Wr VReader; Wait] ++ d)
| rtsp_401 d a : dequeue_does d -> authorize_does a -> rtsp_does ([Wr VReader; Wait] ++ d ++ a)
| rtsp_other d i c : dequeue_does d -> session_does i -> switch_does c -> rtsp_does ([Wr VReader; Wait] ++ d ++ i ++ c).
(* session.go:167-193  receive *)
Inductive receive_does : list act -> Prop :=
| receive_error : receive_does [Wr VReader; Wait]
| receive_frame : receive_does [Wr VReader; Wait; Wr VReader; Wait; Wait]
| receive_rtsp c : rtsp_does c -> receive_does ([Wr VReader; Wait] ++ c).
(* session.go:195-210  process *)
Inductive loop_does : list act -> Prop :=
| loop_end : loop_does []
| loop_done k : keepalive_does k -> loop_does (k ++ [Rd VStage])
| loop_turn k s c r : keepalive_does k -> s = [] \/ s = [Rd VStage] -> receive_does c -> loop_does r -> loop_does (k ++ s ++ c ++ r).

(* ---- the goroutines together ---- *)
(* what each has still to do, and who has the lock *)
Record crowd := mkCrowd { c_rest : nat -> list act; c_lock : option nat }.
Definition rest_set (f : nat -> list act) (i : nat) (x : list act) : nat -> list act := fun j => if Nat.eqb j i then x else f j.
(* one step of a goroutine, if it has one to take *)
Definition crowd_step (c : crowd) (i : nat) : option crowd :=
  match c_rest c i with
  | [] => None
  | a :: r =>
      match a with
      | Acq => match c_lock c with None => Some (mkCrowd (rest_set (c_rest c) i r) (Some i)) | Some _ => None end
      | Rel => Some (mkCrowd (rest_set (c_rest c) i r) None)
      | _ => Some (mkCrowd (rest_set (c_rest c) i r) (c_lock c))
      end
  end.
Fixpoint crowd_run (c : crowd) (schedule : list nat) : option crowd :=
  match schedule with [] => Some c | i :: l => match crowd_step c i with Some c' => crowd_run c' l | None => None end end.
