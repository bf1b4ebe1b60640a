(* Model of /repo/net/rtsp/session.go, feed.go and the writing side of connection.go.

   The two goroutines of a session, the caller of the commands and the session's own loop, are modelled as taking turns:
   each command and each turn of the loop is atomic.  M_race.v models the interleaving inside a command.
   A send on State or Data is modelled as an entry of the log: the receiver takes it sooner or later and in order.
   int is 64 bits wide.  Reading lines is bounded by fuel; Fuel never comes out (L_crash, unpack_no_fuel). *)
From Coq Require Import String.
From Verif Require Import Base GoStrings M_conn M_message M_transport M_sdp M_digest M_sps.

(* definitions.go:45-56  stages *)
Definition StageInit := 0. Definition StageReady := 1. Definition StagePlay := 2. Definition StagePause := 3. Definition StageDone := 4.

(* feed.go:11-17 *)
Record feed := mkFeed { fd_media : media; fd_transp : transport; fd_cseq : Z; fd_set : bool; fd_sets : store }.

(* session.go:18-32 and the parts of connection.go:18-31 the session uses.  s_conn: Conn is not nil.  s_user: the user
   name and password of the URL.  s_auth: the text and the state kept by the closure of Authenticate.  s_last: None
   is the zero time.  s_sinks: channel and port of the UDP listeners. *)
Record session := mkSes {
  s_conn : bool; s_proto : Z; s_user : option (bytes * bytes); s_uri : bytes; s_sinks : list (Z * Z);
  s_stage : Z; s_auth : option (bytes * digest); s_queue : list (Z * request); s_session : bytes;
  s_feeds : list feed; s_feedidx : Z; s_verbs : list bytes; s_last : option Z; s_cseq : Z }.

Definition set_sinks (s : session) x := mkSes (s_conn s) (s_proto s) (s_user s) (s_uri s) x (s_stage s) (s_auth s) (s_queue s) (s_session s) (s_feeds s) (s_feedidx s) (s_verbs s) (s_last s) (s_cseq s).
Definition set_stage (s : session) x := mkSes (s_conn s) (s_proto s) (s_user s) (s_uri s) (s_sinks s) x (s_auth s) (s_queue s) (s_session s) (s_feeds s) (s_feedidx s) (s_verbs s) (s_last s) (s_cseq s).
Definition set_auth (s : session) x := mkSes (s_conn s) (s_proto s) (s_user s) (s_uri s) (s_sinks s) (s_stage s) x (s_queue s) (s_session s) (s_feeds s) (s_feedidx s) (s_verbs s) (s_last s) (s_cseq s).
Definition set_queue (s : session) x := mkSes (s_conn s) (s_proto s) (s_user s) (s_uri s) (s_sinks s) (s_stage s) (s_auth s) x (s_session s) (s_feeds s) (s_feedidx s) (s_verbs s) (s_last s) (s_cseq s).
Definition set_session (s : session) x := mkSes (s_conn s) (s_proto s) (s_user s) (s_uri s) (s_sinks s) (s_stage s) (s_auth s) (s_queue s) x (s_feeds s) (s_feedidx s) (s_verbs s) (s_last s) (s_cseq s).
Definition set_feeds (s : session) x := mkSes (s_conn s) (s_proto s) (s_user s) (s_uri s) (s_sinks s) (s_stage s) (s_auth s) (s_queue s) (s_session s) x (s_feedidx s) (s_verbs s) (s_last s) (s_cseq s).
Definition set_feedidx (s : session) x := mkSes (s_conn s) (s_proto s) (s_user s) (s_uri s) (s_sinks s) (s_stage s) (s_auth s) (s_queue s) (s_session s) (s_feeds s) x (s_verbs s) (s_last s) (s_cseq s).
Definition set_verbs (s : session) x := mkSes (s_conn s) (s_proto s) (s_user s) (s_uri s) (s_sinks s) (s_stage s) (s_auth s) (s_queue s) (s_session s) (s_feeds s) (s_feedidx s) x (s_last s) (s_cseq s).
Definition set_last (s : session) x := mkSes (s_conn s) (s_proto s) (s_user s) (s_uri s) (s_sinks s) (s_stage s) (s_auth s) (s_queue s) (s_session s) (s_feeds s) (s_feedidx s) (s_verbs s) x (s_cseq s).
Definition set_cseq (s : session) x := mkSes (s_conn s) (s_proto s) (s_user s) (s_uri s) (s_sinks s) (s_stage s) (s_auth s) (s_queue s) (s_session s) (s_feeds s) (s_feedidx s) (s_verbs s) (s_last s) x.

(* session.go:36-43  NewSession; connection.go:79-89  the connection Dial makes *)
Definition new_session : session := mkSes false 0 None [] [] StageInit None [] [] [] 0 [] None 0.
Definition dialled (proto : Z) (user : option (bytes * bytes)) (uri : bytes) : session :=
  mkSes true proto user uri [] StageInit None [] [] [] 0 [] None 0.

(* message.go:39  Queue: a map from CSeq to request; a request is under one CSeq at a time, so sharing is not visible *)
Fixpoint qget (q : list (Z * request)) (k : Z) : option request :=
  match q with [] => None | (k', r) :: t => if k' =? k then Some r else qget t k end.
Definition qdel (q : list (Z * request)) (k : Z) : list (Z * request) := filter (fun e => negb (fst e =? k)) q.
Definition qset (q : list (Z * request)) (k : Z) (r : request) : list (Z * request) := (k, r) :: qdel q k.

(* What can be seen from outside: a request handed to the connection (again: a retransmission), a stage sent on State,
   a packet sent on Data, a response logged, a listener opened, the listeners started; and the two clock readings
   of a keep-alive. *)
Inductive effect :=
| Sent (again : bool) (r : request)
| Notified (stage : Z)
| Delivered (ch : Z) (payload : bytes)
| Got (r : response)
| Listening (ch port : Z)
| Started
| Alive (t1 t2 : Z).

(* The session, what is to be read, and what the environment answers next: outcomes of writes and of opening listeners
   (none left: success), bytes from the random source; and what has happened so far. *)
Record world := mkW {
  w_s : session; w_in : stream; w_writes : list (option goerr); w_listens : list (option goerr); w_rand : list bytes; w_log : list effect }.
Definition upd_s (w : world) (f : session -> session) : world := mkW (f (w_s w)) (w_in w) (w_writes w) (w_listens w) (w_rand w) (w_log w).
Definition upd_in (w : world) (x : stream) : world := mkW (w_s w) x (w_writes w) (w_listens w) (w_rand w) (w_log w).
Definition note (w : world) (e : effect) : world := mkW (w_s w) (w_in w) (w_writes w) (w_listens w) (w_rand w) (w_log w ++ [e]).

(* connection.go:106-127  Write: in HTTP mode the POST connection is never opened (post is nil) and setting its deadline panics *)
Definition write (w : world) (again : bool) (r : request) : world * res unit :=
  if s_proto (w_s w) =? ProtoHTTP then (w, Panic)
  else
    let w' := mkW (w_s w) (w_in w) (tl (w_writes w)) (w_listens w) (w_rand w) (w_log w ++ [Sent again r]) in
    match w_writes w with
    | Some e :: _ => (w', Err e)
    | _ => (w', Ok tt)
    end.

(* session.go:70-76  enqueue *)
Definition enqueue (s : session) (r : request) : session * request :=
  let r := mkReq (q_verb r) (s_cseq s) (q_uri r) (q_auth r) (s_session s) (q_header r) in
  (set_queue s (qset (s_queue s) (s_cseq s) r), r).

(* s.auth(verb, nil), auth not nil *)
Definition call_auth (s : session) (verb : bytes) : session * bytes :=
  match s_auth s with
  | None => (s, [])
  | Some (text, d) => let '(d', out) := auth_call text d verb [] in (set_auth s (Some (text, d')), out)
  end.

(* session.go:88-109  command; the header has at most one entry in every use *)
Definition command (w : world) (verb uri : bytes) (headers : header) : world * res unit :=
  let s := w_s w in
  if negb (s_conn s) then (w, Err ErrNoConnection)
  else
    let h := fold_left (fun h e => header_set h (fst e) (snd e)) headers [] in
    let '(s, auth) := call_auth s verb in
    let s := set_cseq s (i64 (s_cseq s + 1)) in
    let '(s, r) := enqueue s (mkReq verb 0 uri auth [] h) in
    write (upd_s w (fun _ => s)) false r.

(* s.BaseURI, s.Proto: a field of *Conn; nil dereference when there is no connection *)
Definition with_conn (w : world) (k : session -> world * res unit) : world * res unit :=
  if s_conn (w_s w) then k (w_s w) else (w, Panic).

(* session.go:112-119, 139-152 *)
Definition options (w : world) := with_conn w (fun s => command w (bs "OPTIONS") (s_uri s) []).
Definition describe (w : world) := with_conn w (fun s => command w (bs "DESCRIBE") (s_uri s) [(bs "Accept", bs "application/sdp")]).
Definition play (w : world) := with_conn w (fun s => command w (bs "PLAY") (s_uri s) []).
Definition pause (w : world) := with_conn w (fun s => command w (bs "PAUSE") (s_uri s) []).
Definition teardown (w : world) := with_conn w (fun s => command w (bs "TEARDOWN") (s_uri s) []).

(* session.go:122-136  Setup, with feed.go:29-31 TransportHeader *)
Definition setup_uri (s : session) (control : bytes) : res bytes :=
  if has_prefix (bs "rtsp://") control then Ok control
  else if s_conn s then Ok (s_uri s ++ bs "/" ++ control) else Panic.
Definition mark_feed (i : nat) (s : session) : session :=
  match nth_error (s_feeds s) i with
  | Some f => set_feeds s (upd (s_feeds s) i (mkFeed (fd_media f) (fd_transp f) (s_cseq s) (fd_set f) (fd_sets f)))
  | None => s
  end.
Fixpoint setup_from (w : world) (i : nat) (todo : list feed) : world * res unit :=
  match todo with
  | [] => (w, Ok tt)
  | f :: rest =>
      match setup_uri (w_s w) (m_control (fd_media f)) with
      | Ok uri =>
          match command w (bs "SETUP") uri [(bs "Transport", transport_string (fd_transp f))] with
          | (w', Ok _) => setup_from (upd_s w' (mark_feed i)) (S i) rest
          | (w', e) => (w', e)
          end
      | _ => (w, Panic)
      end
  end.
Definition setup (w : world) : world * res unit := setup_from w 0 (s_feeds (w_s w)).

(* session.go:156-165  KeepAlive; t1 and t2 are the two readings of the clock, in nanoseconds *)
Definition keepAliveTimeout : Z := 2000000000.
Definition keepalive (w : world) (t1 t2 : Z) : world * res unit :=
  with_conn w (fun s =>
  if negb (s_proto s =? ProtoHTTP) && negb (s_proto s =? ProtoTCP) && (s_stage s >? StageInit) && (s_stage s <? StageDone) then
    if match s_last s with None => true | Some l => t1 - l >=? keepAliveTimeout end then
      command (note (upd_s w (fun s => set_last s (Some t2))) (Alive t1 t2)) (bs "OPTIONS") (s_uri s) [(bs "Session", s_session s)]
    else (w, Ok tt)
  else (w, Ok tt)).

(* session.go:56-68  authorize *)
Definition authorize (w : world) (challenge : bytes) : world * res unit :=
  match new_digest (s_uri (w_s w)) challenge with
  | Ok d =>
      match s_user (w_s w) with
      | None => (w, Err ErrNoCredentials)
      | Some (user, pass) =>
          let '(d', text) := authenticate d user pass (hd [] (w_rand w)) in
          (mkW (set_auth (w_s w) (Some (text, d'))) (w_in w) (w_writes w) (w_listens w) (tl (w_rand w)) (w_log w), Ok tt)
      end
  | Err e => (w, Err e)
  | Panic => (w, Panic)
  | Fuel => (w, Fuel)
  end.

(* session.go:213-218  notify *)
Definition notify (w : world) (stage : Z) : world := note (upd_s w (fun s => set_stage s stage)) (Notified stage).

(* connection.go:178-197  AddSink *)
Definition add_sink (w : world) (ch port : Z) : world * res unit :=
  match w_listens w with
  | Some e :: r => (mkW (w_s w) (w_in w) (w_writes w) r (w_rand w) (w_log w), Err e)
  | l => (note (mkW (set_sinks (w_s w) (s_sinks (w_s w) ++ [(ch, port)])) (w_in w) (w_writes w) (tl l) (w_rand w) (w_log w)) (Listening ch port), Ok tt)
  end.

(* feed.go:34-46  TransportSetup *)
Fixpoint parse_sprops (st : store) (l : list bytes) : store * res unit :=
  match l with
  | [] => (st, Ok tt)
  | b :: r => match parse_sprop st b with
              | (st', Ok _) => parse_sprops st' r
              | (st', e) => (st', e)
              end
  end.
Definition transport_setup (f : feed) (value : bytes) : feed * res unit :=
  match transport_parse (fd_transp f) value with
  | (t, Some e) => (mkFeed (fd_media f) t (fd_cseq f) (fd_set f) (fd_sets f), Err e)
  | (t, None) =>
      match parse_sprops (fd_sets f) (m_sprops (fd_media f)) with
      | (st, Ok _) => (mkFeed (fd_media f) t (fd_cseq f) true st, Ok tt)
      | (st, e) => (mkFeed (fd_media f) t (fd_cseq f) (fd_set f) st, e)
      end
  end.

(* session.go:293-309  the loop over the feeds; they are shared pointers, updated in place *)
Definition put_feed (i : nat) (f : feed) (s : session) : session := set_feeds s (upd (s_feeds s) i f).
Fixpoint setup_feeds (w : world) (cseq : Z) (value : bytes) (i : nat) (todo : list feed) : world * res unit :=
  match todo with
  | [] => (w, Ok tt)
  | f :: rest =>
      if fd_cseq f =? cseq then
        let w := upd_s w (fun s => set_feedidx s (i64 (s_feedidx s + 1))) in
        match transport_setup f value with
        | (f', Ok _) =>
            let w := upd_s w (put_feed i f') in
            if t_tcp (fd_transp f') then setup_feeds w cseq value (S i) rest
            else
              let ch := u8 (u8 (s_feedidx (w_s w)) * 2) in
              match add_sink w ch (p_one (t_port (fd_transp f'))) with
              | (w, Ok _) => match add_sink w (u8 (ch + 1)) (p_two (t_port (fd_transp f'))) with
                             | (w, Ok _) => setup_feeds w cseq value (S i) rest
                             | (w, e) => (w, e)
                             end
              | (w, e) => (w, e)
              end
        | (f', e) => (upd_s w (put_feed i f'), e)
        end
      else setup_feeds w cseq value (S i) rest
  end.

(* session.go:291-319  handleSetup *)
Definition handle_setup (w : world) (r : response) : world * res unit :=
  let finish w := if s_feedidx (w_s w) >=? zlen (s_feeds (w_s w)) then (note (notify w StageReady) Started, Ok tt) else (w, Ok tt) in
  if p_code r =? 200 then
    match setup_feeds w (p_cseq r) (header_get (p_header r) (bs "Transport")) 0 (s_feeds (w_s w)) with
    | (w', Ok _) => finish w'
    | (w', e) => (w', e)
    end
  else if negb (p_code r =? 401) then finish (upd_s w (fun s => set_feedidx s (i64 (s_feedidx s + 1))))
  else finish w.

(* feed.go:21-26  ParseFeeds *)
Fixpoint make_feeds (proto : Z) (i : Z) (l : list media) : list feed :=
  match l with
  | [] => []
  | m :: r => mkFeed m (new_transport proto (i * 2)) 0 false (mkStore (fun _ => None) (fun _ => None)) :: make_feeds proto (i + 1) r
  end.
Definition parse_feeds (proto : Z) (body : bytes) : res (list feed) :=
  let! l := sdp_parse body in Ok (make_feeds proto 0 l).

(* strings.Split(s, ", ") *)
Fixpoint split_commasp (cur : bytes) (s : bytes) : list bytes :=
  match s with
  | [] => [rev cur]
  | a :: r => match r with
              | b :: r' => if (a =? 44) && (b =? 32) then rev cur :: split_commasp [] r' else split_commasp (a :: cur) r
              | [] => [rev (a :: cur)]
              end
  end.

(* session.go:234-249  the retransmission after a 401 response *)
Definition retry (w : world) (req : request) (r : response) : world * res unit :=
  match authorize w (header_get (p_header r) (bs "WWW-Authenticate")) with
  | (w, Ok _) =>
      let '(s, auth) := call_auth (w_s w) (q_verb req) in
      let '(s, req) := enqueue s (mkReq (q_verb req) (q_cseq req) (q_uri req) auth (q_session req) (q_header req)) in
      write (upd_s w (fun _ => s)) true req
  | (w, e) => (w, e)
  end.

(* session.go:251-255 *)
Definition learn_session (s : session) (r : response) : session :=
  let v := header_get (p_header r) (bs "Session") in
  if beq v [] then s else set_session s (hd [] (split_on 59 v)).

(* session.go:257-286  the reaction to the response, by verb of the request *)
Definition react (w : world) (req : request) (r : response) : world * res unit :=
  let verb := q_verb req in
  if beq verb (bs "OPTIONS") then
    if s_stage (w_s w) =? StageInit then
      describe (upd_s w (fun s => set_verbs s (s_verbs s ++ split_commasp [] (header_get (p_header r) (bs "Public")))))
    else (w, Ok tt)
  else if beq verb (bs "DESCRIBE") then
    match p_body r with
    | None => (w, Ok tt)
    | Some body => match parse_feeds (s_proto (w_s w)) body with
                   | Ok fs => setup (upd_s w (fun s => set_feeds s fs))
                   | Err e => (w, Err e)
                   | Panic => (w, Panic)
                   | Fuel => (w, Fuel)
                   end
    end
  else if beq verb (bs "PAUSE") then (if p_code r =? 200 then notify w StagePause else w, Ok tt)
  else if beq verb (bs "PLAY") then (if p_code r =? 200 then notify w StagePlay else w, Ok tt)
  else if beq verb (bs "TEARDOWN") then (if p_code r =? 200 then notify w StageDone else w, Ok tt)
  else if beq verb (bs "SETUP") then handle_setup w r
  else (w, Ok tt).

(* session.go:226-288  handleRtsp after Unpack, with session.go:78-86 dequeue *)
Definition handle_response (w : world) (r : response) : world * res unit :=
  let w := note w (Got r) in
  match qget (s_queue (w_s w)) (p_cseq r) with
  | None => (w, Err ErrBadResponse)
  | Some req =>
      let w := upd_s w (fun s => set_queue s (qdel (s_queue s) (p_cseq r))) in
      if p_code r =? 401 then retry w req r
      else react (upd_s w (fun s => learn_session s r)) req r
  end.

(* session.go:167-193  receive, with handleRtsp up to Unpack (220-224) *)
Definition receive (w : world) : world * res unit :=
  match peek 1 (w_in w) with
  | (s0, Ok [36]) =>                                                      (* $ *)
      match read_byte (discard 1 s0) with
      | (s1, Ok ch) =>
          match read_uint16 s1 with
          | (s2, Ok len) =>
              match read_bytes len s2 with
              | (s3, Ok p) => (note (upd_in w s3) (Delivered ch p), Ok tt)
              | (s3, Err e) => (upd_in w s3, Err e)
              | (s3, Panic) => (upd_in w s3, Panic)
              | (s3, Fuel) => (upd_in w s3, Fuel)
              end
          | (s2, Err e) => (upd_in w s2, Err e)
          | (s2, Panic) => (upd_in w s2, Panic)
          | (s2, Fuel) => (upd_in w s2, Fuel)
          end
      | (s1, Err e) => (upd_in w s1, Err e)
      | (s1, Panic) => (upd_in w s1, Panic)
      | (s1, Fuel) => (upd_in w s1, Fuel)
      end
  | (s0, Ok _) =>
      match unpack_response s0 with
      | (s1, Ok r) => handle_response (upd_in w s1) r
      | (s1, Err e) => (upd_in w s1, Err e)
      | (s1, Panic) => (upd_in w s1, Panic)
      | (s1, Fuel) => (upd_in w s1, Fuel)
      end
  | (s0, Err e) => (upd_in w s0, Err e)
  | (s0, Panic) => (upd_in w s0, Panic)
  | (s0, Fuel) => (upd_in w s0, Fuel)
  end.

(* connection.go:49-54  isTimeoutOrTemp *)
Definition is_timeout (e : goerr) : bool := match e with ErrTimeout => true | _ => false end.

(* session.go:197-208  one turn of the loop of process: does it go on?  done is nil: its case is never chosen. *)
Inductive turn_end := Again | Stop | Crash.
Definition turn (w : world) (t1 t2 : Z) : world * turn_end :=
  let recv w := match receive w with
                | (w, Ok _) => (w, Again)
                | (w, Err e) => (w, if is_timeout e then Again else Stop)
                | (w, Panic) | (w, Fuel) => (w, Crash)
                end in
  match keepalive w t1 t2 with
  | (w, Ok _) => recv w
  | (w, Err _) => if s_stage (w_s w) =? StageDone then (w, Stop) else recv w
  | (w, Panic) | (w, Fuel) => (w, Crash)
  end.

(* A history: commands of the application, and turns of the loop while it runs. *)
Inductive cmd := COptions | CDescribe | CSetup | CPlay | CPause | CTeardown | CKeepAlive (t1 t2 : Z).
Definition do_cmd (w : world) (c : cmd) : world * res unit :=
  match c with
  | COptions => options w | CDescribe => describe w | CSetup => setup w | CPlay => play w | CPause => pause w
  | CTeardown => teardown w | CKeepAlive t1 t2 => keepalive w t1 t2
  end.
Inductive event := App (c : cmd) | Turn (t1 t2 : Z).
Inductive life := Live | NoLoop | Dead.                                   (* loop running; loop ended; process crashed *)
Definition step (st : world * life) (e : event) : world * life :=
  let '(w, l) := st in
  match l, e with
  | Dead, _ => st
  | _, App c => match do_cmd w c with
                | (w', Ok _) | (w', Err _) => (w', l)
                | (w', Panic) | (w', Fuel) => (w', Dead)
                end
  | Live, Turn t1 t2 => match turn w t1 t2 with
                        | (w', Again) => (w', Live)
                        | (w', Stop) => (w', NoLoop)
                        | (w', Crash) => (w', Dead)
                        end
  | NoLoop, Turn _ _ => st
  end.
Definition run (st : world * life) (es : list event) : world * life := fold_left step es st.
