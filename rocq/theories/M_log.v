(* Model of what the client prints: the calls of package log in /repo/cmd/ouro/main.go and /repo/net/rtsp/session.go.

   The output goes to standard output (main.go:104).  One entry per call; the date and time in front of each are left out.
   [txt] gives the text of an error, whatever it is; [ord] the order in which the fields of a message are iterated.  A request that the
   HTTP transport cannot write is printed before the panic (session.go:103), which is left out: the client uses TCP (main.go:106).
   What runtime and package flag print on a panic or a wrong command line is left out. *)
From Coq Require Import String.
From Verif Require Import Base GoStrings M_rtp S_nal M_nal M_conn M_message M_transport M_session M_main.

(* package fmt, the verb %t *)
Definition bool_text (b : bool) : bytes := if b then bs "true" else bs "false".
(* package log, Output: a newline is added if there is none at the end *)
Definition entry (m : bytes) : bytes := if last m 0 =? 10 then m else m ++ [10].
(* package log, Println of one operand: Sprintln adds the newline *)
Definition println (m : bytes) : bytes := entry (m ++ [10]).

(* session.go:103, 245 (requests), 226 (responses) *)
Definition effect_prints (ord : header -> header) (e : effect) : list bytes :=
  match e with
  | Sent _ r => [println (pack_request r (ord (q_header r)))]
  | Got r => [println (pack_response r (ord (p_header r)))]
  | _ => []
  end.
Definition session_prints (ord : header -> header) (es : list effect) : list bytes := flat_map (effect_prints ord) es.

(* session.go:201-207  the error that ends the loop *)
Definition end_prints (txt : goerr -> bytes) (w : world) (t1 t2 : Z) : list bytes :=
  let recv w := match receive w with (_, Err e) => if is_timeout e then [] else [println (txt e)] | _ => [] end in
  match keepalive w t1 t2 with
  | (w, Ok _) => recv w
  | (w, Err _) => if s_stage (w_s w) =? StageDone then [] else recv w
  | _ => []
  end.

(* main.go:26-28, 31-33, 41-43  a command of the session, and log.Fatal *)
Definition must_prints (ord : header -> header) (txt : goerr -> bytes) (w : world) (r : world * res unit) : list bytes :=
  session_prints ord (news w (fst r)) ++ match snd r with Err e => [entry (txt e)] | _ => [] end.
(* main.go:24-36 *)
Definition tick_prints (ord : header -> header) (txt : goerr -> bytes) (w : world) (c : client) : list bytes :=
  entry (bs "Timer: stage=" ++ itoa (c_state c) ++ [10]) ::
  (if c_state c =? StagePlay then must_prints ord txt w (pause w)
   else if c_state c =? StagePause then println (bs "Stage: Closing") :: must_prints ord txt w (teardown w)
   else []).
(* main.go:37-55 *)
Definition stage_prints (ord : header -> header) (txt : goerr -> bytes) (w : world) (stage : Z) : list bytes :=
  if stage =? StageReady then println (bs "Stage: Ready") :: must_prints ord txt w (play w)
  else if stage =? StagePlay then [println (bs "Stage: Playing")]
  else if stage =? StagePause then [println (bs "Stage: Pausing")]
  else if stage =? StageDone then [println (bs "Stage: Done")]
  else [entry (bs "Stage: " ++ itoa stage ++ [10])].

(* main.go:65, 76, 91 *)
Definition rtp_line (ch : Z) (p : rtp_packet) : bytes :=
  entry (bs "RTP [" ++ itoa ch ++ bs "] PT=" ++ itoa (rtp_PT p) ++ bs ", CC=" ++ itoa (rtp_CC p) ++ bs ", M=" ++ bool_text (rtp_M p) ++
         bs ", SN=" ++ itoa (rtp_sn p) ++ crnl).
Definition unit_line (u : nal_unit) : bytes :=
  entry (bs "NAL Zero=" ++ bool_text (zero_bit u) ++ bs ", RefIdc=" ++ itoa (ref_idc u) ++ bs ", Type=" ++ itoa (unit_type u) ++
         bs ", Size=" ++ itoa (zlen (u_data u)) ++ crnl).
Definition rtcp_line (ch : Z) (p : rtcp_packet) : bytes :=
  entry (bs "RTCP [" ++ itoa ch ++ bs "] PT=" ++ itoa (rtcp_pt p) ++ bs ", LN=" ++ itoa (rtcp_ln p) ++ bs ", C=" ++ itoa (rtcp_C p) ++ crnl).
(* main.go:57-93 *)
Definition packet_prints (txt : goerr -> bytes) (c : client) (ch : Z) (payload : bytes) : list bytes :=
  if ch mod 2 =? 0 then
    match rtp_unpack payload with
    | Ok p => rtp_line ch p ::
        match push (c_sink c) (rtp_pl p) (rtp_ts p) with
        | (s, Ok _) => map unit_line (s_units s)
        | (_, Err e) => [println (txt e)]
        | _ => []
        end
    | Err e => [println (txt e)]
    | _ => []
    end
  else
    match rtcp_unpack payload with
    | Ok p => [rtcp_line ch p]
    | Err e => [println (txt e)]
    | _ => []
    end.

(* what is printed in a step of the whole program *)
Definition yprints (ord : header -> header) (txt : goerr -> bytes) (y : system) (e : yevent) : list bytes :=
  match e with
  | YTurn t1 t2 => session_prints ord (news (y_w y) (fst (turn (y_w y) t1 t2))) ++ end_prints txt (y_w y) t1 t2
  | YStage => match y_stage y with Some n => stage_prints ord txt (y_w y) n | None => [] end
  | YPacket => match y_data y with (ch, p) :: _ => packet_prints txt (y_c y) ch p | [] => [] end
  | YTick => tick_prints ord txt (y_w y) (y_c y)
  | YExpire => []
  end.
(* and in an execution, with the step each entry comes from *)
Fixpoint youtput (ord : header -> header) (txt : goerr -> bytes) (y : system) (es : list yevent) : list (yevent * bytes) :=
  match es with
  | [] => []
  | e :: rest => match ystep y e with Some y' => map (fun l => (e, l)) (yprints ord txt y e) ++ youtput ord txt y' rest | None => [] end
  end.
