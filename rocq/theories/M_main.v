(* Model of /repo/cmd/ouro/main.go: the command-line client.

   handleStates is a loop around a select of three channels; each turn takes one thing from one of them.  Logging is in
   M_log.v (it reads only fields of values at hand).  The timer is the one of Go before 1.23 (go.mod names no version): an expiry
   puts a tick in a channel of capacity one, and Reset does not take it out.
   A system is the client, its session and what is under way between them: State has no room, so that the session's loop
   stands still until the stage is taken; Data has room for 20 packets (connection.go:83). *)
From Coq Require Import String.
From Verif Require Import Base GoStrings M_rtp S_nal M_nal M_conn M_message M_transport M_session.

(* main.go:17-20  the variables of handleStates: state, nalsink, and tmr (does it run? is there a tick in its channel?) *)
Record client := mkC { c_state : Z; c_sink : sink; c_running : bool; c_ticked : bool }.
Definition client0 : client := mkC StageInit new_sink false false.

(* how a turn ends: the loop goes on; handleStates returns, and main with it; log.Fatal; panic *)
Inductive fate := Goes | Returns | Fatals | Crashes.

(* a command of the session whose error is fatal *)
Definition must (r : world * res unit) (c : client) : world * client * fate :=
  match r with
  | (w, Ok _) => (w, c, Goes)
  | (w, Err _) => (w, c, Fatals)
  | (w, _) => (w, c, Crashes)
  end.

(* main.go:23-36 *)
Definition on_tick (w : world) (c : client) : world * client * fate :=
  if c_state c =? StagePlay then must (pause w) c
  else if c_state c =? StagePause then must (teardown w) c
  else if c_state c =? StageDone then (w, c, Returns)
  else (w, c, Goes).

(* main.go:37-55; tmr.Reset starts the timer *)
Definition on_stage (w : world) (c : client) (stage : Z) : world * client * fate :=
  let c := mkC stage (c_sink c) (c_running c) (c_ticked c) in
  if stage =? StageReady then must (play w) c
  else if (stage =? StagePlay) || (stage =? StagePause) || (stage =? StageDone) then (w, mkC stage (c_sink c) true (c_ticked c), Goes)
  else (w, c, Goes).

(* main.go:56-94.  PL is a slice of the packet and never nil, even if empty. *)
Definition on_packet (c : client) (ch : Z) (payload : bytes) : client * fate :=
  if ch mod 2 =? 0 then
    match rtp_unpack payload with
    | Ok p =>
        match push (c_sink c) (rtp_pl p) (rtp_ts p) with
        | (s, Ok _) => (mkC (c_state c) s (c_running c) (c_ticked c), Goes)
        | (s, Err _) => (mkC (c_state c) s (c_running c) (c_ticked c), Returns)
        | (s, _) => (mkC (c_state c) s (c_running c) (c_ticked c), Crashes)
        end
    | Err _ => (c, Returns)
    | _ => (c, Crashes)
    end
  else
    match rtcp_unpack payload with
    | Ok _ => (c, Goes)
    | Err _ => (c, Returns)
    | _ => (c, Crashes)
    end.

(* the whole program *)
Record system := mkY { y_w : world; y_loop : life; y_c : client; y_stage : option Z; y_data : list (Z * bytes); y_fate : fate }.

(* what a turn of the loop sent on the channels *)
Definition news (w w' : world) : list effect := skipn (length (w_log w)) (w_log w').
Definition stages_in (es : list effect) : list Z := flat_map (fun e => match e with Notified n => [n] | _ => [] end) es.
Definition packets_in (es : list effect) : list (Z * bytes) := flat_map (fun e => match e with Delivered ch p => [(ch, p)] | _ => [] end) es.

Inductive yevent :=
| YTurn (t1 t2 : Z)                  (* the session's loop takes a turn *)
| YStage                             (* the client takes a stage *)
| YPacket                            (* or a packet *)
| YTick                              (* or a tick *)
| YExpire.                           (* the timer expires *)

(* None: the event is not possible *)
Definition ystep (y : system) (e : yevent) : option system :=
  match y_fate y, e with
  | Goes, YTurn t1 t2 =>
      match y_loop y, y_stage y with
      | Live, None =>
          if zlen (y_data y) <=? 20 then
            let '(w, en) := turn (y_w y) t1 t2 in
            let l := match en with Again => Live | Stop => NoLoop | Crash => Dead end in
            Some (mkY w l (y_c y) (hd_error (stages_in (news (y_w y) w))) (y_data y ++ packets_in (news (y_w y) w))
                      (match en with Crash => Crashes | _ => Goes end))
          else None
      | _, _ => None
      end
  | Goes, YStage =>
      match y_stage y with
      | Some n => let '(w, c, f) := on_stage (y_w y) (y_c y) n in Some (mkY w (y_loop y) c None (y_data y) f)
      | None => None
      end
  | Goes, YPacket =>
      match y_data y with
      | (ch, p) :: rest => let '(c, f) := on_packet (y_c y) ch p in Some (mkY (y_w y) (y_loop y) c (y_stage y) rest f)
      | [] => None
      end
  | Goes, YTick =>
      if c_ticked (y_c y) then
        let c := y_c y in
        let '(w, c, f) := on_tick (y_w y) (mkC (c_state c) (c_sink c) (c_running c) false) in Some (mkY w (y_loop y) c (y_stage y) (y_data y) f)
      else None
  | Goes, YExpire =>
      let c := y_c y in
      if c_running c then Some (mkY (y_w y) (y_loop y) (mkC (c_state c) (c_sink c) false true) (y_stage y) (y_data y) Goes) else None
  | _, _ => None
  end.
Fixpoint yrun (y : system) (es : list yevent) : option system :=
  match es with
  | [] => Some y
  | e :: rest => match ystep y e with Some y' => yrun y' rest | None => None end
  end.

(* main.go:97-111, session.go:46-54  main after Dial: Open sends OPTIONS; an error of it is fatal *)
Definition launch (w : world) : system :=
  let '(w, r) := options w in
  mkY w Live client0 None [] (match r with Ok _ => Goes | Err _ => Fatals | _ => Crashes end).
