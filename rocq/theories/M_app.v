(* Model of a session and the channels between it and whatever application uses it (session.go, connection.go).

   State is a channel without room (session.go:38): the session's loop stands still from a change of stage until the stage is taken.
   Data has room for 20 packets (connection.go:83): the loop stands still while a 21st is at hand.  Commands are the application's own
   calls; they run at once, whether the loop stands still or not.  (Listeners for UDP are in M_udp.v.) *)
From Verif Require Import Base M_conn M_message M_session M_main.

(* the session and its loop; the stage that waits to be taken; the packets that wait, the one at hand included; what has been taken *)
Record hub := mkHub { u_w : world; u_loop : life; u_stage : option Z; u_data : list (Z * bytes); u_stages : list Z; u_packets : list (Z * bytes) }.

Inductive uevent :=
| UTurn (t1 t2 : Z)                  (* the session's loop takes a turn *)
| UDo (c : cmd)                      (* the application issues a command *)
| UStage                             (* it takes a stage *)
| UPacket.                           (* it takes a packet *)

(* session.go:178-228; None: the event is not possible (now) *)
Definition ustep (u : hub) (e : uevent) : option hub :=
  match e with
  | UTurn t1 t2 =>
      match u_loop u, u_stage u with
      | Live, None =>
          if zlen (u_data u) <=? 20 then
            let '(w, en) := turn (u_w u) t1 t2 in
            Some (mkHub w (match en with Again => Live | Stop => NoLoop | Crash => Dead end) (hd_error (stages_in (news (u_w u) w)))
                        (u_data u ++ packets_in (news (u_w u) w)) (u_stages u) (u_packets u))
          else None
      | _, _ => None
      end
  | UDo c =>
      match u_loop u with
      | Dead => None
      | l => match do_cmd (u_w u) c with
             | (w, Ok _) | (w, Err _) => Some (mkHub w l (u_stage u) (u_data u) (u_stages u) (u_packets u))
             | (w, _) => Some (mkHub w Dead (u_stage u) (u_data u) (u_stages u) (u_packets u))
             end
      end
  | UStage => match u_stage u with Some n => Some (mkHub (u_w u) (u_loop u) None (u_data u) (u_stages u ++ [n]) (u_packets u)) | None => None end
  | UPacket => match u_data u with p :: r => Some (mkHub (u_w u) (u_loop u) (u_stage u) r (u_stages u) (u_packets u ++ [p])) | [] => None end
  end.
Fixpoint urun (u : hub) (es : list uevent) : option hub :=
  match es with
  | [] => Some u
  | e :: rest => match ustep u e with Some u' => urun u' rest | None => None end
  end.
(* nothing waits and nothing has been taken *)
Definition fresh_hub (w : world) : hub := mkHub w Live None [] [] [].
