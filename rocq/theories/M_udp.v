(* Model of the UDP listeners: connection.go:178-233 AddSink, Start, Stop.

   Every goroutine of Start is at one of four points: at the receive from sink.done (206-209; the break leaves the select,
   not the loop), in ReadFromUDP, at the send on Data, or gone.  A socket holds the datagrams that came in and were not
   read.  Stop sends on the done channels one after the other; done is unbuffered, so that each send meets a goroutine at its
   receive.  Which enabled event comes next is left open.  Data has room for 20 packets (83); other senders are
   not modelled.  AddSink is modelled where it succeeds (a failing one changes nothing). *)
From Verif Require Import Base.

(* where a goroutine is *)
Inductive reader := Waiting | Reading | Sending (p : bytes) | Gone.
(* 33-38 udpsink, with the state of its socket and the goroutines started on it *)
Record listener := mkL { l_ch : Z; l_socket : list bytes; l_open : bool; l_readers : list reader }.
(* all listeners ever made; the indices of those in c.sinks; the listeners a running Stop has still to tell; the contents
   of Data; what the application took from it *)
Record udp := mkU { u_all : list listener; u_sinks : list nat; u_stop : option (list nat); u_data : list (Z * bytes); u_taken : list (Z * bytes) }.
Definition udp0 : udp := mkU [] [] None [] [].

Inductive uevent :=
| Add (ch : Z)                       (* AddSink succeeds *)
| StartAll                           (* Start *)
| StopBegin                          (* Stop is called *)
| StopTell (j : nat)                 (* Stop sends done to the next listener; its goroutine number j receives *)
| StopEnd                            (* Stop has told all *)
| Arrive (i : nat) (p : bytes)       (* a datagram for listener i *)
| ReadOne (i j : nat)                (* goroutine j of listener i reads a datagram *)
| ReadFail (i j : nat) (temp : bool) (* or an error *)
| Deliver (i j : nat)                (* or passes its packet to Data *)
| Take.                              (* the application receives from Data *)

Definition put_all (u : udp) (i : nat) (l : listener) : udp := mkU (upd (u_all u) i l) (u_sinks u) (u_stop u) (u_data u) (u_taken u).
Definition put_reader (l : listener) (j : nat) (r : reader) : listener := mkL (l_ch l) (l_socket l) (l_open l) (upd (l_readers l) j r).
(* 201-222  Start: one more goroutine for every listener of the list *)
Definition start_one (all : list listener) (i : nat) : list listener :=
  match nth_error all i with
  | Some l => upd all i (mkL (l_ch l) (l_socket l) (l_open l) (l_readers l ++ [Waiting]))
  | None => all
  end.

(* 204, 210  what ReadFromUDP leaves in a buffer of 2048 bytes *)
Definition into_buffer (p : bytes) : bytes := firstn 2048 p.

(* None: the event is not possible *)
Definition ustep (u : udp) (e : uevent) : option udp :=
  match e with
  | Add ch => Some (mkU (u_all u ++ [mkL ch [] true []]) (u_sinks u ++ [length (u_all u)]) (u_stop u) (u_data u) (u_taken u))
  | StartAll => Some (mkU (fold_left start_one (u_sinks u) (u_all u)) (u_sinks u) (u_stop u) (u_data u) (u_taken u))
  | StopBegin => match u_stop u with
                 | None => Some (mkU (u_all u) (u_sinks u) (Some (u_sinks u)) (u_data u) (u_taken u))
                 | Some _ => None
                 end
  | StopTell j =>                                                                     (* 206-209, 228-230 *)
      match u_stop u with
      | Some (i :: rest) =>
          match nth_error (u_all u) i with
          | Some l => match nth_error (l_readers l) j with
                      | Some Waiting => Some (mkU (upd (u_all u) i (put_reader l j Reading)) (u_sinks u) (Some rest) (u_data u) (u_taken u))
                      | _ => None
                      end
          | None => None
          end
      | _ => None
      end
  | StopEnd => match u_stop u with Some [] => Some (mkU (u_all u) [] None (u_data u) (u_taken u)) | _ => None end  (* 232 *)
  | Arrive i p =>
      match nth_error (u_all u) i with
      | Some l => if l_open l then Some (put_all u i (mkL (l_ch l) (l_socket l ++ [p]) true (l_readers l))) else None
      | None => None
      end
  | ReadOne i j =>                                                                    (* 210; the buffer has 2048 bytes *)
      match nth_error (u_all u) i with
      | Some l => match nth_error (l_readers l) j, l_socket l, l_open l with
                  | Some Reading, p :: rest, true =>
                      Some (put_all u i (put_reader (mkL (l_ch l) rest true (l_readers l)) j (Sending (into_buffer p))))
                  | _, _, _ => None
                  end
      | None => None
      end
  | ReadFail i j temp =>                                                              (* 215-219; nothing temporary on a closed socket *)
      match nth_error (u_all u) i with
      | Some l => match nth_error (l_readers l) j with
                  | Some Reading =>
                      if temp then (if l_open l then Some (put_all u i (put_reader l j Waiting)) else None)
                      else Some (put_all u i (put_reader (mkL (l_ch l) (l_socket l) false (l_readers l)) j Gone))
                  | _ => None
                  end
      | None => None
      end
  | Deliver i j =>                                                                    (* 212-214 *)
      match nth_error (u_all u) i with
      | Some l => match nth_error (l_readers l) j with
                  | Some (Sending p) =>
                      if zlen (u_data u) <? 20 then
                        Some (mkU (upd (u_all u) i (put_reader l j Waiting)) (u_sinks u) (u_stop u) (u_data u ++ [(l_ch l, p)]) (u_taken u))
                      else None
                  | _ => None
                  end
      | None => None
      end
  | Take => match u_data u with
            | x :: rest => Some (mkU (u_all u) (u_sinks u) (u_stop u) rest (u_taken u ++ [x]))
            | [] => None
            end
  end.
(* executions: sequences of possible events *)
Fixpoint urun (u : udp) (es : list uevent) : option udp :=
  match es with
  | [] => Some u
  | e :: rest => match ustep u e with Some u' => urun u' rest | None => None end
  end.
