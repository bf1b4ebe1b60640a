(* Specification: what the user of the UDP listeners should see. *)
From Verif Require Import Base M_udp.

(* packets that came out of Data or are in it *)
Definition delivered (u : udp) : list (Z * bytes) := u_taken u ++ u_data u.
(* how often a goroutine was told to stop *)
Definition told (es : list uevent) : nat := length (filter (fun e => match e with StopTell _ => true | _ => false end) es).
(* the channel of the i-th listener *)
Definition channels (es : list uevent) : list Z := flat_map (fun e => match e with Add ch => [ch] | _ => [] end) es.
Definition is_stop (e : uevent) : bool := match e with StopBegin => true | _ => false end.
Definition is_start (e : uevent) : bool := match e with StartAll => true | _ => false end.
Definition is_failure (e : uevent) : bool := match e with ReadFail _ _ false => true | _ => false end.
Definition first_2048 (p : bytes) : bytes := firstn (Z.to_nat 2048) p.
(* everything sent to the listeners, with the channel of the listener; a packet is cut at the size of the read buffer *)
Definition offered (chs : list Z) (es : list uevent) : list (Z * bytes) :=
  flat_map (fun e => match e with Arrive i p => [(nth i chs 0, first_2048 p)] | _ => [] end) es.
(* read by a goroutine and not yet passed on, or not read *)
Definition in_hand (l : listener) : list bytes := flat_map (fun r => match r with Sending p => [p] | _ => [] end) (l_readers l).
Definition held (l : listener) : list (Z * bytes) := map (pair (l_ch l)) (in_hand l ++ map first_2048 (l_socket l)).
