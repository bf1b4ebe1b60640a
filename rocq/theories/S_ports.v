(* Specification: what the SETUP requests of a session ask for. *)
From Coq Require Import String.
From Verif Require Import Base GoStrings S_message M_message M_transport M_session.

(* the Transport fields of the SETUP requests sent, in order *)
Definition asks (log : list effect) : list bytes :=
  flat_map (fun e => match e with Sent _ rq => if beq (q_verb rq) (bs "SETUP") then [header_get (q_header rq) (bs "Transport")] else [] | _ => [] end) log.

(* the ports, or channels, named for stream number i of a session *)
Definition request_text (proto i : Z) : bytes :=
  if proto =? ProtoTCP then bs "RTP/AVP/TCP;interleaved=" ++ itoa (2 * i) ++ bs "-" ++ itoa (2 * i + 1)
  else if proto =? ProtoUnicast then bs "RTP/AVP;unicast;client_port=" ++ itoa (50000 + 2 * i) ++ bs "-" ++ itoa (50001 + 2 * i)
  else bs "RTP/AVP;multicast;port=" ++ itoa (50000 + 2 * i) ++ bs "-" ++ itoa (50001 + 2 * i).

(* the session has sent DESCRIBE and r, with this body, is its answer *)
Definition described (w : world) (r : response) (body : bytes) : Prop :=
  s_conn (w_s w) = true /\ p_code r <> 401 /\ p_body r = Some body /\
  exists rq, qget (s_queue (w_s w)) (p_cseq r) = Some rq /\ q_verb rq = bs "DESCRIBE".

(* ---- which datagrams a socket gets: those for its port, and for its address, or for any if it is bound to none ---- *)
Definition any_ip : list Z := [0; 0; 0; 0].
Definition loopback : list Z := [127; 0; 0; 1].
Definition reaches (bound : list Z * Z) (to : list Z * Z) : Prop := (fst bound = fst to \/ fst bound = any_ip) /\ snd bound = snd to.
