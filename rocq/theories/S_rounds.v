(* Specification: answers that grant the streams over UDP, in the order in which they come (property C74). *)
From Coq Require Import String.
From Verif Require Import Base GoStrings M_conn M_message M_transport M_sdp M_sps M_session S_transport.

(* the answer to the request for stream j, the requests being numbered from n on; it grants the stream and names the ports *)
Definition grants (n : Z) (a : nat * transport) (r : response) : Prop :=
  let t := snd a in
  p_cseq r = n + Z.of_nat (fst a) /\ p_code r = 200 /\ header_get (p_header r) (bs "Transport") = transport_string t /\
  transport_ok t /\ t_tcp t = false /\ 0 < p_one (t_port t).
(* two listeners for each answer, with channels counted from 2n on *)
Fixpoint channels (n : Z) (answers : list (nat * transport)) : list (Z * Z) :=
  match answers with
  | [] => []
  | (_, t) :: r => (2 * n, p_one (t_port t)) :: (2 * n + 1, p_two (t_port t)) :: channels (n + 1) r
  end.
(* a stream asked for over UDP, with parameter sets that can be read *)
Definition over_udp (f : feed) : Prop := t_tcp (fd_transp f) = false /\ exists sets, parse_sprops (fd_sets f) (m_sprops (fd_media f)) = (sets, Ok tt).
