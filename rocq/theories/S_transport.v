(* Specification: which parameters a Transport header carries (RFC 2326 12.39). *)
From Coq Require Import String.
From Verif Require Import Base M_transport.

(* a pair of channels or ports: non-negative, in int range *)
Definition pair_ok (p : pair) : Prop := 0 <= p_one p < 2 ^ 63 /\ 0 <= p_two p < 2 ^ 63.

(* text free of the separators of the header: ';' (59) between parameters and '/' (47) in the protocol *)
Definition text_ok (s : bytes) : Prop := ~ In 59 s /\ ~ In 47 s.

Definition transport_ok (t : transport) : Prop :=
  pair_ok (t_interleave t) /\ pair_ok (t_port t) /\ pair_ok (t_client_port t) /\ pair_ok (t_server_port t) /\
  - 2 ^ 63 <= t_layers t < 2 ^ 63 /\ - 2 ^ 63 <= t_ttl t < 2 ^ 63 /\
  text_ok (t_destination t) /\ text_ok (t_source t) /\ text_ok (t_ssrc t) /\ text_ok (t_mode t).

(* u receives from header text of t every parameter present in it, and keeps its own otherwise *)
Definition or_text (a b : bytes) : bytes := match a with [] => b | _ => a end.
Definition or_pair (a b : pair) : pair := if p_one a >? 0 then a else b.
Definition received (u t : transport) : transport :=
  mkTr (t_tcp t || t_tcp u)
       (if t_interleaved t then false else if t_tcp t then t_multicast u else t_multicast t)
       (t_interleaved u)                                                  (* never set by Parse *)
       (t_append t || t_append u)
       (if t_interleaved t then t_interleave t else t_interleave u)
       (or_pair (t_port t) (t_port u)) (or_pair (t_client_port t) (t_client_port u))
       (or_pair (t_server_port t) (t_server_port u))
       (if t_layers t >? 0 then t_layers t else t_layers u)
       (if t_multicast t && (t_ttl t >? 0) then t_ttl t else t_ttl u)
       (or_text (t_destination t) (t_destination u)) (or_text (t_source t) (t_source u)) (or_text (t_ssrc t) (t_ssrc u))
       (if beq (t_mode t) (bs "PLAY") then t_mode u else or_text (t_mode t) (t_mode u)).

(* the channels or ports a transport offers for receiving *)
Definition offered (t : transport) : pair :=
  if t_interleaved t then t_interleave t else if t_multicast t then t_port t else t_client_port t.
Definition disjoint (a b : pair) : Prop :=
  p_one a <> p_one b /\ p_one a <> p_two b /\ p_two a <> p_one b /\ p_two a <> p_two b.
