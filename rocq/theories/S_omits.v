(* Specification: the parameters of a Transport field, RFC 2326 12.39. *)
From Coq Require Import String.
From Verif Require Import Base GoStrings M_transport.

(* the name of a parameter is what is before the equals sign; case does not matter *)
Definition param_name (f : bytes) : bytes := to_lower (match cut 61 f with Some (a, _) => a | None => f end).
Definition omits (k : string) (fields : list bytes) : Prop := Forall (fun f => param_name f <> bs k) fields.
(* t is as u but for the parameters that P does not hold of *)
Definition keeps (u t : transport) (P : string -> Prop) : Prop :=
  (P "unicast"%string -> P "multicast"%string -> P "interleaved"%string -> t_multicast t = t_multicast u) /\
  (P "interleaved"%string -> t_interleave t = t_interleave u) /\ (P "append"%string -> t_append t = t_append u) /\
  (P "port"%string -> t_port t = t_port u) /\ (P "client_port"%string -> t_client_port t = t_client_port u) /\ (P "server_port"%string -> t_server_port t = t_server_port u) /\
  (P "layers"%string -> t_layers t = t_layers u) /\ (P "ttl"%string -> t_ttl t = t_ttl u) /\ (P "destination"%string -> t_destination t = t_destination u) /\
  (P "source"%string -> t_source t = t_source u) /\ (P "ssrc"%string -> t_ssrc t = t_ssrc u) /\ (P "mode"%string -> t_mode t = t_mode u) /\ t_interleaved t = t_interleaved u.
