(* connection.go:178-197  AddSink: the local address of the UDP listeners.
   An IPv4 address is the list of its four numbers.  net.ResolveIPAddr of a literal address asks no name server: it is read as
   four decimal numbers between dots.  The IPv6 forms and names are left out; AddSink uses neither. *)
From Coq Require Import String.
From Verif Require Import Base GoStrings M_session.

Definition ip : Type := list Z.
Definition octet (s : bytes) : option Z :=
  match atoi s with (v, None) => if (0 <=? v) && (v <=? 255) then Some v else None | _ => None end.
Definition resolve_ip (s : bytes) : option ip :=
  match map octet (split_on 46 s) with
  | [Some a; Some b; Some c; Some d] => Some [a; b; c; d]
  | _ => None
  end.

(* connection.go:179-184  c.addr, resolved once and kept *)
Definition local_addr (addr : option ip) : option ip :=
  match addr with None => resolve_ip (bs "127.0.0.1") | Some _ => addr end.

(* connection.go:186-195  the sockets behind the listeners of a session: local address, port, channel *)
Record socket := mkSock { so_ip : ip; so_port : Z; so_ch : Z }.
Fixpoint sockets (addr : option ip) (log : list effect) : list socket :=
  match log with
  | [] => []
  | Listening ch port :: r =>
      match local_addr addr with
      | Some a => mkSock a port ch :: sockets (Some a) r
      | None => sockets None r                                            (* the error of connection.go:182 *)
      end
  | _ :: r => sockets addr r
  end.
