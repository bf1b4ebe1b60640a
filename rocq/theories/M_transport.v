(* Model of /repo/net/rtsp/transport.go and the transport part of /repo/net/rtsp/feed.go *)
From Coq Require Import String.
From Verif Require Import Base GoStrings.

(* transport.go:26-29  Pair *)
Record pair := mkPair { p_one : Z; p_two : Z }.

(* transport.go:32-47  Transport *)
Record transport := mkTr {
  t_tcp : bool; t_multicast : bool; t_interleaved : bool; t_append : bool;
  t_interleave : pair; t_port : pair; t_client_port : pair; t_server_port : pair;
  t_layers : Z; t_ttl : Z; t_destination : bytes; t_source : bytes; t_ssrc : bytes; t_mode : bytes }.

Definition pair0 : pair := mkPair 0 0.
(* Transport{} *)
Definition transport0 : transport :=
  mkTr false false false false pair0 pair0 pair0 pair0 0 0 [] [] [] [].

(* definitions.go:34-43  protocols *)
Definition ProtoTCP := 0. Definition ProtoUnicast := 1. Definition ProtoMulticast := 2. Definition ProtoHTTP := 3.

(* transport.go:76-95  NewTransport; firstUDPPort = 50000 (transport.go:21), never assigned *)
Definition new_transport (proto port : Z) : transport :=
  let t := mkTr false false false false pair0 pair0 pair0 pair0 0 0 [] [] [] (bs "PLAY") in
  if (proto =? ProtoTCP) || (proto =? ProtoHTTP) then
    mkTr true false true false (mkPair port (i64 (port + 1))) pair0 pair0 pair0 0 0 [] [] [] (bs "PLAY")
  else if proto =? ProtoUnicast then
    let port := i64 (50000 + port) in
    mkTr false false false false pair0 pair0 (mkPair port (i64 (port + 1))) pair0 0 0 [] [] [] (bs "PLAY")
  else if proto =? ProtoMulticast then
    let port := i64 (50000 + port) in
    mkTr false true false false pair0 (mkPair port (i64 (port + 1))) pair0 pair0 0 0 [] [] [] (bs "PLAY")
  else t.

(* transport.go:258-260  Pair.String *)
Definition pair_string (p : pair) : bytes := itoa (p_one p) ++ bs "-" ++ itoa (p_two p).

(* transport.go:98-156  Transport.String *)
Definition transport_string (t : transport) : bytes :=
  bs "RTP/AVP"
  ++ (if t_tcp t then bs "/TCP" else if t_multicast t then bs ";multicast" else bs ";unicast")
  ++ (if beq (t_destination t) [] then [] else bs ";destination=" ++ t_destination t)
  ++ (if beq (t_source t) [] then [] else bs ";source=" ++ t_source t)
  ++ (if t_interleaved t then bs ";interleaved=" ++ pair_string (t_interleave t) else [])
  ++ (if t_append t then bs ";append" else [])
  ++ (if p_one (t_port t) >? 0 then bs ";port=" ++ pair_string (t_port t) else [])
  ++ (if p_one (t_client_port t) >? 0 then bs ";client_port=" ++ pair_string (t_client_port t) else [])
  ++ (if p_one (t_server_port t) >? 0 then bs ";server_port=" ++ pair_string (t_server_port t) else [])
  ++ (if t_multicast t && (t_ttl t >? 0) then bs ";ttl=" ++ itoa (t_ttl t) else [])
  ++ (if t_layers t >? 0 then bs ";layers=" ++ itoa (t_layers t) else [])
  ++ (if beq (t_ssrc t) [] then [] else bs ";ssrc=" ++ t_ssrc t)
  ++ (if negb (beq (t_mode t) []) && negb (beq (t_mode t) (bs "PLAY")) then bs ";mode=" ++ t_mode t else []).

(* transport.go:245-255  ParsePair; the value is returned even with an error *)
Definition parse_pair (val : bytes) : pair * option goerr :=
  match split_on 45 val with
  | [] => (pair0, Some ErrAtoiSyntax)                  (* unreachable: Split yields at least one part *)
  | a :: rest =>
      let '(one, err) := atoi a in
      match err, rest with
      | None, b :: _ =>
          let '(two, err2) := atoi b in
          match err2 with
          | None => (mkPair one two, None)
          | Some e => (mkPair one (i64 (one + 1)), Some e)
          end
      | _, _ => (mkPair one 0, err)
      end
  end.

(* field updates of *t *)
Definition set_tcp (t : transport) b := mkTr b (t_multicast t) (t_interleaved t) (t_append t) (t_interleave t) (t_port t) (t_client_port t) (t_server_port t) (t_layers t) (t_ttl t) (t_destination t) (t_source t) (t_ssrc t) (t_mode t).
Definition set_multicast (t : transport) b := mkTr (t_tcp t) b (t_interleaved t) (t_append t) (t_interleave t) (t_port t) (t_client_port t) (t_server_port t) (t_layers t) (t_ttl t) (t_destination t) (t_source t) (t_ssrc t) (t_mode t).
Definition set_append (t : transport) b := mkTr (t_tcp t) (t_multicast t) (t_interleaved t) b (t_interleave t) (t_port t) (t_client_port t) (t_server_port t) (t_layers t) (t_ttl t) (t_destination t) (t_source t) (t_ssrc t) (t_mode t).
Definition set_interleave (t : transport) p := mkTr (t_tcp t) (t_multicast t) (t_interleaved t) (t_append t) p (t_port t) (t_client_port t) (t_server_port t) (t_layers t) (t_ttl t) (t_destination t) (t_source t) (t_ssrc t) (t_mode t).
Definition set_port (t : transport) p := mkTr (t_tcp t) (t_multicast t) (t_interleaved t) (t_append t) (t_interleave t) p (t_client_port t) (t_server_port t) (t_layers t) (t_ttl t) (t_destination t) (t_source t) (t_ssrc t) (t_mode t).
Definition set_client_port (t : transport) p := mkTr (t_tcp t) (t_multicast t) (t_interleaved t) (t_append t) (t_interleave t) (t_port t) p (t_server_port t) (t_layers t) (t_ttl t) (t_destination t) (t_source t) (t_ssrc t) (t_mode t).
Definition set_server_port (t : transport) p := mkTr (t_tcp t) (t_multicast t) (t_interleaved t) (t_append t) (t_interleave t) (t_port t) (t_client_port t) p (t_layers t) (t_ttl t) (t_destination t) (t_source t) (t_ssrc t) (t_mode t).
Definition set_layers (t : transport) n := mkTr (t_tcp t) (t_multicast t) (t_interleaved t) (t_append t) (t_interleave t) (t_port t) (t_client_port t) (t_server_port t) n (t_ttl t) (t_destination t) (t_source t) (t_ssrc t) (t_mode t).
Definition set_ttl (t : transport) n := mkTr (t_tcp t) (t_multicast t) (t_interleaved t) (t_append t) (t_interleave t) (t_port t) (t_client_port t) (t_server_port t) (t_layers t) n (t_destination t) (t_source t) (t_ssrc t) (t_mode t).
Definition set_destination (t : transport) s := mkTr (t_tcp t) (t_multicast t) (t_interleaved t) (t_append t) (t_interleave t) (t_port t) (t_client_port t) (t_server_port t) (t_layers t) (t_ttl t) s (t_source t) (t_ssrc t) (t_mode t).
Definition set_source (t : transport) s := mkTr (t_tcp t) (t_multicast t) (t_interleaved t) (t_append t) (t_interleave t) (t_port t) (t_client_port t) (t_server_port t) (t_layers t) (t_ttl t) (t_destination t) s (t_ssrc t) (t_mode t).
Definition set_ssrc (t : transport) s := mkTr (t_tcp t) (t_multicast t) (t_interleaved t) (t_append t) (t_interleave t) (t_port t) (t_client_port t) (t_server_port t) (t_layers t) (t_ttl t) (t_destination t) (t_source t) s (t_mode t).
Definition set_mode (t : transport) s := mkTr (t_tcp t) (t_multicast t) (t_interleaved t) (t_append t) (t_interleave t) (t_port t) (t_client_port t) (t_server_port t) (t_layers t) (t_ttl t) (t_destination t) (t_source t) (t_ssrc t) s.

(* transport.go:162-239  one iteration of the loop of Parse *)
Definition parse_field (t : transport) (field : bytes) : transport * option goerr :=
  let t := match split_on 47 field with
           | [_; _; c] => set_tcp t (beq (to_upper c) (bs "TCP"))
           | _ => t
           end in
  let keyval := split2 61 field in
  let key := to_lower (hd [] keyval) in
  let with_val (f : bytes -> transport * option goerr) :=
    match keyval with _ :: v :: _ => f v | _ => (t, Some ErrMalformedTransport) end in
  if beq key (bs "unicast") then (set_multicast t false, None)
  else if beq key (bs "multicast") then (set_multicast t true, None)
  else if beq key (bs "destination") then with_val (fun v => (set_destination t v, None))
  else if beq key (bs "source") then with_val (fun v => (set_source t v, None))
  else if beq key (bs "interleaved") then
    let t := set_multicast t false in
    match keyval with
    | _ :: v :: _ => let '(p, e) := parse_pair v in (set_interleave t p, e)
    | _ => (t, Some ErrMalformedTransport)
    end
  else if beq key (bs "append") then (set_append t true, None)
  else if beq key (bs "layers") then with_val (fun v => let '(n, e) := atoi v in (set_layers t n, e))
  else if beq key (bs "ttl") then with_val (fun v => let '(n, e) := atoi v in (set_ttl t n, e))
  else if beq key (bs "port") then with_val (fun v => let '(p, e) := parse_pair v in (set_port t p, e))
  else if beq key (bs "client_port") then with_val (fun v => let '(p, e) := parse_pair v in (set_client_port t p, e))
  else if beq key (bs "server_port") then with_val (fun v => let '(p, e) := parse_pair v in (set_server_port t p, e))
  else if beq key (bs "ssrc") then with_val (fun v => (set_ssrc t v, None))
  else if beq key (bs "mode") then with_val (fun v => (set_mode t v, None))
  else (t, None).

(* transport.go:159-242  Parse: *t afterwards and the error *)
Fixpoint parse_fields (t : transport) (fields : list bytes) : transport * option goerr :=
  match fields with
  | [] => (t, None)
  | f :: r => match parse_field t f with
              | (t', None) => parse_fields t' r
              | (t', Some e) => (t', Some e)
              end
  end.
Definition transport_parse (t : transport) (value : bytes) : transport * option goerr :=
  parse_fields t (split_on 59 value).

(* feed.go:21-26  ParseFeeds: the transports of n feeds *)
Definition feed_transports (proto : Z) (n : nat) : list transport :=
  map (fun i => new_transport proto (Z.of_nat i * 2)) (seq 0 n).
