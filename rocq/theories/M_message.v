(* Model of /repo/net/rtsp/message.go and http.go *)
From Coq Require Import String.
From Verif Require Import Base GoStrings M_conn.

(* message.go:12  a header map: association list with one entry per canonical key, in the order of iteration *)
Definition header := list (bytes * bytes).

Fixpoint map_set (h : header) (k v : bytes) : header :=
  match h with
  | [] => [(k, v)]
  | (k', v') :: r => if beq k k' then (k', v) :: r else (k', v') :: map_set r k v
  end.
Fixpoint map_get (h : header) (k : bytes) : option bytes :=
  match h with
  | [] => None
  | (k', v) :: r => if beq k k' then Some v else map_get r k
  end.
Definition map_del (h : header) (k : bytes) : header := filter (fun e => negb (beq k (fst e))) h.

(* message.go:48-50 Set, message.go:53-62 Get, message.go:65-67 Del *)
Definition header_set (h : header) (k v : bytes) : header := map_set h (canonical_key k) v.
Definition header_get (h : header) (k : bytes) : bytes := match map_get h (canonical_key k) with Some v => v | None => [] end.
Definition header_del (h : header) (k : bytes) : header := map_del h (canonical_key k).

(* message.go:18-25 *)
Record request := mkReq { q_verb : bytes; q_cseq : Z; q_uri : bytes; q_auth : bytes; q_session : bytes; q_header : header }.

Definition crnl : bytes := [13; 10].
Definition colsp : bytes := bs ": ".
Definition field_line (k v : bytes) : bytes := k ++ colsp ++ v ++ crnl.

(* message.go:70-109  Request.Pack.  [order] is the order in which the header map is iterated. *)
Definition pack_request (r : request) (order : header) : bytes :=
  q_verb r ++ bs " " ++ q_uri r ++ bs " RTSP/1.0" ++ crnl ++
  field_line (bs "CSeq") (itoa (q_cseq r)) ++
  flat_map (fun e => field_line (fst e) (snd e)) order ++
  (if negb (beq (q_session r) []) && negb (beq (q_verb r) (bs "OPTIONS")) && negb (beq (q_verb r) (bs "SETUP"))
   then field_line (bs "Session") (q_session r) else []) ++
  (if negb (beq (q_auth r) []) then field_line (bs "Authorization") (q_auth r) else []) ++
  field_line (bs "User-Agent") (bs "Ouro/1.0") ++
  field_line (bs "Content-Length") (bs "0") ++ crnl.

(* message.go:28-36; the protocol is always RTSP/1.0; a nil body is None *)
Record response := mkRsp { p_status : bytes; p_code : Z; p_length : Z; p_cseq : Z; p_header : header; p_body : option bytes }.

(* message.go:117-139 and http.go:55-72  the first line; proto is the protocol name required *)
Definition status_line (proto line : bytes) : res (bytes * Z) :=
  match cut 32 line with
  | None => Err ErrMalformedResponse
  | Some (p, rest) =>
      if negb (beq p proto) then Err ErrNotSupported
      else
        let status := trim_space rest in
        let code := match cut 32 status with Some (a, _) => a | None => status end in
        if negb (zlen code =? 3) then Err ErrInvalidStatus
        else match atoi code with
             | (n, None) => if n <? 0 then Err ErrInvalidStatus else Ok (status, n)
             | (_, Some _) => Err ErrInvalidStatus
             end
  end.

(* message.go:142-155  the header lines; every line consumes at least one element of the stream *)
Fixpoint header_lines (fuel : nat) (h : header) (s : stream) : stream * res header :=
  match fuel with
  | O => (s, Fuel)
  | S f =>
      match read_line s with
      | (s', Ok l) =>
          let line := trim_space l in
          if beq line [] then (s', Ok h)
          else match split2 58 line with
               | [k; v] => header_lines f (header_set h (trim_space k) (trim_space v)) s'
               | _ => (s', Err ErrMalformedResponse)
               end
      | (s', Err e) => (s', Err e)
      | (s', Panic) => (s', Panic)
      | (s', Fuel) => (s', Fuel)
      end
  end.

(* message.go:112-170  Unpack *)
Definition unpack_response (s : stream) : stream * res response :=
  match read_line s with
  | (s1, Ok line) =>
      match status_line (bs "RTSP/1.0") line with
      | Ok (status, code) =>
          match header_lines (S (length s1)) [] s1 with
          | (s2, Ok h) =>
              let cseq := fst (atoi (header_get h (bs "CSeq"))) in
              let len := match atoi (header_get h (bs "Content-Length")) with (n, None) => n | _ => 0 end in
              if len >? 0 then
                match read_bytes len s2 with
                | (s3, Ok b) => (s3, Ok (mkRsp status code len cseq h (Some b)))
                | (s3, Err e) => (s3, Err e)
                | (s3, Panic) => (s3, Panic)
                | (s3, Fuel) => (s3, Fuel)
                end
              else (s2, Ok (mkRsp status code len cseq h None))
          | (s2, Err e) => (s2, Err e)
          | (s2, Panic) => (s2, Panic)
          | (s2, Fuel) => (s2, Fuel)
          end
      | Err e => (s1, Err e)
      | Panic => (s1, Panic)
      | Fuel => (s1, Fuel)
      end
  | (s1, Err e) => (s1, Err e)
  | (s1, Panic) => (s1, Panic)
  | (s1, Fuel) => (s1, Fuel)
  end.

(* message.go:173-191  Response.Pack *)
Definition pack_response (r : response) (order : header) : bytes :=
  bs "RTSP/1.0" ++ bs " " ++ p_status r ++ crnl ++ flat_map (fun e => field_line (fst e) (snd e)) order ++ crnl ++
  (if p_length r >? 0 then match p_body r with Some b => b | None => [] end ++ crnl else []).

(* http.go:12-47  ConnectHTTP *)
Definition connect_http (verb uri cookie : bytes) : bytes :=
  verb ++ bs " " ++ uri ++ bs " HTTP/1.0" ++ crnl ++
  field_line (bs "X-SessionCookie") cookie ++
  field_line (bs "Accept") (bs "application/x-rtsp-tunnelled") ++
  field_line (bs "Pragma") (bs "no-cache") ++
  field_line (bs "Cache-Control") (bs "no-store") ++
  (if beq verb (bs "POST") then field_line (bs "Content-Length") (bs "32767") else []) ++
  field_line (bs "User-Agent") (bs "Ouro/1.0") ++ crnl.

(* http.go:76-89  the header lines of an HTTP response, discarded *)
Fixpoint http_lines (fuel : nat) (s : stream) : stream * res unit :=
  match fuel with
  | O => (s, Fuel)
  | S f =>
      match read_line s with
      | (s', Ok l) =>
          let line := trim_space l in
          if beq line [] then (s', Ok tt)
          else match split2 58 line with
               | [k; v] => http_lines f s'
               | _ => (s', Err ErrMalformedResponse)
               end
      | (s', Err e) => (s', Err e)
      | (s', Panic) => (s', Panic)
      | (s', Fuel) => (s', Fuel)
      end
  end.

(* http.go:50-92  ReceiveHTTP *)
Definition receive_http (s : stream) : stream * res unit :=
  match read_line s with
  | (s1, Ok line) =>
      match status_line (bs "HTTP/1.0") line with
      | Ok _ => http_lines (S (length s1)) s1
      | Err e => (s1, Err e)
      | Panic => (s1, Panic)
      | Fuel => (s1, Fuel)
      end
  | (s1, Err e) => (s1, Err e)
  | (s1, Panic) => (s1, Panic)
  | (s1, Fuel) => (s1, Fuel)
  end.
