(* Properties C52-C54, C68: messages. *)
From Coq Require Import String Permutation.
From Verif Require Import Base GoStrings M_conn S_message M_message L_base L_strings L_message.

(* C52  over names that are tokens (RFC 7230), the header map is a map over the case-folded names *)
Theorem C52_headers : forall (ops : list hop) (k : bytes),
  token k -> Forall (fun o => token (hop_name o)) ops ->
  header_get (fold_left (fun h o => match o with HSet k v => header_set h k v | HDel k => header_del h k end) ops []) k = spec_get ops k.
Proof. intros ops k T F. exact (header_run_get ops [] k T F). Qed.
Print Assumptions C52_headers.

(* and holds one entry per name *)
Theorem C52_headers_unique : forall (ops : list hop),
  NoDup (map fst (fold_left (fun h o => match o with HSet k v => header_set h k v | HDel k => header_del h k end) ops [])).
Proof. exact header_run_unique. Qed.
Print Assumptions C52_headers_unique.

(* a name that is not a token is compared as it is written *)
Theorem C52_headers_raw_case : exists (k k' v : bytes),
  same_name k k' = true /\ spec_get [HSet k v] k' = v /\ v <> [] /\ header_get (header_set [] k v) k' = [].
Proof. exists (bs "X Y"), (bs "x y"), (bs "1"). vm_compute. repeat split; discriminate. Qed.
Print Assumptions C52_headers_raw_case.

Theorem C52_headers_raw : forall (h : header) (k v k' : bytes), forallb token_byte k = false -> forallb token_byte k' = false ->
  header_get (header_set h k v) k' = if beq k' k then v else header_get h k'.
Proof. exact header_set_raw. Qed.
Print Assumptions C52_headers_raw.

Example C52_example :
  header_get (header_del (header_set (header_set [] (bs "content-LENGTH") (bs "12")) (bs "cseq") (bs "3")) (bs "CSEQ")) (bs "Content-Length") = bs "12" /\
  spec_get [HSet (bs "content-LENGTH") (bs "12"); HSet (bs "cseq") (bs "3"); HDel (bs "CSEQ")] (bs "CSeq") = [].
Proof. vm_compute. split; reflexivity. Qed.

(* C53  a packed request reads back as its parts, with nothing after the blank line *)
Theorem C53_request : forall (r : request) (order : header),
  Permutation (q_header r) order ->
  line_text (q_verb r) -> line_text (q_uri r) -> line_text (q_session r) -> line_text (q_auth r) -> Forall field_ok (q_header r) ->
  exists middle,
    read_message (pack_request r order) = Some (q_verb r ++ bs " " ++ q_uri r ++ bs " RTSP/1.0", (bs "CSeq", itoa (q_cseq r)) :: middle, []) /\
    Permutation middle
      (q_header r ++
       (if beq (q_session r) [] || beq (q_verb r) (bs "OPTIONS") || beq (q_verb r) (bs "SETUP") then [] else [(bs "Session", q_session r)]) ++
       (if beq (q_auth r) [] then [] else [(bs "Authorization", q_auth r)]) ++
       [(bs "User-Agent", bs "Ouro/1.0"); (bs "Content-Length", bs "0")]).
Proof. exact pack_request_read. Qed.
Print Assumptions C53_request.

(* no field name appears twice, in any spelling, when the given headers are distinct and use none of the names the library adds *)
Theorem C53_request_once : forall (r : request) (order : header) first fields rest,
  Permutation (q_header r) order ->
  line_text (q_verb r) -> line_text (q_uri r) -> line_text (q_session r) -> line_text (q_auth r) -> Forall field_ok (q_header r) ->
  NoDup (map (fun e => map lower1 (fst e)) (q_header r)) ->
  (forall k, In k (map fst (q_header r)) ->
     Forall (fun k' => same_name k k' = false) [bs "CSeq"; bs "Session"; bs "Authorization"; bs "User-Agent"; bs "Content-Length"]) ->
  read_message (pack_request r order) = Some (first, fields, rest) ->
  NoDup (map (fun e => map lower1 (fst e)) fields).
Proof. exact pack_request_once. Qed.
Print Assumptions C53_request_once.

Example C53_example :
  let r := mkReq (bs "PLAY") 4 (bs "rtsp://h/s") (bs "Basic eA==") (bs "77") [(bs "Range", bs "npt=0-"); (bs "Scale", bs "1")] in
  read_message (pack_request r [(bs "Scale", bs "1"); (bs "Range", bs "npt=0-")]) =
  Some (bs "PLAY rtsp://h/s RTSP/1.0",
        [(bs "CSeq", bs "4"); (bs "Scale", bs "1"); (bs "Range", bs "npt=0-"); (bs "Session", bs "77"); (bs "Authorization", bs "Basic eA==");
         (bs "User-Agent", bs "Ouro/1.0"); (bs "Content-Length", bs "0")], []).
Proof. vm_compute. reflexivity. Qed.

(* C54  a well-formed response is read exactly, whatever follows it *)
Theorem C54_response : forall (code : Z) (reason : bytes) (fields : list sfield) (body : bytes) (rest : stream),
  100 <= code <= 999 -> line_text reason -> Forall sfield_ok fields -> content_ok fields body -> zlen body <= 2048 ->
  exists r,
    unpack_response (map Some (response_text (bs "RTSP/1.0") code reason fields body) ++ rest) = (rest, Ok r) /\
    p_code r = code /\
    p_body r = (match body with [] => None | _ => Some body end) /\
    (forall k, token k -> header_get (p_header r) k = field_value fields k) /\
    (forall n, 0 <= n < 2 ^ 63 -> field_value fields (bs "CSeq") = itoa n -> p_cseq r = n).
Proof. exact unpack_response_spec. Qed.
Print Assumptions C54_response.

Example C54_example :
  let text := bs "RTSP/1.0 200 OK" ++ [13; 10] ++ bs "cseq: 7" ++ [13; 10] ++ bs "Content-length:3" ++ [13; 10] ++ [13; 10] ++ bs "v=0" in
  text = response_text (bs "RTSP/1.0") 200 (bs "OK") [mkField (bs "cseq") [32] (bs "7"); mkField (bs "Content-length") [] (bs "3")] (bs "v=0") /\
  unpack_response (map Some (text ++ bs "$next")) =
  (map Some (bs "$next"), Ok (mkRsp (bs "200 OK") 200 3 7 [(bs "Cseq", bs "7"); (bs "Content-Length", bs "3")] (Some (bs "v=0")))).
Proof. vm_compute. split; reflexivity. Qed.

(* C68  the tunnel's requests *)
Theorem C68_connect : forall (verb uri cookie : bytes), line_text verb -> line_text uri -> line_text cookie ->
  read_message (connect_http verb uri cookie) =
  Some (verb ++ bs " " ++ uri ++ bs " HTTP/1.0",
        [(bs "X-SessionCookie", cookie); (bs "Accept", bs "application/x-rtsp-tunnelled"); (bs "Pragma", bs "no-cache"); (bs "Cache-Control", bs "no-store")] ++
        (if beq verb (bs "POST") then [(bs "Content-Length", bs "32767")] else []) ++ [(bs "User-Agent", bs "Ouro/1.0")],
        []).
Proof. exact connect_http_read. Qed.
Print Assumptions C68_connect.

(* and responses: a well-formed one is accepted and consumed exactly *)
Theorem C68_receive : forall (code : Z) (reason : bytes) (fields : list sfield) (rest : stream),
  100 <= code <= 999 -> line_text reason -> Forall sfield_ok fields ->
  receive_http (map Some (response_text (bs "HTTP/1.0") code reason fields []) ++ rest) = (rest, Ok tt).
Proof. exact receive_http_ok. Qed.
Print Assumptions C68_receive.

(* everything accepted has a first line HTTP/1.0 and a status of three characters that is a number *)
Theorem C68_receive_partial : forall (s rest : stream), receive_http s = (rest, Ok tt) ->
  exists line status tail code, fst (read_line s) = tail /\ snd (read_line s) = Ok (bs "HTTP/1.0" ++ 32 :: line) /\
    status = (match cut 32 (trim_space line) with Some (a, _) => a | None => trim_space line end) /\
    zlen status = 3 /\ atoi status = (code, None) /\ 0 <= code.
Proof. exact receive_http_inv. Qed.
Print Assumptions C68_receive_partial.

(* but not necessarily of three digits *)
Theorem C68_receive_refuted : exists s, receive_http (map Some s) = ([], Ok tt) /\
  s = bs "HTTP/1.0 +20 OK" ++ [13; 10; 13; 10].
Proof. eexists. split; [|reflexivity]. vm_compute. reflexivity. Qed.
Print Assumptions C68_receive_refuted.

Example C68_example :
  connect_http (bs "GET") (bs "/s") (bs "abc") =
  bs "GET /s HTTP/1.0" ++ [13; 10] ++ bs "X-SessionCookie: abc" ++ [13; 10] ++ bs "Accept: application/x-rtsp-tunnelled" ++ [13; 10] ++
  bs "Pragma: no-cache" ++ [13; 10] ++ bs "Cache-Control: no-store" ++ [13; 10] ++ bs "User-Agent: Ouro/1.0" ++ [13; 10; 13; 10] /\
  receive_http (map Some (bs "HTTP/1.0 200 OK" ++ [13; 10] ++ bs "Pragma: x" ++ [13; 10; 13; 10] ++ bs "RTSP")) = (map Some (bs "RTSP"), Ok tt) /\
  receive_http (map Some (bs "HTTP/1.1 200 OK" ++ [13; 10; 13; 10])) = (map Some [13; 10], Err ErrNotSupported).
Proof. vm_compute. repeat split. Qed.
