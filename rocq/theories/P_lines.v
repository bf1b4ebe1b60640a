(* C87: nothing a server sends, and nothing in a URL but the user name, adds lines to requests. *)
From Coq Require Import String Permutation.
From Verif Require Import Base GoStrings M_conn M_message M_transport M_sdp M_digest M_session M_url M_dial S_lines L_base L_url L_lines.

Theorem C87_lines_partial : forall url proto reach guid werr s effects input ses writes listens rand es w' l' again rq order,
  bytes_ok url -> dial url proto reach guid werr s = (effects, input, Some ses) ->
  match s_user ses with Some (user, _) => one_line user | None => True end -> Forall bytes_ok rand ->
  run (mkW ses input writes listens rand [], Live) es = (w', l') ->
  In (Sent again rq) (w_log w') -> Permutation (q_header rq) order -> one_request (pack_request rq order).
Proof.
  intros url proto reach guid werr s effects input ses writes listens rand es w' l' again rq order B D U R E I P.
  assert (T : tidy (mkW ses input writes listens rand [])).
  { split; [|split; [exact R|constructor]]. cbn [w_s]. unfold dial in D. destruct (parse url) as [v|] eqn:PU; [|discriminate]. pose proof (base_calm url v B PU) as C. apply parse_parsed in PU; [|exact B]. destruct PU as (_ & _ & _ & _ & _ & _ & W).
    assert (S : ses = dialled proto (credentials v) (base_uri v)).
    { destruct (split_host_port (dial_host v)) as [[ho po]|]; [|discriminate]. cbv zeta in D. destruct ((port_number po >? 65535) || negb (reach ho (port_number po))); [discriminate|]. destruct (proto =? ProtoHTTP).
      - destruct werr; [discriminate|]. destruct (receive_http s) as [s2 [x|e| |]]; try discriminate. injection D as _ _ <-. reflexivity.
      - injection D as _ _ <-. reflexivity. }
    subst ses. unfold ses_flat. cbn [dialled s_uri s_auth s_session s_queue s_feeds s_user] in *. splits; try exact I; try constructor; try (intros []; fail).
    - intros X. rewrite forallb_forall in C. apply C in X. discriminate X.
    - unfold credentials, who_bytes in *. destruct (u_user v) as [[n [p|]]|]; [tauto| |exact Logic.I]. splits; auto. constructor. }
  apply run_tidy in E; [|exact T]. destruct E as (_ & _ & L). rewrite Forall_forall in L. apply L in I. apply pack_one; [exact I|exact P].
Qed.
Print Assumptions C87_lines_partial.

(* the user name is decoded and put between quotes as it is; with a line break in it, it ends the field *)
Theorem C87_user_refuted : forall (reach : bytes -> Z -> bool) guid, reach (bs "h") 554 = true ->
  exists ses rq, dial (bs "rtsp://a%0D%0AX%3A%20b:p@h/s") ProtoTCP reach guid false [] = ([Connect (bs "h") 554], [], Some ses) /\
  w_log (fst (run (mkW ses (map Some (bs "RTSP/1.0 401 No" ++ [13; 10] ++ bs "CSeq: 1" ++ [13; 10] ++ bs "WWW-Authenticate: Digest realm=""r"", nonce=""n""" ++ [13; 10; 13; 10])) [] [] [] [], Live) [App COptions; Turn 0 0])) =
    [Sent false (mkReq (bs "OPTIONS") 1 (bs "rtsp://h:554/s") [] [] []); Got (mkRsp (bs "401 No") 401 0 1 [(bs "Cseq", bs "1"); (bs "Www-Authenticate", bs "Digest realm=""r"", nonce=""n""")] None); Sent true rq] /\
  exists line, In (bs "X: b" ++ line) (split_on 10 (pack_request rq [])).
Proof.
  intros reach guid R. eexists. eexists. splits.
  - vm_compute in R. vm_compute. rewrite R. reflexivity.
  - vm_compute. reflexivity.
  - eexists. vm_compute. do 3 right. left. reflexivity.
Qed.
Print Assumptions C87_user_refuted.

Definition heads (w : world) : list (list bytes) :=
  flat_map (fun e => match e with Sent _ rq => [map (firstn 24) (split_on 10 (pack_request rq (q_header rq)))] | _ => [] end) (w_log w).
(* breaks in the password and from the server lead to no more lines: the user name and password are joe and p, break, X: 1 *)
Example C87_case :
  let reply := map Some (bs "RTSP/1.0 401 No" ++ [10] ++ bs "CSeq: 1" ++ [10] ++ bs "WWW-Authenticate: Basic realm=""a" ++ [13] ++ bs "Y: 1""" ++ [13; 13; 10; 10]) in
  let ses := match dial (bs "rtsp://joe:p%0D%0AX%3A%201@h/s%0D%0AZ: 1") ProtoTCP (fun _ _ => true) [] false [] with (_, _, Some ses) => ses | _ => new_session end in
  s_user ses = Some (bs "joe", bs "p" ++ [13; 10] ++ bs "X: 1") /\
  heads (fst (run (mkW ses reply [] [] [] [], Live) [App COptions; Turn 0 0])) =
    [[bs "OPTIONS rtsp://h:554/s%0"; bs "CSeq: 1" ++ [13]; bs "User-Agent: Ouro/1.0" ++ [13]; bs "Content-Length: 0" ++ [13]; [13]; []];
     [bs "OPTIONS rtsp://h:554/s%0"; bs "CSeq: 1" ++ [13]; bs "Authorization: Basic am9"; bs "User-Agent: Ouro/1.0" ++ [13]; bs "Content-Length: 0" ++ [13]; [13]; []]].
Proof. vm_compute. splits; reflexivity. Qed.
