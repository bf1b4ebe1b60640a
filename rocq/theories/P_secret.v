(* C83: to whom the password is disclosed. *)
From Coq Require Import String.
From Verif Require Import Base GoStrings S_digest M_conn M_message M_transport M_sdp M_digest M_session S_session S_secret L_base L_strings L_digest L_session L_secret.

(* without a challenge nothing observable depends on the credentials *)
Theorem C83_unasked : forall (w w' : world) (l' : life) (u : option (bytes * bytes)) (es : list event),
  run (w, Live) es = (w', l') -> challenges (w_log w') = [] -> run (with_user u w, Live) es = (with_user u w', l').
Proof.
  intros w w' l' u es R C. pose proof (run_tx (s_user (w_s w)) u es w Live) as X. rewrite R in X. cbn [fst] in X. rewrite C in X. apply X; [intros ch []|reflexivity].
Qed.
Print Assumptions C83_unasked.

(* with challenges, none of them Basic, only the digests of the password for the realms they name matter *)
Theorem C83_digest_partial : forall (w w' : world) (l' : life) (user p1 p2 : bytes) (es : list event),
  s_user (w_s w) = Some (user, p1) -> run (w, Live) es = (w', l') ->
  (forall ch, In ch (challenges (w_log w')) -> ~ asks_basic ch) ->
  (forall ch realm, In ch (challenges (w_log w')) -> in_realm ch realm -> H (user ++ bs ":" ++ realm ++ bs ":" ++ p1) = H (user ++ bs ":" ++ realm ++ bs ":" ++ p2)) ->
  run (with_user (Some (user, p2)) w, Live) es = (with_user (Some (user, p2)) w', l').
Proof.
  intros w w' l' user p1 p2 es U R NB HH. pose proof (run_tx (Some (user, p1)) (Some (user, p2)) es w Live) as X. rewrite R in X. apply X; [|exact U].
  intros ch I. apply agree_hash; [exact (NB ch I)|]. intros realm. exact (HH ch realm I).
Qed.
Print Assumptions C83_digest_partial.

(* a Basic challenge at any time, after Digest has been in use too, gets the password itself *)
Theorem C83_basic_refuted : forall (w : world) (r : response) (req : request) (user pass : bytes) (d : digest),
  qget (s_queue (w_s w)) (p_cseq r) = Some req -> p_code r = 401 -> s_proto (w_s w) <> ProtoHTTP ->
  s_user (w_s w) = Some (user, pass) -> bytes_ok user -> bytes_ok pass ->
  new_digest (s_uri (w_s w)) (header_get (p_header r) (bs "WWW-Authenticate")) = Ok d -> asks_basic (header_get (p_header r) (bs "WWW-Authenticate")) ->
  exists rq w' o code, handle_response w r = (w', o) /\ w_log w' = w_log w ++ [Got r; Sent true rq] /\
    q_auth rq = bs "Basic " ++ code /\ b64_decode code = (user ++ bs ":" ++ pass, true).
Proof.
  intros w r req user pass d Q C P U OU OP D B. destruct (retry_basic w r req user pass d Q C P U D (new_digest_of_basic _ _ _ D B)) as (rq & w' & o & E & L & A).
  exists rq, w', o, (b64_encode (user ++ bs ":" ++ pass)). splits; auto. apply b64_decode_encode. apply bytes_ok_app. split; [exact OU|]. apply bytes_ok_app. split; [|exact OP].
  apply bytes_okb_spec. reflexivity.
Qed.
Print Assumptions C83_basic_refuted.

Definition asked (text : bytes) : stream := map Some (flat_map (fun c => if c =? 124 then [13; 10] else [c]) text ++ [13; 10; 13; 10]).
Definition auths (w : world) : list bytes := flat_map (fun e => match e with Sent _ rq => [q_auth rq] | _ => [] end) (w_log w).
(* a Digest challenge, then a Basic one from whoever answers *)
Example C83_case :
  let w := mkW (dialled ProtoTCP (Some (bs "joe", bs "secret")) (bs "rtsp://h/s"))
    (asked (bs "RTSP/1.0 401 Unauthorized|CSeq: 1|WWW-Authenticate: Digest realm=""r"", nonce=""n""") ++
     asked (bs "RTSP/1.0 401 Unauthorized|CSeq: 1|WWW-Authenticate: Basic realm=""r""")) [] [] [] [] in
  auths (fst (run (w, Live) [App COptions; Turn 0 0])) =
    [[]; bs "Digest username=""joe"", realm=""r"", nonce=""n"", uri=""rtsp://h/s"", algorithm=""md5"", response=""b7a8b0fa6a1309bab22a865b6fb285b8"""] /\
  auths (fst (run (w, Live) [App COptions; Turn 0 0; Turn 0 0])) =
    auths (fst (run (w, Live) [App COptions; Turn 0 0])) ++ [bs "Basic am9lOnNlY3JldA=="] /\
  b64_decode (bs "am9lOnNlY3JldA==") = (bs "joe:secret", true).
Proof. vm_compute. splits; reflexivity. Qed.
