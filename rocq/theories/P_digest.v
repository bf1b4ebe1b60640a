(* Properties C44-C48: authentication. *)
From Coq Require Import String.
From Verif Require Import Base GoStrings S_md5 S_digest M_digest L_base L_strings L_digest.

(* ---- C44 ---- *)
Theorem C44_challenge : forall basic uri ch l, trim_space ch = scheme basic ++ items_text l -> l <> [] -> Forall item_ok l ->
  (given (bs "nonce") [] l = [] \/ In (to_lower (given (bs "algorithm") (bs "md5") l)) [bs "md5"; bs "md5-sess"]) ->
  exists d, new_digest uri ch = Ok d /\ d_basic d = basic /\ d_uri d = uri /\ d_realm d = given (bs "realm") [] l /\
    d_domain d = given (bs "domain") [] l /\ d_nonce d = given (bs "nonce") [] l /\ d_opaque d = given (bs "opaque") [] l /\
    d_stale d = given (bs "stale") [] l /\ d_algorithm d = to_lower (given (bs "algorithm") (bs "md5") l) /\
    d_qop d = to_lower (given (bs "qop") [] l).
Proof. exact challenge_parsed. Qed.
Print Assumptions C44_challenge.

Example C44_case : exists d, new_digest (bs "rtsp://h/") (bs "Digest realm=""a b=c"", NONCE=""0f"",Qop=""Auth"", algorithm=""MD5-sess"" ") = Ok d /\
  d_basic d = false /\ d_realm d = bs "a b=c" /\ d_nonce d = bs "0f" /\ d_qop d = bs "auth" /\ d_algorithm d = bs "md5-sess" /\ d_opaque d = [].
Proof. eexists. split; [vm_compute; reflexivity|]. splits; vm_compute; reflexivity. Qed.

(* the two options of a qop list: the first is taken, although the list is split at the comma inside the quotes *)
Example C44_qop_list : exists d, new_digest [] (bs "Digest realm=""r"", nonce=""n"", qop=""auth,auth-int"", opaque=""o""") = Ok d /\
  d_qop d = bs "auth" /\ d_opaque d = bs "o".
Proof. eexists. split; [vm_compute; reflexivity|]. split; vm_compute; reflexivity. Qed.

(* ---- C45 ---- *)
(* Full statement: in every history of requests, every header carries the digest of RFC 2617.  It holds for plain
   MD5 challenges (with or without qop), for every history of requests and renewals of the client nonce... *)
Theorem C45_digest_partial : forall uri ch d user pass rnd ops, new_digest uri ch = Ok d -> d_basic d = false ->
  d_algorithm d <> bs "md5-sess" -> 1 + renewals ops < 2 ^ 32 ->
  session_calls d user pass rnd ops =
  rfc_calls (mkChal (d_realm d) (d_nonce d) (d_opaque d) (d_algorithm d) (d_qop d)) uri user pass 1 (cnonce_of rnd) ops.
Proof. exact session_plain. Qed.
Print Assumptions C45_digest_partial.

(* ...and for the first request of a session in any algorithm, given a qop... *)
Theorem C45_first_partial : forall uri ch d user pass rnd verb body, new_digest uri ch = Ok d -> d_basic d = false -> d_qop d <> [] ->
  session_calls d user pass rnd [Call verb body] =
  rfc_calls (mkChal (d_realm d) (d_nonce d) (d_opaque d) (d_algorithm d) (d_qop d)) uri user pass 1 (cnonce_of rnd) [Call verb body].
Proof. exact session_first. Qed.
Print Assumptions C45_first_partial.

(* ...but the second request of an MD5-sess session is wrong. *)
Theorem C45_session_refuted : exists uri ch d user pass rnd verb, new_digest uri ch = Ok d /\ d_basic d = false /\
  session_calls d user pass rnd [Call verb []; Call verb []] <>
  rfc_calls (mkChal (d_realm d) (d_nonce d) (d_opaque d) (d_algorithm d) (d_qop d)) uri user pass 1 (cnonce_of rnd) [Call verb []; Call verb []].
Proof.
  exists (bs "/"), (bs "Digest realm=""r"", nonce=""n"", qop=""auth"", algorithm=""MD5-sess""").
  eexists. exists (bs "u"), (bs "p"), [1; 2; 3; 4; 5; 6; 7; 8], (bs "PLAY").
  splits; [vm_compute; reflexivity|reflexivity|]. vm_compute. discriminate.
Qed.
Print Assumptions C45_session_refuted.

(* What is sent exactly, for every algorithm and every history: the session key of MD5-sess is hashed again at every
   request, so the k-th request carries the key hashed k times; without a qop it is not hashed at all. *)
Theorem C45_exact : forall uri ch d user pass rnd ops, new_digest uri ch = Ok d -> d_basic d = false -> 1 + renewals ops < 2 ^ 32 ->
  session_calls d user pass rnd ops =
  drift_calls (mkChal (d_realm d) (d_nonce d) (d_opaque d) (d_algorithm d) (d_qop d)) uri user
    (H (colons [user; d_realm d; pass])) 1 (cnonce_of rnd) ops.
Proof. exact session_drift. Qed.
Print Assumptions C45_exact.

(* the key of the second request is the hash of the right key *)
Example C45_exact_case : let c := mkChal (bs "r") (bs "n") [] (bs "md5-sess") (bs "auth") in
  let k := H (colons [bs "u"; bs "r"; bs "p"]) in
  let k1 := H (colons [k; bs "n"; bs "01020304"]) in let k2 := H (colons [k1; bs "n"; bs "01020304"]) in
  drift_calls c (bs "/") (bs "u") k 1 (bs "01020304") [Call (bs "PLAY") []; Call (bs "PAUSE") []] =
  [header_with c (bs "/") (bs "u") k1 (bs "00000001") (bs "01020304") (bs "PLAY") [];
   header_with c (bs "/") (bs "u") k2 (bs "00000001") (bs "01020304") (bs "PAUSE") []] /\
  k1 = rfc_ha1 true (bs "u") (bs "r") (bs "p") (bs "n") (bs "01020304") /\ beq k1 k2 = false /\
  header_with c (bs "/") (bs "u") k1 (bs "00000001") (bs "01020304") (bs "PLAY") [] =
  rfc_header c (bs "/") (bs "u") (bs "p") (bs "00000001") (bs "01020304") (bs "PLAY") [].
Proof. cbv zeta. splits; vm_compute; reflexivity. Qed.

(* the vector of RFC 2617 3.5 with the verb of the repository's test *)
Example C45_case : exists d, new_digest (bs "/dir/index.html") (bs "Digest realm=""testrealm@host.com"", qop=""auth"", nonce=""dcd98b7102dd2f0e8b11d0f600bfb0c093"", opaque=""5ccc069c403ebaf9f0171e9517f40e41""") = Ok d /\
  rfc_calls (chal_of d) (bs "/dir/index.html") (bs "Mufasa") (bs "Circle Of Life") 1 (bs "6443776e86b984dd") [Call (bs "OPTIONS") []] =
  [bs "Digest username=""Mufasa"", realm=""testrealm@host.com"", nonce=""dcd98b7102dd2f0e8b11d0f600bfb0c093"", uri=""/dir/index.html"", algorithm=""md5"", opaque=""5ccc069c403ebaf9f0171e9517f40e41"", qop=""auth"", nc=00000001, cnonce=""6443776e86b984dd"", response=""15f8e0d8b404b53a52e8cb7fa89988ee"""] /\
  rfc_response (rfc_ha1 false (bs "Mufasa") (bs "testrealm@host.com") (bs "Circle Of Life") [] []) (bs "dcd98b7102dd2f0e8b11d0f600bfb0c093")
    (bs "00000001") (bs "0a4f113b") (bs "auth") (rfc_ha2 false (bs "GET") (bs "/dir/index.html") []) = bs "6629fae49393a05397450978507c4ef1".
Proof. eexists. splits; [vm_compute; reflexivity|vm_compute; reflexivity|vm_compute; reflexivity]. Qed.

(* ---- C46 ---- *)
(* Full statement: successive requests carry strictly increasing counts.  Requests do not change the count at all... *)
Theorem C46_count_refuted : forall uri ch d user pass rnd v1 b1 v2 b2, new_digest uri ch = Ok d -> d_basic d = false ->
  d_algorithm d <> bs "md5-sess" -> d_qop d <> [] ->
  let c := mkChal (d_realm d) (d_nonce d) (d_opaque d) (d_algorithm d) (d_qop d) in
  session_calls d user pass rnd [Call v1 b1; Call v2 b2] =
  [rfc_header c uri user pass (bs "00000001") (cnonce_of rnd) v1 b1; rfc_header c uri user pass (bs "00000001") (cnonce_of rnd) v2 b2].
Proof.
  intros uri ch d user pass rnd v1 b1 v2 b2 E B A Q. cbv zeta.
  rewrite (session_plain uri ch d user pass rnd [Call v1 b1; Call v2 b2] E B A eq_refl). reflexivity.
Qed.
Print Assumptions C46_count_refuted.

(* ...it is Next that increases it, by one, each time it is called. *)
Theorem C46_next_partial : forall d rnd, d_qop d <> [] -> 0 <= d_count d ->
  hexnum (d_nc (digest_next d rnd)) = d_count d + 1 /\ d_count (digest_next d rnd) = d_count d + 1.
Proof.
  intros d rnd Q C. destruct (next_frame d rnd) as (_ & _ & _ & _ & _ & F). destruct (F Q) as (F1 & F2 & _).
  rewrite F1, F2. split; [apply hexnum_hex8; lia|reflexivity].
Qed.
Print Assumptions C46_next_partial.

Example C46_case : hex8 1 = bs "00000001" /\ hex8 255 = bs "000000ff" /\ hex8 4294967295 = bs "ffffffff" /\ hexnum (bs "000000ff") = 255.
Proof. splits; vm_compute; reflexivity. Qed.

(* ---- C47 ---- *)
Theorem C47_basic : forall d user pass rnd ops, d_basic d = true ->
  Forall (fun out => out = bs "Basic " ++ b64_encode (user ++ bs ":" ++ pass)) (session_calls d user pass rnd ops) /\
  length (session_calls d user pass rnd ops) = length (filter (fun o => match o with Call _ _ => true | Renew _ => false end) ops).
Proof.
  intros d user pass rnd ops B. unfold session_calls, authenticate. rewrite B, colonnade_colons. rewrite (calls_basic ops d _ B).
  split; induction ops as [|[v b|r] ops IH]; cbn [flat_map filter app length]; auto.
Qed.
Print Assumptions C47_basic.

(* the server recovers the credentials *)
Theorem C47_decodes : forall user pass, bytes_ok user -> bytes_ok pass ->
  b64_decode (b64_encode (user ++ bs ":" ++ pass)) = (user ++ bs ":" ++ pass, true).
Proof.
  intros user pass U P. apply b64_decode_encode. apply bytes_ok_app. split; [exact U|]. apply bytes_ok_app. split; [|exact P].
  apply bytes_okb_spec. reflexivity.
Qed.
Print Assumptions C47_decodes.

Example C47_case : exists d, new_digest (bs "/dir/index.html") (bs "Basic realm=""testrealm@host.com""") = Ok d /\ d_basic d = true /\
  session_calls d (bs "Mufasa") (bs "Circle Of Life") [] [Call (bs "OPTIONS") []; Call (bs "PLAY") [1]] =
  [bs "Basic TXVmYXNhOkNpcmNsZSBPZiBMaWZl"; bs "Basic TXVmYXNhOkNpcmNsZSBPZiBMaWZl"].
Proof. eexists. splits; [vm_compute; reflexivity|reflexivity|vm_compute; reflexivity]. Qed.

(* ---- C48 ---- *)
Theorem C48_scheme : forall uri ch, (forall basic rest, trim_space ch <> scheme basic ++ rest) ->
  new_digest uri ch = Err ErrAuthMalformedChallenge.
Proof. exact new_digest_malformed. Qed.
Print Assumptions C48_scheme.

(* any part name=value with an unknown name, wherever it stands *)
Theorem C48_attribute : forall uri ch basic rest p name val, trim_space ch = scheme basic ++ rest -> In p (split_on 44 rest) ->
  trim_space p = name ++ 61 :: val -> name <> [] -> ~ In 61 name -> ~ In (to_lower name) known_attrs ->
  new_digest uri ch = Err ErrAuthMalformedChallenge.
Proof.
  intros uri ch basic rest p name val E I P N1 N2 K. rewrite (new_digest_scheme uri ch basic rest E).
  rewrite (set_attrs_bad (split_on 44 rest) p name val I P N1 N2 K). reflexivity.
Qed.
Print Assumptions C48_attribute.

Theorem C48_algorithm : forall basic uri ch l, trim_space ch = scheme basic ++ items_text l -> l <> [] -> Forall item_ok l ->
  given (bs "nonce") [] l <> [] -> ~ In (to_lower (given (bs "algorithm") (bs "md5") l)) [bs "md5"; bs "md5-sess"] ->
  new_digest uri ch = Err ErrAuthNotImplemented.
Proof. exact algorithm_refused. Qed.
Print Assumptions C48_algorithm.

(* no other outcome: a challenge is accepted or refused with one of the two errors *)
Theorem C48_total : forall uri ch, (exists d, new_digest uri ch = Ok d) \/ new_digest uri ch = Err ErrAuthMalformedChallenge \/
  new_digest uri ch = Err ErrAuthNotImplemented.
Proof. exact new_digest_total. Qed.
Print Assumptions C48_total.

Example C48_case : new_digest [] (bs "Bearer x") = Err ErrAuthMalformedChallenge /\ new_digest [] (bs "Digest") = Err ErrAuthMalformedChallenge /\
  new_digest [] (bs "Digest realm=""r"", charset=UTF-8") = Err ErrAuthMalformedChallenge /\
  new_digest [] (bs "Digest realm=""r"", nonce=""n"", algorithm=SHA-256") = Err ErrAuthNotImplemented.
Proof. splits; vm_compute; reflexivity. Qed.
