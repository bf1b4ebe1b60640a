(* Model of /repo/net/rtsp/digest.go *)
From Coq Require Import String.
From Verif Require Import Base GoStrings S_md5 S_digest.

(* digest.go:24-40 *)
Record digest := mkDigest {
  d_basic : bool; d_username : bytes; d_realm : bytes; d_domain : bytes; d_nonce : bytes; d_opaque : bytes;
  d_stale : bytes; d_algorithm : bytes; d_cnonce : bytes; d_qop : bytes; d_uri : bytes;
  d_ha1 : bytes; d_ha2 : bytes; d_nc : bytes; d_count : Z }.

(* digest.go:172-176  md5hex; the hash itself is RFC 1321 (crypto/md5 is not modelled) *)
Definition md5hex (data : bytes) : bytes := hex_encode (md5 data).

(* digest.go:178-192  colonnade: the buffer is filled by copy *)
Definition copy_at (b : bytes) (pos : Z) (s : bytes) : bytes :=
  firstn (Z.to_nat pos) b ++ firstn (length b - Z.to_nat pos) s ++ skipn (Z.to_nat pos + length s) b.
Fixpoint colonnade_rest (b : bytes) (bp : Z) (ps : list bytes) : bytes :=
  match ps with
  | [] => b
  | s :: r => let b := copy_at b bp [58] in
              let bp := bp + 1 in
              colonnade_rest (copy_at b bp s) (bp + Z.min (zlen s) (zlen b - bp)) r
  end.
Definition colonnade (p0 : bytes) (ps : list bytes) : bytes :=
  let n := fold_left (fun n p => n + zlen p) (p0 :: ps) (zlen (p0 :: ps) - 1) in
  let b := repeat 0 (Z.to_nat n) in
  colonnade_rest (copy_at b 0 p0) (Z.min (zlen p0) (zlen b)) ps.

(* digest.go:67-87  one attribute *)
Definition set_attr (d : digest) (attr val : bytes) : res digest :=
  let '(mkDigest ba us re dm no op st al cn qo ur h1 h2 nc ct) := d in
  if beq attr (bs "realm") then Ok (mkDigest ba us val dm no op st al cn qo ur h1 h2 nc ct)
  else if beq attr (bs "domain") then Ok (mkDigest ba us re val no op st al cn qo ur h1 h2 nc ct)
  else if beq attr (bs "nonce") then Ok (mkDigest ba us re dm val op st al cn qo ur h1 h2 nc ct)
  else if beq attr (bs "opaque") then Ok (mkDigest ba us re dm no val st al cn qo ur h1 h2 nc ct)
  else if beq attr (bs "stale") then Ok (mkDigest ba us re dm no op val al cn qo ur h1 h2 nc ct)
  else if beq attr (bs "algorithm") then Ok (mkDigest ba us re dm no op st (to_lower val) cn qo ur h1 h2 nc ct)
  else if beq attr (bs "qop") then
    Ok (mkDigest ba us re dm no op st al cn (match split_on 44 val with v :: _ => to_lower v | [] => qo end) ur h1 h2 nc ct)
  else Err ErrAuthMalformedChallenge.

(* digest.go:57-88  the comma-separated parts *)
Fixpoint set_attrs (d : digest) (parts : list bytes) : res digest :=
  match parts with
  | [] => Ok d
  | p :: r =>
      let p := trim_space p in
      match cut 61 p with
      | Some (c :: attr, val) => let! d' := set_attr d (to_lower (c :: attr)) (trim_byte 34 val) in set_attrs d' r
      | _ => set_attrs d r                                   (* empty, no '=', or '=' first *)
      end
  end.

(* digest.go:43-96  NewDigest *)
Definition new_digest (uri challenge : bytes) : res digest :=
  let c := trim_space challenge in
  let start basic rest :=
    let! d := set_attrs (mkDigest basic [] [] [] [] [] [] (bs "md5") [] [] uri [] [] [] 0) (split_on 44 rest) in
    if negb (beq (d_nonce d) []) && negb (beq (d_algorithm d) (bs "md5")) && negb (beq (d_algorithm d) (bs "md5-sess"))
    then Err ErrAuthNotImplemented else Ok d in
  if has_prefix (bs "Digest ") c then start false (skipn 7 c)
  else if has_prefix (bs "Basic ") c then start true (skipn 6 c)
  else Err ErrAuthMalformedChallenge.

(* fmt.Sprintf("%08x", n), n >= 0 *)
Fixpoint hex_digits (fuel : nat) (n : Z) (acc : bytes) : bytes :=
  match fuel with
  | O => acc
  | S f => let acc := hex_digit (n mod 16) :: acc in if n / 16 =? 0 then acc else hex_digits f (n / 16) acc
  end.
Definition hex8 (n : Z) : bytes :=
  let h := hex_digits (S (Z.to_nat (Z.log2 n))) n [] in repeat 48 (8 - length h) ++ h.

(* digest.go:134-143  Next; the eight random bytes are an argument *)
Definition digest_next (d : digest) (rnd : bytes) : digest :=
  if beq (d_qop d) [] then d
  else let ct := d_count d + 1 in
       let '(mkDigest ba us re dm no op st al cn qo ur h1 h2 nc _) := d in
       mkDigest ba us re dm no op st al (firstn 8 (hex_encode rnd)) qo ur h1 h2 (hex8 ct) ct.

(* digest.go:99-131  Authenticate: the text before the response, and the state the closure keeps.
   The closure returns this text alone for Basic (no response). *)
Definition authenticate (d : digest) (user pass rnd : bytes) : digest * bytes :=
  if d_basic d then (d, bs "Basic " ++ b64_encode (colonnade user [pass]))
  else
    let '(mkDigest ba _ re dm no op st al cn qo ur _ h2 nc ct) := d in
    let d := mkDigest ba user re dm no op st al cn qo ur (md5hex (colonnade user [re; pass])) h2 nc ct in
    let auth := bs "Digest username=""" ++ user ++ bs """, realm=""" ++ re ++ bs """, nonce=""" ++ no ++
                bs """, uri=""" ++ ur ++ bs """, algorithm=""" ++ al ++
                (if beq op [] then [] else bs """, opaque=""" ++ op) ++ bs """" in
    (digest_next d rnd, auth).

(* digest.go:145-170  response *)
Definition digest_response (d : digest) (verb body : bytes) : digest * bytes :=
  let '(mkDigest ba us re dm no op st al cn qo ur h1 _ nc ct) := d in
  let h2 := if beq qo (bs "auth-int") then md5hex (colonnade verb [ur; md5hex body]) else md5hex (colonnade verb [ur]) in
  if beq qo [] then
    (mkDigest ba us re dm no op st al cn qo ur h1 h2 nc ct,
     bs ", response=""" ++ md5hex (colonnade h1 [no; h2]) ++ bs """")
  else
    let h1 := if beq al (bs "md5-sess") then md5hex (colonnade h1 [no; cn]) else h1 in
    (mkDigest ba us re dm no op st al cn qo ur h1 h2 nc ct,
     bs ", qop=""" ++ qo ++ bs """, nc=" ++ nc ++ bs ", cnonce=""" ++ cn ++ bs """, response=""" ++
     md5hex (colonnade h1 [no; nc; cn; qo; h2]) ++ bs """").

(* the closure of digest.go:105-107, 128-130: state, text *)
Definition auth_call (auth : bytes) (d : digest) (verb body : bytes) : digest * bytes :=
  if d_basic d then (d, auth) else let '(d', r) := digest_response d verb body in (d', auth ++ r).

(* the values returned for the requests of a history of requests and calls of Next *)
Fixpoint calls (auth : bytes) (d : digest) (ops : list dop) : list bytes :=
  match ops with
  | [] => []
  | Renew rnd :: r => calls auth (digest_next d rnd) r
  | Call verb body :: r => let '(d', out) := auth_call auth d verb body in out :: calls auth d' r
  end.
Definition session_calls (d : digest) (user pass rnd : bytes) (ops : list dop) : list bytes :=
  let '(d', auth) := authenticate d user pass rnd in calls auth d' ops.
