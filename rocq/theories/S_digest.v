(* Specification: HTTP authentication (RFC 2617). *)
From Coq Require Import String.
From Verif Require Import Base GoStrings S_md5.

(* ---- the digest (3.2.2) ---- *)
Definition H (s : bytes) : bytes := hex_encode (md5 s).
Fixpoint colons (l : list bytes) : bytes :=
  match l with [] => [] | [x] => x | x :: r => x ++ bs ":" ++ colons r end.
(* 3.2.2.2 *)
Definition rfc_ha1 (sess : bool) (user realm pass nonce cnonce : bytes) : bytes :=
  if sess then H (colons [H (colons [user; realm; pass]); nonce; cnonce]) else H (colons [user; realm; pass]).
(* 3.2.2.3 *)
Definition rfc_ha2 (authint : bool) (verb uri body : bytes) : bytes :=
  if authint then H (colons [verb; uri; H body]) else H (colons [verb; uri]).
(* 3.2.2.1 *)
Definition rfc_response (ha1 nonce nc cnonce qop ha2 : bytes) : bytes :=
  match qop with [] => H (colons [ha1; nonce; ha2]) | _ => H (colons [ha1; nonce; nc; cnonce; qop; ha2]) end.

(* what the server sent *)
Record chal := mkChal { c_realm : bytes; c_nonce : bytes; c_opaque : bytes; c_algorithm : bytes; c_qop : bytes }.

Definition quoted (name val : bytes) : bytes := name ++ bs "=""" ++ val ++ bs """".
Fixpoint commas (l : list bytes) : bytes :=
  match l with [] => [] | [x] => x | x :: r => x ++ bs ", " ++ commas r end.
(* 3.2.2: the Authorization header for one request *)
Definition rfc_header (c : chal) (uri user pass nc cnonce verb body : bytes) : bytes :=
  let ha1 := rfc_ha1 (beq (c_algorithm c) (bs "md5-sess")) user (c_realm c) pass (c_nonce c) cnonce in
  let ha2 := rfc_ha2 (beq (c_qop c) (bs "auth-int")) verb uri body in
  bs "Digest " ++ commas (
    [quoted (bs "username") user; quoted (bs "realm") (c_realm c); quoted (bs "nonce") (c_nonce c);
     quoted (bs "uri") uri; quoted (bs "algorithm") (c_algorithm c)] ++
    (match c_opaque c with [] => [] | o => [quoted (bs "opaque") o] end) ++
    (match c_qop c with [] => [] | q => [quoted (bs "qop") q; bs "nc=" ++ nc; quoted (bs "cnonce") cnonce] end) ++
    [quoted (bs "response") (rfc_response ha1 (c_nonce c) nc cnonce (c_qop c) ha2)]).

(* ---- histories: requests, and explicit renewals of the client nonce ---- *)
Inductive dop := Call (verb body : bytes) | Renew (rnd : bytes).
Fixpoint renewals (ops : list dop) : Z :=
  match ops with [] => 0 | Renew _ :: r => 1 + renewals r | Call _ _ :: r => renewals r end.
(* k lower-case hexadecimal digits of n (nc-value is 8LHEX) *)
Fixpoint hexfix (k : nat) (n : Z) : bytes :=
  match k with O => [] | S k => hexfix k (n / 16) ++ [hex_digit (n mod 16)] end.
(* the client nonce made from eight random bytes *)
Definition cnonce_of (rnd : bytes) : bytes := firstn 8 (hex_encode rnd).
(* the headers of a history, where n is the number of nonces used so far and cn the current one *)
Fixpoint rfc_calls (c : chal) (uri user pass : bytes) (n : Z) (cn : bytes) (ops : list dop) : list bytes :=
  match ops with
  | [] => []
  | Renew rnd :: r => rfc_calls c uri user pass (n + 1) (cnonce_of rnd) r
  | Call verb body :: r => rfc_header c uri user pass (hexfix 8 n) cn verb body :: rfc_calls c uri user pass n cn r
  end.
(* the same header, the hash of the credentials being given *)
Definition header_with (c : chal) (uri user ha1 nc cnonce verb body : bytes) : bytes :=
  let ha2 := rfc_ha2 (beq (c_qop c) (bs "auth-int")) verb uri body in
  bs "Digest " ++ commas (
    [quoted (bs "username") user; quoted (bs "realm") (c_realm c); quoted (bs "nonce") (c_nonce c);
     quoted (bs "uri") uri; quoted (bs "algorithm") (c_algorithm c)] ++
    (match c_opaque c with [] => [] | o => [quoted (bs "opaque") o] end) ++
    (match c_qop c with [] => [] | q => [quoted (bs "qop") q; bs "nc=" ++ nc; quoted (bs "cnonce") cnonce] end) ++
    [quoted (bs "response") (rfc_response ha1 (c_nonce c) nc cnonce (c_qop c) ha2)]).
(* the headers of a history in which a session key is hashed again, with the nonces, at each request, and kept *)
Definition hash_again (c : chal) (key cn : bytes) : bytes :=
  match c_qop c with
  | [] => key
  | _ => if beq (c_algorithm c) (bs "md5-sess") then H (colons [key; c_nonce c; cn]) else key
  end.
Fixpoint drift_calls (c : chal) (uri user key : bytes) (n : Z) (cn : bytes) (ops : list dop) : list bytes :=
  match ops with
  | [] => []
  | Renew rnd :: r => drift_calls c uri user key (n + 1) (cnonce_of rnd) r
  | Call verb body :: r => let key' := hash_again c key cn in
      header_with c uri user key' (hexfix 8 n) cn verb body :: drift_calls c uri user key' n cn r
  end.
(* value of a hexadecimal text *)
Definition hexnum (s : bytes) : Z :=
  fold_left (fun a c => a * 16 + (if c <=? 57 then c - 48 else c - 87)) s 0.

(* ---- challenges (3.2.1) ---- *)
Definition ascii_letter (c : Z) : Prop := 65 <= c <= 90 \/ 97 <= c <= 122.
Definition known_attrs : list bytes :=
  [bs "realm"; bs "domain"; bs "nonce"; bs "opaque"; bs "stale"; bs "algorithm"; bs "qop"].
Record aitem := mkItem { a_blank : bytes; a_name : bytes; a_val : bytes }.
Definition item_ok (i : aitem) : Prop :=
  Forall (fun c => c = 32) (a_blank i) /\ Forall ascii_letter (a_name i) /\ In (to_lower (a_name i)) known_attrs /\
  ~ In 44 (a_val i) /\ ~ In 34 (a_val i).
Definition item_text (i : aitem) : bytes := a_blank i ++ quoted (a_name i) (a_val i).
Fixpoint items_text (l : list aitem) : bytes :=
  match l with [] => [] | [i] => item_text i | i :: r => item_text i ++ 44 :: items_text r end.
(* the value given (last) for an attribute, or a default *)
Definition given (k dflt : bytes) (l : list aitem) : bytes :=
  fold_left (fun v i => if beq (to_lower (a_name i)) k then a_val i else v) l dflt.
Definition scheme (basic : bool) : bytes := if basic then bs "Basic " else bs "Digest ".
