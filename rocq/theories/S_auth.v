(* Specification: a conversation with a server that asks for credentials. *)
From Coq Require Import String Permutation.
From Verif Require Import Base GoStrings S_digest S_message M_message M_session S_session S_handshake.

(* a challenge: the scheme and the attributes *)
Record challenge := mkChallenge { ch_basic : bool; ch_attrs : list aitem }.
Definition attr (c : challenge) (k dflt : bytes) : bytes := given k dflt (ch_attrs c).
Definition challenge_ok (c : challenge) : Prop :=
  ch_attrs c <> [] /\ Forall S_digest.item_ok (ch_attrs c) /\
  to_lower (attr c (bs "algorithm") (bs "md5")) = bs "md5".
(* the response asks for credentials, in place of an answer to request n *)
Definition asks (n : Z) (c : challenge) (i : item) : Prop :=
  match i with
  | Resp code _ fields _ => code = 401 /\ field_value fields (bs "CSeq") = itoa n /\
      trim_space (field_value fields (bs "WWW-Authenticate")) = scheme (ch_basic c) ++ items_text (ch_attrs c) /\ challenge_ok c
  | _ => False
  end.
(* frames, silences and challenges for request n *)
Definition challenged (n : Z) (cs : list challenge) (items : list item) : Prop := exists l, Forall2 (asks n) cs l /\ with_noise l items.

(* the credentials to give for a verb, after the challenge (RFC 2617) *)
Definition credentials (uri user pass rnd : bytes) (c : challenge) (verb : bytes) : bytes :=
  if ch_basic c then bs "Basic " ++ b64_encode (user ++ bs ":" ++ pass)
  else rfc_header (mkChal (attr c (bs "realm") []) (attr c (bs "nonce") []) (attr c (bs "opaque") []) (to_lower (attr c (bs "algorithm") (bs "md5"))) (to_lower (attr c (bs "qop") [])))
         uri user pass (bs "00000001") (cnonce_of rnd) verb [].
Definition none : bytes -> bytes := fun _ => [].
(* a request with credentials *)
Definition dress (o : bytes -> bytes) (r : request) : request := mkReq (q_verb r) (q_cseq r) (q_uri r) (o (q_verb r)) (q_session r) (q_header r).

(* what the client has: credentials in use, random bytes still to come *)
Record purse := mkPurse { pu_now : bytes -> bytes; pu_rand : list bytes }.
Definition taught (uri user pass : bytes) (p : purse) (c : challenge) : purse :=
  mkPurse (credentials uri user pass (hd [] (pu_rand p)) c) (tl (pu_rand p)).
(* the request, sent once more after every challenge *)
Fixpoint tellings (uri user pass : bytes) (p : purse) (cs : list challenge) (r : request) : list request :=
  dress (pu_now p) r :: match cs with [] => [] | c :: rest => tellings uri user pass (taught uri user pass p c) rest r end.
Definition learns (uri user pass : bytes) (p : purse) (cs : list challenge) : purse := fold_left (taught uri user pass) cs p.

(* rounds, with challenges before the answer *)
Record around := mkAround { ar_chals : list challenge; ar_asked : list item; ar_clocks : list (Z * Z); ar_round : round }.
Definition around_items (a : around) : list item := ar_asked a ++ r_items (ar_round a).
Definition around_events (a : around) : list event := App (order_cmd (r_order (ar_round a))) :: turns_at (ar_clocks a) ++ turns_at (r_clocks (ar_round a)).
Fixpoint arounds_ok (n : Z) (l : list around) : Prop :=
  match l with
  | [] => True
  | a :: rest => challenged n (ar_chals a) (ar_asked a) /\ Forall item_ok (ar_asked a) /\ length (ar_clocks a) = length (ar_asked a) /\
                 rounds_ok n [ar_round a] /\ arounds_ok (n + 1) rest
  end.
Fixpoint around_requests (uri user pass id : bytes) (p : purse) (n : Z) (l : list around) : list request :=
  match l with
  | [] => []
  | a :: rest => tellings uri user pass p (ar_chals a) (mkReq (order_verb (r_order (ar_round a))) n uri [] id []) ++
                 around_requests uri user pass (next_id id (r_answer (ar_round a))) (learns uri user pass p (ar_chals a)) (n + 1) rest
  end.
