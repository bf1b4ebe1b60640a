(* Specification: the credentials on the requests of a history. *)
From Coq Require Import String.
From Verif Require Import Base GoStrings M_message M_digest M_session S_digest S_session S_handshake.

(* What is to be seen in a history up to some moment: no request carries credentials as long as none has been repeated; from the latest
   repetition on, that of a request answered 401, each carries in its turn what the challenge of that answer, the user's name and password and its
   own method give. *)
Definition rightly (uri : bytes) (user : option (bytes * bytes)) (log : list effect) : Prop :=
  (retransmissions log = [] /\ Forall (fun q => q_auth q = []) (sent_requests log)) \/
  (exists before r q after d name pass rnd,
     log = before ++ Got r :: Sent true q :: after /\ retransmissions after = [] /\ p_code r = 401 /\ user = Some (name, pass) /\ bytes_ok rnd /\
     new_digest uri (header_get (p_header r) (bs "WWW-Authenticate")) = Ok d /\
     map q_auth (q :: sent_requests after) = session_calls d name pass rnd (map (fun x => Call (q_verb x) []) (q :: sent_requests after))).
