(* Specification: requests that are what they look like, line by line. *)
From Coq Require Import String.
From Verif Require Import Base GoStrings.

Definition one_line (b : bytes) : Prop := ~ In 10 b.
Definition request_verbs : list bytes := [bs "OPTIONS"; bs "DESCRIBE"; bs "SETUP"; bs "PLAY"; bs "PAUSE"; bs "TEARDOWN"].
Definition request_names : list bytes := [bs "CSeq"; bs "Accept"; bs "Transport"; bs "Session"; bs "Authorization"; bs "User-Agent"; bs "Content-Length"].
(* one request: one of the six verbs, on one line, then fields with known names, each once and each on one line, then an empty line *)
Definition one_request (text : bytes) : Prop := exists verb uri (fields : list (bytes * bytes)),
  In verb request_verbs /\ one_line uri /\ Forall (fun f => In (fst f) request_names /\ one_line (snd f)) fields /\ NoDup (map fst fields) /\
  text = verb ++ bs " " ++ uri ++ bs " RTSP/1.0" ++ [13; 10] ++ flat_map (fun f => fst f ++ bs ": " ++ snd f ++ [13; 10]) fields ++ [13; 10].
