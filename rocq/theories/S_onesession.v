(* Specification: which session a stream belongs to. *)
From Coq Require Import String.
From Verif Require Import Base GoStrings S_session S_message S_handshake.

(* the session the server names in an answer (RFC 2326 12.37: up to the semicolon) *)
Definition session_of (r : item) : bytes := id_of (field_of_item r (bs "Session")).
