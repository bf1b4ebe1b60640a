(* Specification: answers that differ in the status only, and redirections (RFC 2326 7.1.1, 11.3). *)
From Coq Require Import String.
From Verif Require Import Base GoStrings M_message.

Definition with_status (status : bytes) (code : Z) (r : response) : response := mkRsp status code (p_length r) (p_cseq r) (p_header r) (p_body r).
Definition success (code : Z) : Prop := 200 <= code <= 299.
Definition redirects (r : response) (location : bytes) : Prop := 300 <= p_code r <= 399 /\ header_get (p_header r) (bs "Location") = location.
