(* Specification: the sessions that requests name (property C158). *)
From Coq Require Import String.
From Verif Require Import Base GoStrings M_message M_session.

(* a response names a session: its Session field is the identifier, alone or before a semicolon (RFC 2326 12.37) *)
Definition session_given (r : response) (id : bytes) : Prop :=
  exists params, header_get (p_header r) (bs "Session") = id ++ params /\ ~ In 59 id /\ (params = [] \/ exists p, params = 59 :: p).
(* the server has named it *)
Definition given_in (log : list effect) (id : bytes) : Prop := exists r, In (Got r) log /\ session_given r id.
