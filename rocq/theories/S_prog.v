(* Specification: the program from its command line. *)
From Coq Require Import String.
From Verif Require Import Base S_url.

(* the parts of an RTSP URL; the credentials are kept apart *)
Definition url_ok (sch : bytes) (u : ruser) (h : rhost) (port : option bytes) (path : bytes) (q : option bytes) : Prop :=
  scheme_ok sch /\ (exists who, ruser_is u who) /\ rhost_ok h /\ match port with Some p => rport_ok p | None => True end /\ path_ok path /\
  match q with Some q => query_ok q | None => True end.
(* the URI of the presentation: the same URL without the credentials and with the port written out *)
Definition presentation (sch : bytes) (h : rhost) (port : option bytes) (path : bytes) (q : option bytes) : bytes :=
  lowered sch ++ bs "://" ++ rhost_text h ++ bs ":" ++ (match port with Some p => p | None => bs "554" end) ++ path ++ query_text q.
