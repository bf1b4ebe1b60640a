(* Specification: what depends on the credentials. *)
From Coq Require Import String.
From Verif Require Import Base GoStrings M_message M_digest M_session.

(* the same session with other credentials *)
Definition with_user (u : option (bytes * bytes)) (w : world) : world :=
  upd_s w (fun s => mkSes (s_conn s) (s_proto s) u (s_uri s) (s_sinks s) (s_stage s) (s_auth s) (s_queue s) (s_session s) (s_feeds s) (s_feedidx s) (s_verbs s) (s_last s) (s_cseq s)).
(* the challenges of the server *)
Definition challenges (log : list effect) : list bytes :=
  flat_map (fun e => match e with Got r => if p_code r =? 401 then [header_get (p_header r) (bs "WWW-Authenticate")] else [] | _ => [] end) log.
(* Basic is what is asked for *)
Definition asks_basic (ch : bytes) : Prop := exists rest, trim_space ch = bs "Basic " ++ rest.
(* the realm in a challenge *)
Definition in_realm (ch realm : bytes) : Prop := exists uri d, new_digest uri ch = Ok d /\ d_realm d = realm.
