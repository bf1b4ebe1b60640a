(* Model of Open on a session in any state (/repo/net/rtsp/session.go:46-54). *)
From Coq Require Import String.
From Verif Require Import Base GoStrings M_conn M_message M_transport M_sdp M_digest M_sps M_session M_url M_dial.

(* session.go:51  s.Conn = conn: the connection with its protocol, URL and listeners is new, the rest of the session stays *)
Definition reconn (s c : session) : session :=
  mkSes (s_conn c) (s_proto c) (s_user c) (s_uri c) (s_sinks c) (s_stage s) (s_auth s) (s_queue s) (s_session s) (s_feeds s) (s_feedidx s) (s_verbs s) (s_last s) (s_cseq s).

(* session.go:46-54  Open; None is an error of Dial.  [net] is what arrives on the new connection.  An earlier loop is taken to have ended
   (if it has not, it goes on reading, from the new connection). *)
Definition open (w : world) (url : bytes) (proto : Z) (reach : bytes -> Z -> bool) (guid : bytes) (werr : bool) (net : stream) : world * option (res unit) :=
  match dial url proto reach guid werr net with
  | (_, _, None) => (w, None)
  | (_, net', Some c) => let '(w', r) := options (upd_in (upd_s w (fun s => reconn s c)) net') in (w', Some r)
  end.
