(* Model of what /repo/net/rtsp/connection.go:105-127 Write puts on a TCP connection.

   net.Conn: a write that fails may have sent part of its text.  Nothing in the library looks at how much (session.go:105-107 and
   249-250 drop the count), and nothing closes the connection. *)
From Verif Require Import Base.

(* the bytes on the connection after some writes: the texts written, the outcome of each write (M_session), and of each that failed
   the number of bytes that had gone *)
Fixpoint wire (texts : list bytes) (outs : list (option goerr)) (gone : list nat) : bytes :=
  match texts with
  | [] => []
  | t :: r => (match outs with Some _ :: _ => firstn (hd O gone) t | _ => t end) ++ wire r (tl outs) (tl gone)
  end.
