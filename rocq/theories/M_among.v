(* Model of Setup while other goroutines issue commands: session.go:122-136.

   Setup keeps the number of the session, not that of its request (line 133), so what matters is what the others do between its
   command (128) and that line.  [between k] are the commands they complete there for stream k; each is taken whole (M_race takes
   them apart), and their errors are theirs. *)
From Coq Require Import String.
From Verif Require Import Base GoStrings M_conn M_message M_transport M_sdp M_session M_race.

Definition commands (w : world) (l : list order) : world :=
  fold_left (fun w o => let '(verb, uri, headers) := o in fst (command w verb uri headers)) l w.
Fixpoint setup_among (w : world) (i : nat) (todo : list feed) (between : nat -> list order) : world * res unit :=
  match todo with
  | [] => (w, Ok tt)
  | f :: rest =>
      match setup_uri (w_s w) (m_control (fd_media f)) with
      | Ok uri =>
          match command w (bs "SETUP") uri [(bs "Transport", transport_string (fd_transp f))] with
          | (w', Ok _) => setup_among (upd_s (commands w' (between i)) (mark_feed i)) (S i) rest between
          | (w', e) => (w', e)
          end
      | _ => (w, Panic)
      end
  end.
