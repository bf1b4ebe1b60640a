(* Model of NewPlaylist as it is called (/repo/net/hls/playlist.go:41-58): M_hls.new_playlist behind the arguments. *)
From Verif Require Import Base M_hls M_url M_dial.

(* what a call comes to: a playlist with the file and the segment size it was given, an error, or a run-time panic *)
Inductive creation := Created (pl : playlist) (file : bytes) (size : Z) | Rejected | Crashed.
(* playlist.go:42-58  NewPlaylist.  [readable] says which files exist and can be read; the code does not ask.  A Segment has 24 bytes; make panics when
   the length is negative or the segments need more than 2^48 bytes.  The size, a float64, is carried as its bit pattern. *)
Definition create (readable : bytes -> bool) (uri name : bytes) (nseg size : Z) : creation :=
  match playlist_uri uri name with
  | None => Rejected
  | Some u => if (nseg <? 0) || (2 ^ 48 <? nseg * 24) then Crashed else Created (new_playlist u (Z.to_nat nseg)) name size
  end.
