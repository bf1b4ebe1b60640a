(* Specification: the URI of a whole presentation (RFC 2326 C.1.1), and the kinds of requests a session makes. *)
From Coq Require Import String.
From Verif Require Import Base GoStrings M_message S_refuse.

(* the base of the relative URIs in a description that was asked for at uri *)
Definition base_given (uri base location : bytes) : bytes :=
  match base with [] => match location with [] => uri | _ => location end | _ => base end.
(* the control attribute of the session level, if there is one: the first a=control before the first m= *)
Fixpoint session_control (lines : list bytes) : option bytes :=
  match lines with
  | [] => None
  | l :: r => if beq (firstn 2 l) (bs "m=") then None
              else if beq (firstn 10 l) (bs "a=control:") then Some (skipn 10 l) else session_control r
  end.
Definition unix_line (l : bytes) : bytes := match rev l with 13 :: r => rev r | _ => l end.
Definition lines_of (body : bytes) : list bytes := map unix_line (split_on 10 body).
Definition aggregate (base body : bytes) : bytes :=
  match session_control (lines_of body) with None => base | Some c => rfc_target base c end.

(* every request of a session opened at uri u is one of these *)
Inductive shape (u : bytes) : request -> Prop :=
| sh_options n a i : shape u (mkReq (bs "OPTIONS") n u a i [])
| sh_alive n a i id : shape u (mkReq (bs "OPTIONS") n u a i [(bs "Session", id)])
| sh_describe n a i : shape u (mkReq (bs "DESCRIBE") n u a i [(bs "Accept", bs "application/sdp")])
| sh_setup n a i c t : shape u (mkReq (bs "SETUP") n (if beq (firstn 7 c) (bs "rtsp://") then c else u ++ bs "/" ++ c) a i [(bs "Transport", t)])
| sh_order v n a i : v = bs "PLAY" \/ v = bs "PAUSE" \/ v = bs "TEARDOWN" -> shape u (mkReq v n u a i []).
