(* Specification: the whole program with a server that answers what it has received.
   In S_handshake.v the answers are there from the beginning; here an answer is sent only after its request, frames and
   silences come whenever the server likes, and everything interleaves. *)
From Coq Require Import String.
From Verif Require Import Base GoStrings S_rtp S_nal M_nal M_conn S_message M_message M_transport M_sdp M_session S_session S_handshake M_main S_main.

(* an answer to request number n: it grants it; the description is of the media ms; a SETUP is given a transport *)
Definition fits (ms : list media) (verb : bytes) (n : Z) (i : item) : Prop :=
  item_ok i /\ grants n i /\ (verb = bs "DESCRIBE" -> body_of_item i <> [] /\ sdp_parse (body_of_item i) = Ok ms) /\ (verb = bs "SETUP" -> names_transport i).
(* a silence, or a frame the client can take: a whole media packet whose payload the sink accepts, a whole control packet *)
Definition takeable (i : item) : Prop :=
  match i with
  | Quiet => True
  | Resp _ _ _ _ => False
  | Frame ch p => bytes_ok p /\
      if ch mod 2 =? 0 then exists h payload, rtp_legal h /\ p = rtp_layout h payload /\ forall s ts, 0 <= s_don s < 2 ^ 16 -> snd (push s payload ts) = Ok tt
      else 4 <= zlen p /\ version2 p /\ ~ cut_report p
  end.

(* the program, and the numbers of the requests the server has answered *)
Record scene := mkX { x_y : system; x_done : list Z }.
Inductive xevent := XAnswer (n : Z) (i : item) | XNoise (i : item) | XClient (e : yevent).
(* bytes come in *)
Definition arrives (y : system) (s : stream) : system :=
  mkY (upd_in (y_w y) (w_in (y_w y) ++ s)) (y_loop y) (y_c y) (y_stage y) (y_data y) (y_fate y).
(* The session's loop waits while there is nothing to read: a time limit that runs out is a silence from the server. *)
Definition is_turn (e : yevent) : bool := match e with YTurn _ _ => true | _ => false end.
Inductive xstep (ms : list media) : scene -> xevent -> scene -> Prop :=
| xs_answer y done r i : In r (sent_requests (w_log (y_w y))) -> ~ In (q_cseq r) done -> fits ms (q_verb r) (q_cseq r) i ->
    xstep ms (mkX y done) (XAnswer (q_cseq r) i) (mkX (arrives y (item_stream i)) (q_cseq r :: done))
| xs_noise y done i : item_ok i -> takeable i -> xstep ms (mkX y done) (XNoise i) (mkX (arrives y (item_stream i)) done)
| xs_client y done e y' : (is_turn e = true -> w_in (y_w y) <> []) -> ystep y e = Some y' -> xstep ms (mkX y done) (XClient e) (mkX y' done).
Inductive xrun (ms : list media) : scene -> list xevent -> scene -> Prop :=
| xr_end x : xrun ms x [] x
| xr_step x e x' es x'' : xstep ms x e x' -> xrun ms x' es x'' -> xrun ms x (e :: es) x''.

Definition is_noise (e : xevent) : bool := match e with XNoise _ => true | _ => false end.
Definition noises (es : list xevent) : Z := zlen (filter is_noise es).
Definition proper (es : list xevent) : Z := zlen (filter (fun e => negb (is_noise e)) es).
(* what the client asks for, in order *)
Definition agenda (ms : list media) : list bytes :=
  [bs "OPTIONS"; bs "DESCRIBE"] ++ map (fun _ => bs "SETUP") ms ++ [bs "PLAY"; bs "PAUSE"; bs "TEARDOWN"].
(* the same with the URIs and the fields of the requests *)
Definition wish := (bytes * bytes * header)%type.
Fixpoint set_up (uri : bytes) (i : Z) (ms : list media) : list wish :=
  match ms with [] => [] | m :: r => (bs "SETUP", target uri (m_control m), [(bs "Transport", offer i)]) :: set_up uri (i + 1) r end.
Definition plan (uri : bytes) (ms : list media) : list wish :=
  [(bs "OPTIONS", uri, []); (bs "DESCRIBE", uri, [(bs "Accept", bs "application/sdp")])] ++ set_up uri 0 ms ++
  [(bs "PLAY", uri, []); (bs "PAUSE", uri, []); (bs "TEARDOWN", uri, [])].
Definition wish_of (r : request) : wish := (q_verb r, q_uri r, q_header r).
Definition wishes (y : system) : list wish := map wish_of (sent_requests (w_log (y_w y))).
Definition verbs_sent (y : system) : list bytes := map q_verb (sent_requests (w_log (y_w y))).
Definition numbers_sent (y : system) : list Z := map q_cseq (sent_requests (w_log (y_w y))).
(* the server owes an answer *)
Definition owed (x : scene) : Prop := exists r, In r (sent_requests (w_log (y_w (x_y x)))) /\ ~ In (q_cseq r) (x_done x).
(* the client can do something by itself *)
Definition can_move (x : scene) : Prop := exists e y', (is_turn e = true -> w_in (y_w (x_y x)) <> []) /\ ystep (x_y x) e = Some y'.
