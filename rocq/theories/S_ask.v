(* Specification: the whole program with a server that may ask for credentials before it answers. *)
From Coq Require Import String.
From Verif Require Import Base GoStrings M_conn S_message M_message M_transport M_sdp M_session S_session S_handshake S_auth M_main S_main S_serve.

(* the program, the numbers of the requests answered, the numbers of those credentials were asked for (with repetitions) *)
Record gscene := mkG { g_y : system; g_done : list Z; g_asked : list Z }.
Inductive gevent := GAsk (n : Z) (c : challenge) (i : item) | GAnswer (n : Z) (i : item) | GNoise (i : item) | GClient (e : yevent).
Definition times (n : Z) (l : list Z) : nat := count_occ Z.eq_dec l n.
(* the server has a copy of the request that it has not reacted to *)
Definition heard (g : gscene) (r : request) : Prop :=
  In r (sent_requests (w_log (y_w (g_y g)))) /\ ~ In (q_cseq r) (g_done g) /\ (times (q_cseq r) (g_asked g) < times (q_cseq r) (numbers_sent (g_y g)))%nat.
(* of all requests it is the latest, and the only one not answered *)
Definition only_one (g : gscene) (n : Z) : Prop := Forall (fun k => k <= n /\ (k = n \/ In k (g_done g))) (numbers_sent (g_y g)).
(* orderly: credentials are asked for only when nothing else is under way *)
Inductive gstep (ms : list media) (orderly : bool) : gscene -> gevent -> gscene -> Prop :=
| gs_ask g r c i : heard g r -> (orderly = true -> only_one g (q_cseq r)) -> asks (q_cseq r) c i -> item_ok i ->
    gstep ms orderly g (GAsk (q_cseq r) c i) (mkG (arrives (g_y g) (item_stream i)) (g_done g) (g_asked g ++ [q_cseq r]))
| gs_answer g r i : heard g r -> fits ms (q_verb r) (q_cseq r) i ->
    gstep ms orderly g (GAnswer (q_cseq r) i) (mkG (arrives (g_y g) (item_stream i)) (q_cseq r :: g_done g) (g_asked g))
| gs_noise g i : item_ok i -> takeable i -> gstep ms orderly g (GNoise i) (mkG (arrives (g_y g) (item_stream i)) (g_done g) (g_asked g))
| gs_client g e y' : (is_turn e = true -> w_in (y_w (g_y g)) <> []) -> ystep (g_y g) e = Some y' -> gstep ms orderly g (GClient e) (mkG y' (g_done g) (g_asked g)).
Inductive grun (ms : list media) (orderly : bool) : gscene -> list gevent -> gscene -> Prop :=
| gr_end g : grun ms orderly g [] g
| gr_step g e g' es g'' : gstep ms orderly g e g' -> grun ms orderly g' es g'' -> grun ms orderly g (e :: es) g''.

(* the challenges, with the number of the request each is for *)
Definition challenge_in (e : gevent) : list (Z * challenge) := match e with GAsk n c _ => [(n, c)] | _ => [] end.
Definition challenges (es : list gevent) : list (Z * challenge) := flat_map challenge_in es.
Definition is_gnoise (e : gevent) : bool := match e with GNoise _ => true | _ => false end.
Definition gnoises (es : list gevent) : Z := zlen (filter is_gnoise es).
Definition gproper (es : list gevent) : Z := zlen (filter (fun e => negb (is_gnoise e)) es).

(* requests sent for the first time (those sent once more are [retransmissions]) *)
Definition firsts (log : list effect) : list request := flat_map (fun e => match e with Sent false r => [r] | _ => [] end) log.
(* A request that is new carries the credentials of the moment; a repeated one those of the next challenge, which are kept from
   then on, and it is the one the challenge was for. *)
Fixpoint pays (uri user pass : bytes) (p : purse) (cs : list (Z * challenge)) (log : list effect) : Prop :=
  match log with
  | [] => True
  | Sent false r :: rest => q_auth r = pu_now p (q_verb r) /\ pays uri user pass p cs rest
  | Sent true r :: rest =>
      match cs with
      | [] => False
      | (n, c) :: cs' => q_cseq r = n /\ q_auth r = pu_now (taught uri user pass p c) (q_verb r) /\ pays uri user pass (taught uri user pass p c) cs' rest
      end
  | _ :: rest => pays uri user pass p cs rest
  end.
(* the server owes a reaction; the client can do something by itself *)
Definition gowed (g : gscene) : Prop := exists r, heard g r.
Definition gmoves (g : gscene) : Prop := exists e y', (is_turn e = true -> w_in (y_w (g_y g)) <> []) /\ ystep (g_y g) e = Some y'.
