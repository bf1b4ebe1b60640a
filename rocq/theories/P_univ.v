(* Properties C50, C59 and C68 again: what was refuted by an example, for all cases. *)
From Coq Require Import String.
From Verif Require Import Base GoStrings M_conn M_message M_transport M_session S_message S_session S_transport M_race S_race L_base L_transport L_race L_univ L_word P_transport.

(* C50: no transport that is interleaved comes back as such. *)
Theorem C50_flag_refuted : forall t, transport_ok t -> t_interleaved t = true ->
  exists u, transport_parse transport0 (transport_string t) = (u, None) /\ t_interleaved u = false /\ t_interleave u = t_interleave t.
Proof.
  intros t T I. exists (received transport0 t). splits; [apply C50_received_partial; exact T|reflexivity|]. unfold received. rewrite I. reflexivity.
Qed.
Print Assumptions C50_flag_refuted.

(* C59: whatever the session and whichever the two commands, there is an order of the steps in which both get the same number, and the first
   is no longer found. *)
Theorem C59_any_refuted : forall (x : racing) (i j : nat) (verb1 uri1 verb2 uri2 : bytes) (hs1 hs2 : header) (rest1 rest2 : list order),
  i <> j -> r_at x i = Idle -> r_at x j = Idle -> r_todo x i = (verb1, uri1, hs1) :: rest1 -> r_todo x j = (verb2, uri2, hs2) :: rest2 ->
  s_proto (w_s (r_w x)) <> ProtoHTTP ->
  exists (schedule : list nat) (r1 r2 : request), let y := race x schedule in
    w_log (r_w y) = w_log (r_w x) ++ [Sent false r1; Sent false r2] /\
    q_verb r1 = verb1 /\ q_uri r1 = uri1 /\ q_verb r2 = verb2 /\ q_uri r2 = uri2 /\
    q_cseq r1 = i64 (s_cseq (w_s (r_w x)) + 1) /\ q_cseq r2 = q_cseq r1 /\ qget (s_queue (w_s (r_w y))) (q_cseq r1) = Some r2.
Proof.
  intros x i j v1 u1 v2 u2 h1 h2 t1 t2 N A B T1 T2 P. exists [i; j; i; j; i; j; i; j]. exact (race_same x i j v1 u1 h1 t1 v2 u2 h2 t2 N A B T1 T2 P).
Qed.
Print Assumptions C59_any_refuted.

(* C68: exactly which words are taken for a status: three digits, a plus sign and two digits, or a minus sign and two zeros. *)
Theorem C68_exact : forall (st reason : bytes) (fields : list sfield) (rest : stream),
  st <> [] -> Forall (fun c => 33 <= c <= 126) st -> line_text reason -> Forall sfield_ok fields ->
  (receive_http (map Some (bs "HTTP/1.0 " ++ st ++ 32 :: reason ++ [13; 10] ++ flat_map sfield_text fields ++ [13; 10]) ++ rest) = (rest, Ok tt) <->
   exists a b c, st = [a; b; c] /\
     ((48 <= a <= 57 /\ 48 <= b <= 57 /\ 48 <= c <= 57) \/ (a = 43 /\ 48 <= b <= 57 /\ 48 <= c <= 57) \/ (a = 45 /\ b = 48 /\ c = 48))).
Proof. exact http_word. Qed.
Print Assumptions C68_exact.

Example C68_exact_case :
  map (fun st => snd (receive_http (map Some (bs "HTTP/1.0 " ++ bs st ++ bs " OK" ++ [13; 10] ++ bs "Pragma: x" ++ [13; 10; 13; 10]))))
    ["200"; "+20"; "-00"; "-01"; "20"; "2000"; "2x0"; "099"]%string =
  [Ok tt; Ok tt; Ok tt; Err ErrInvalidStatus; Err ErrInvalidStatus; Err ErrInvalidStatus; Err ErrInvalidStatus; Ok tt].
Proof. vm_compute. reflexivity. Qed.

(* a keep-alive of the loop and a PAUSE of the application, in a session that has sent nine requests *)
Example C59_any_case :
  let x := mkR (mkW (set_cseq (dialled ProtoUnicast None (bs "rtsp://h/s")) 9) [] [] [] [] []) (fun _ => Idle)
    (fun i => match i with 0%nat => [(bs "OPTIONS", bs "rtsp://h/s", [(bs "Session", bs "7")])] | 1%nat => [(bs "PAUSE", bs "rtsp://h/s", [])] | _ => [] end) in
  let y := race x [0; 1; 0; 1; 0; 1; 0; 1]%nat in
  map (fun e => match e with Sent _ r => (q_verb r, q_cseq r) | _ => ([], 0) end) (w_log (r_w y)) = [(bs "OPTIONS", 10); (bs "PAUSE", 10)] /\
  map (fun e => (fst e, q_verb (snd e))) (s_queue (w_s (r_w y))) = [(10, bs "PAUSE")].
Proof. vm_compute. split; reflexivity. Qed.

Example C50_flag_case :
  transport_string (new_transport ProtoTCP 6) = bs "RTP/AVP/TCP;interleaved=6-7" /\ t_interleaved (new_transport ProtoTCP 6) = true /\
  t_interleaved (fst (transport_parse transport0 (bs "RTP/AVP/TCP;interleaved=6-7"))) = false.
Proof. vm_compute. splits; reflexivity. Qed.
