(* Property C158: a request names only a session the server has given. *)
From Coq Require Import String Permutation.
From Verif Require Import Base GoStrings M_conn M_message M_transport M_session S_session S_message S_aggregate S_handshake S_named L_base L_named P_message P_home P_timeout.
From Coq Require Import ZifyBool.

(* Full statement: every Session field of a request is an identifier the server has given in this session, before the request.  It is, whatever
   the server sends and the application asks for, or the field is empty. *)
Theorem C158_given_partial : forall proto w es w' l' l1 again rq l2 order first fields rest k id,
  opened w proto -> M_session.run (w, Live) es = (w', l') -> w_log w' = l1 ++ Sent again rq :: l2 ->
  Permutation (q_header rq) order -> line_text (q_uri rq) -> line_text (q_session rq) -> line_text (q_auth rq) -> Forall field_ok (q_header rq) ->
  read_message (pack_request rq order) = Some (first, fields, rest) -> In (k, id) fields -> same_name k (bs "Session") = true ->
  id = [] \/ given_in l1 id.
Proof.
  intros proto w es w' l' l1 again rq l2 order first fields rest k id (user & uri & Es & El) R L P U Se A F RM J SN.
  destruct w as [s i wr li rd lg]. cbn [w_s w_log] in Es, El. subst s lg.
  assert (T : named (mkW (dialled proto user uri) i wr li rd [])) by (split; [left; reflexivity|split; [constructor|intros [|] ? ? ? X; discriminate X]]).
  pose proof (run_named es _ _ _ _ T R) as (_ & _ & K). destruct (K l1 again rq l2 L) as [K1 K2].
  assert (SH : shape uri rq) by (eapply C120_kinds; [exact R|rewrite L; apply in_elt]).
  destruct (C53_request rq order P) as (middle & E & PM); try assumption.
  { clear - SH. destruct SH as [| | | |v n a i [-> |[-> | ->]]]; cbn [q_verb]; split; intros X; repeat (destruct X as [X|X]; [discriminate X|]); destruct X. }
  rewrite E in RM. injection RM as <- <- <-. destruct J as [J|J]; [injection J as <- <-; discriminate SN|].
  apply (Permutation_in _ PM) in J. apply in_app_or in J. destruct J as [J|J].
  - apply K2. clear - SH J SN. destruct SH; cbn [q_header In] in *; repeat (destruct J as [J|J]); try contradiction; injection J as <- <-; try discriminate SN. left. reflexivity.
  - apply in_app_or in J. destruct J as [J|J].
    + destruct (beq (q_session rq) [] || _ || _); [destruct J|]. destruct J as [J|[]]. injection J as _ <-. exact K1.
    + exfalso. apply in_app_or in J. destruct J as [J|J]; [destruct (beq (q_auth rq) []); [destruct J|]; destruct J as [J|[]]|destruct J as [J|[J|[]]]]; injection J as <- _; discriminate SN.
Qed.
Print Assumptions C158_given_partial.

(* Empty fields are not allowed either (RFC 2326 3.4: a session identifier has at least one character), but sent: with a server that has given no
   identifier, the keep-alives over UDP have an empty Session field, in every history. *)
Theorem C158_empty_refuted : forall proto w es w1 t1 t2 w2 l2,
  opened w proto -> proto <> ProtoTCP -> proto <> ProtoHTTP -> M_session.run (w, Live) es = (w1, Live) -> 1 <= last_stage (w_log w1) <= 3 -> t1 <= t2 ->
  M_session.run (w1, Live) [Turn t1 t2] = (w2, l2) -> (forall id, id <> [] -> ~ given_in (w_log w2) id) ->
  exists a x y r b, w_log w2 = a ++ Alive x y :: Sent false r :: b /\ q_verb r = bs "OPTIONS" /\ q_header r = [(bs "Session", [])] /\ t1 - y < 2000000000.
Proof.
  intros proto w es w1 t1 t2 w2 l2 O T H R S L R2 N.
  destruct (C123_udp_partial proto w es w1 t1 t2 0 2000000000 t1 w2 l2 O T H R S L R2 ltac:(lia) ltac:(lia)) as (a & x & y & r & b & id & LG & V & HD & D).
  exists a, x, y, r, b. split; [exact LG|]. split; [exact V|]. split; [|exact D].
  assert (R3 : M_session.run (w, Live) (es ++ [Turn t1 t2]) = (w2, l2)).
  { unfold M_session.run in *. rewrite fold_left_app, R. exact R2. }
  destruct O as (user & uri & Es & El). destruct w as [s i wr li rd lg]. cbn [w_s w_log] in Es, El. subst s lg.
  assert (I : named (mkW (dialled proto user uri) i wr li rd [])) by (split; [left; reflexivity|split; [constructor|intros [|] ? ? ? X; discriminate X]]).
  pose proof (run_named _ _ _ _ _ I R3) as (_ & _ & K).
  destruct (K (a ++ [Alive x y]) false r b) as [_ K2]; [rewrite LG, <- app_assoc; reflexivity|].
  rewrite HD in *. destruct (K2 id (or_introl eq_refl)) as [-> |G]; [reflexivity|].
  destruct id as [|c id]; [reflexivity|]. exfalso. apply (N (c :: id)); [discriminate|]. destruct G as (q & J & G). exists q. split; [|exact G].
  rewrite LG. apply in_app_or in J. destruct J as [J|[J|[]]]; [|discriminate J]. apply in_or_app. left. exact J.
Qed.
Print Assumptions C158_empty_refuted.

(* two sessions playing over UDP: in one the server has given an identifier, in the other none *)
Example C158_case :
  let play := set_queue (set_stage (dialled ProtoUnicast None (bs "rtsp://h/s")) StageReady) [(7, mkReq (bs "PLAY") 7 (bs "rtsp://h/s") [] [] [])] in
  let after field := sent_requests (w_log (fst (M_session.run
      (mkW play (map Some (bs "RTSP/1.0 200 OK" ++ [13; 10] ++ bs "CSeq: 7" ++ [13; 10] ++ bs field ++ [13; 10; 13; 10]) ++ [None]) [] [] [] [], Live) [Turn 0 0; Turn 2000000000 2000000000]))) in
  map (fun r => pack_request r (q_header r)) (after "Session: 1F;timeout=60"%string) =
    [bs "OPTIONS rtsp://h/s RTSP/1.0" ++ [13; 10] ++ bs "CSeq: 1" ++ [13; 10] ++ bs "Session: " ++ [13; 10] ++ bs "User-Agent: Ouro/1.0" ++ [13; 10] ++ bs "Content-Length: 0" ++ [13; 10; 13; 10];
     bs "OPTIONS rtsp://h/s RTSP/1.0" ++ [13; 10] ++ bs "CSeq: 2" ++ [13; 10] ++ bs "Session: 1F" ++ [13; 10] ++ bs "User-Agent: Ouro/1.0" ++ [13; 10] ++ bs "Content-Length: 0" ++ [13; 10; 13; 10]] /\
  map q_header (after "Server: x"%string) = [[(bs "Session", [])]; [(bs "Session", [])]].
Proof. split; vm_compute; reflexivity. Qed.
