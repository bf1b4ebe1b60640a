(* C122: what a session opened is closed when it is over. *)
From Coq Require Import String.
From Verif Require Import Base GoStrings M_conn M_message M_transport M_session S_session S_message S_handshake M_udp L_base L_held.

(* Full statement: when the server has acknowledged TEARDOWN, or the connection is lost, the UDP ports of the session are closed. *)

(* False for every session that listens: after any history, Done and the end of the loop included, the listeners are all those ever opened,
   in order.  (No call of Stop is made by the session or the program; what Stop does is in C66.) *)
Theorem C122_kept_refuted : forall proto user uri input writes listens rand es w' l',
  M_session.run (mkW (dialled proto user uri) input writes listens rand [], Live) es = (w', l') -> s_sinks (w_s w') = listenings (w_log w').
Proof. intros proto user uri input writes listens rand es w' l' R. exact (run_held es (mkW (dialled proto user uri) input writes listens rand []) Live w' l' eq_refl R). Qed.
Print Assumptions C122_kept_refuted.

(* Right for sessions that never listened. *)
Theorem C122_none_partial : forall proto user uri input writes listens rand es w' l',
  M_session.run (mkW (dialled proto user uri) input writes listens rand [], Live) es = (w', l') ->
  (forall ch port, ~ In (Listening ch port) (w_log w')) -> s_sinks (w_s w') = [].
Proof.
  intros proto user uri input writes listens rand es w' l' R N. rewrite (C122_kept_refuted _ _ _ _ _ _ _ _ _ _ R).
  induction (w_log w') as [|e l IH]; [reflexivity|]. cbn [listenings flat_map]. change (flat_map _ l) with (listenings l).
  rewrite IH by (intros ch port I; apply (N ch port); right; exact I). destruct e; try reflexivity. exfalso. apply (N ch port). left. reflexivity.
Qed.
Print Assumptions C122_none_partial.

Definition nl : bytes := [13; 10].
Definition described : bytes := bs "v=0" ++ nl ++ bs "m=video 0 RTP/AVP 96" ++ nl ++ bs "a=rtpmap:96 H264/90000" ++ nl ++ bs "a=control:track1" ++ nl.
Definition reply (n : string) (fs : list sfield) (body : bytes) : stream :=
  item_stream (Resp 200 (bs "OK") (mkField (bs "CSeq") (bs " ") (bs n) :: mkField (bs "Content-Length") (bs " ") (itoa (zlen body)) :: fs) body).
Definition conversation : stream :=
  reply "1" [] [] ++ reply "2" [] described ++ reply "3" [mkField (bs "Transport") (bs " ") (bs "RTP/AVP;multicast;port=5000-5001")] [] ++ reply "4" [] [].

(* A session over UDP is set up and torn down; it is Done and both ports are still open. *)
Example C122_case :
  let w := fst (M_session.run (mkW (dialled ProtoMulticast None (bs "rtsp://h/s")) conversation [] [] [] [], Live) [App COptions; Turn 0 0; Turn 0 0; Turn 0 0; App CTeardown; Turn 1 1]) in
  stages (w_log w) = [StageReady; StageDone] /\ map snd (s_sinks (w_s w)) = [5000; 5001].
Proof. cbv zeta. splits; vm_compute; reflexivity. Qed.
