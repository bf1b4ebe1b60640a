(* Property C172: media packets and silences do not disturb the session. *)
From Coq Require Import String.
From Verif Require Import Base GoStrings M_conn M_message M_transport M_session S_message S_session S_handshake S_aside L_base L_aside.
From Coq Require Import ZifyBool.

(* Full statement: the same for frames of any length.  It is false of the code beyond 2048 bytes (C172_long_refuted).
   Over TCP, with frames no longer than that (item_ok), for every history of commands and turns of the loop: take the frames and the silences out of what arrives, and the turns they took
   out of the history.  The same requests are sent, with the same texts, the same stages are announced, and the loop ends or goes on in the same way. *)
Theorem C172_media_partial : forall (w : world) (l : life) (es : list event) (items : list item) (rest rest' : stream),
  s_conn (w_s w) = true -> s_proto (w_s w) = ProtoTCP -> Forall item_ok items -> (turns es <= length items)%nat ->
  let '(w1, l1) := M_session.run (upd_in w (flat_map item_stream items ++ rest), l) es in
  let '(w2, l2) := M_session.run (upd_in w (flat_map item_stream (filter answers items) ++ rest'), l) (without items es) in
  l1 = l2 /\ sent_requests (w_log w1) = sent_requests (w_log w2) /\ stages (w_log w1) = stages (w_log w2) /\ listenings (w_log w1) = listenings (w_log w2).
Proof.
  intros w l es items rest rest' C P K T.
  assert (V : veq (upd_in w (flat_map item_stream items ++ rest)) (upd_in w (flat_map item_stream (filter answers items) ++ rest'))).
  { exists (s_verbs (w_s w)), (flat_map item_stream (filter answers items) ++ rest'), (w_log w). split; [|reflexivity]. destruct w as [[] ? ? ? ? ?]. reflexivity. }
  destruct (run_aside es items rest rest' _ _ l V C P K T ltac:(split; reflexivity)) as (S & V1).
  destruct (M_session.run (upd_in w (flat_map item_stream items ++ rest), l) es) as [w1 l1]. destruct (M_session.run (upd_in w (flat_map item_stream (filter answers items) ++ rest'), l) (without items es)) as [w2 l2].
  cbn [fst snd] in *. split; [exact S|]. destruct (veq_fields _ _ V1) as (_ & _ & _ & _ & _ & _ & _ & _ & _ & L). apply quiet_same. symmetry. exact L.
Qed.
Print Assumptions C172_media_partial.

(* A frame that is longer ends the loop: whatever answers come after it, none is taken. *)
Theorem C172_long_refuted : forall (w : world) (ch : Z) (p : bytes) (rest : stream) (clocks : list (Z * Z)) (t1 t2 : Z),
  2048 < zlen p <= 65535 -> s_conn (w_s w) = true -> s_proto (w_s w) = ProtoTCP ->
  let '(w', l') := M_session.run (upd_in w (sent (frame_text ch p) ++ rest), Live) (Turn t1 t2 :: turns_at clocks) in l' = NoLoop /\ w_log w' = w_log w.
Proof. exact long_deaf. Qed.
Print Assumptions C172_long_refuted.

(* frames and a silence before, between and after two answers: PLAY and PAUSE *)
Example C172_case :
  let items := [Frame 0 [1]; Resp 200 (bs "OK") [mkField (bs "CSeq") [32] (bs "1")] []; Quiet; Frame 1 [36; 0]; Frame 0 [7; 7]; Resp 200 (bs "OK") [mkField (bs "CSeq") [32] (bs "2")] []; Frame 0 [9]] in
  let w := mkW (dialled ProtoTCP None (bs "rtsp://h/s")) [] [] [] [] [] in
  let es := [App CPlay; Turn 0 0; Turn 0 0; App CPause; Turn 0 0; Turn 0 0; Turn 0 0; Turn 0 0; Turn 0 0] in
  without items es = [App CPlay; Turn 0 0; App CPause; Turn 0 0] /\
  let '(w1, l1) := M_session.run (upd_in w (flat_map item_stream items), Live) es in
  let '(w2, l2) := M_session.run (upd_in w (flat_map item_stream (filter answers items)), Live) (without items es) in
  l1 = Live /\ l2 = Live /\ map q_verb (sent_requests (w_log w1)) = [bs "PLAY"; bs "PAUSE"] /\ stages (w_log w1) = [StagePlay; StagePause] /\ stages (w_log w2) = [StagePlay; StagePause] /\
  packets (w_log w1) = [(0, [1]); (1, [36; 0]); (0, [7; 7]); (0, [9])] /\ packets (w_log w2) = [].
Proof. vm_compute. repeat split. Qed.
