(* C150: the loop of a session does not spin. *)
From Coq Require Import String ZifyBool ZifyNat.
From Verif Require Import Base GoStrings M_conn M_message M_transport M_session S_session L_base L_spin.

(* While the loop goes on, every turn has used up at least one byte of what the server sends, or one pause as long as the timeout:
   whatever is sent, whatever the application asks for in between and whichever writes fail ... *)
Theorem C150_turns : forall (w w' : world) (es : list event),
  M_session.run (w, Live) es = (w', Live) -> (turns es + length (w_in w') <= length (w_in w))%nat.
Proof. intros w w' es H. exact (proj2 (run_live es w Live w' H)). Qed.
Print Assumptions C150_turns.

(* ... so the loop is over, at the latest, one turn after everything has been read. *)
Theorem C150_ends : forall (w : world) (es : list event), (length (w_in w) < turns es)%nat -> snd (M_session.run (w, Live) es) <> Live.
Proof. intros w es L H. destruct (M_session.run (w, Live) es) as [w' l] eqn:E. cbn [snd] in H. subst l. apply C150_turns in E. lia. Qed.
Print Assumptions C150_ends.

(* a pause, an empty frame, a pause inside a line: three turns; the fourth meets the end of the connection *)
Example C150_case :
  let w := mkW (set_stage (dialled ProtoTCP None (bs "rtsp://h/s")) StagePlay) [None; Some 36; Some 0; Some 0; Some 0; Some 82; None] [] [] [] [] in
  map (fun n => snd (M_session.run (w, Live) (repeat (Turn 0 0) n))) [1; 2; 3; 4; 5]%nat = [Live; Live; Live; NoLoop; NoLoop] /\
  length (w_in (fst (M_session.run (w, Live) (repeat (Turn 0 0) 2)))) = 2%nat.
Proof. vm_compute. split; reflexivity. Qed.
