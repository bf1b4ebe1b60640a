(* Property C59: commands issued by several goroutines. *)
From Coq Require Import String.
From Verif Require Import Base GoStrings M_conn M_message M_transport M_session S_session M_race S_race L_race.

(* As long as no goroutine begins a command while another is between the increment of the number and its use, the numbers
   of all requests are different and every request is found under its number. *)
Theorem C59_exclusive_partial : forall (x : racing) (schedule : list nat),
  s_proto (w_s (r_w x)) <> ProtoHTTP -> - 2 ^ 63 <= s_cseq (w_s (r_w x)) -> s_cseq (w_s (r_w x)) + zlen schedule < 2 ^ 63 ->
  (forall i, r_at x i = Idle) -> w_log (r_w x) = [] -> exclusive x schedule ->
  NoDup (new_cseqs (w_log (r_w (race x schedule)))) /\
  (forall again r, In (Sent again r) (w_log (r_w (race x schedule))) ->
     qget (s_queue (w_s (r_w (race x schedule)))) (q_cseq r) = Some r).
Proof. exact race_unique. Qed.
Print Assumptions C59_exclusive_partial.

(* one goroutine alone does what the sequential model of a command does *)
Theorem C59_alone : forall (x : racing) (i : nat) (verb uri : bytes) (hs : header) (rest : list order),
  r_at x i = Idle -> r_todo x i = (verb, uri, hs) :: rest -> s_conn (w_s (r_w x)) = true ->
  let y := race x [i; i; i; i] in
  r_w y = fst (command (r_w x) verb uri hs) /\ r_at y i = Idle /\ r_todo y i = rest /\
  (forall j, j <> i -> r_at y j = r_at x j /\ r_todo y j = r_todo x j).
Proof. exact race_alone. Qed.
Print Assumptions C59_alone.

(* the loop answers a DESCRIBE with SETUP while the application asks for TEARDOWN *)
Definition two : racing :=
  mkR (mkW (dialled ProtoTCP None (bs "rtsp://h/s")) [] [] [] [] []) (fun _ => Idle)
      (fun i => match i with 0%nat => [(bs "SETUP", bs "rtsp://h/s/one", [])] | 1%nat => [(bs "TEARDOWN", bs "rtsp://h/s", [])] | _ => [] end).

(* both load the same number *)
Theorem C59_lost_update_refuted : exists (schedule : list nat) (r1 r2 : request),
  let y := race two schedule in
  w_log (r_w y) = [Sent false r1; Sent false r2] /\ q_verb r1 = bs "SETUP" /\ q_verb r2 = bs "TEARDOWN" /\ q_cseq r1 = 1 /\ q_cseq r2 = 1 /\
  qget (s_queue (w_s (r_w y))) 1 = Some r2 /\ s_cseq (w_s (r_w y)) = 1.
Proof. exists [0; 1; 0; 1; 0; 1; 0; 1]%nat. do 2 eexists. vm_compute. repeat split. Qed.
Print Assumptions C59_lost_update_refuted.

(* or both increments come before either use, so that a number is skipped as well *)
Theorem C59_late_use_refuted : exists (schedule : list nat) (r1 r2 : request),
  let y := race two schedule in
  w_log (r_w y) = [Sent false r1; Sent false r2] /\ q_verb r1 = bs "SETUP" /\ q_verb r2 = bs "TEARDOWN" /\ q_cseq r1 = 2 /\ q_cseq r2 = 2 /\
  qget (s_queue (w_s (r_w y))) 1 = None /\ qget (s_queue (w_s (r_w y))) 2 = Some r2.
Proof. exists [0; 0; 1; 1; 0; 1; 0; 1]%nat. do 2 eexists. vm_compute. repeat split. Qed.
Print Assumptions C59_late_use_refuted.

(* a schedule that satisfies the condition, with overlapping commands *)
Example C59_example :
  exclusive two [0; 0; 0; 1; 1; 1; 1; 0]%nat /\ new_cseqs (w_log (r_w (race two [0; 0; 0; 1; 1; 1; 1; 0]%nat))) = [2; 1].
Proof.
  split; [|vm_compute; reflexivity]. cbn [exclusive].
  repeat split; try (intros E; vm_compute in E; discriminate E); intros _ j; destruct j as [|[|j]]; vm_compute; reflexivity.
Qed.
