(* Property C66: packets on UDP listeners. *)
From Verif Require Import Base M_udp S_udp L_base L_udp.
From Coq Require Import Permutation.

(* Full statement: once started, a listener's packets come out of Data, and Stop closes it.  The first half is false in
   every execution: until Stop is called nothing is delivered, whatever arrives and in whichever order things happen. *)
Theorem C66_start_refuted : forall (es : list uevent) (u : udp),
  urun udp0 es = Some u -> existsb is_stop es = false -> delivered u = [].
Proof.
  intros es u R S. pose proof (run_told es _ _ R) as T. destruct (no_stop_untold es _ _ R eq_refl S) as [Z _]. rewrite Z in T.
  destruct (delivered u); [reflexivity|cbn in T; lia].
Qed.
Print Assumptions C66_start_refuted.

(* Each listener told to stop lets one more packet through, and no more. *)
Theorem C66_told_partial : forall (es : list uevent) (u : udp),
  urun udp0 es = Some u -> (length (delivered u) <= told es)%nat.
Proof. intros es u R. pose proof (run_told es _ _ R) as T. cbn in T. lia. Qed.
Print Assumptions C66_told_partial.

(* Stop tells a listener once and forgets it: over a whole execution, with any number of Starts and Stops, there are never
   more packets than there have been listeners. *)
Theorem C66_one_each_partial : forall (es : list uevent) (u : udp),
  urun udp0 es = Some u -> (length (delivered u) <= length (channels es))%nat.
Proof.
  intros es u R. pose proof (C66_told_partial es u R) as T. pose proof (run_once es _ _ R) as O. pose proof (run_channels es _ _ R) as C. apply (f_equal (@length Z)) in C.
  rewrite app_length, !map_length in C. cbn in C, O. lia.
Qed.
Print Assumptions C66_one_each_partial.

(* A goroutine that has been told reads the next datagram and delivers it, with the channel of its listener. *)
Theorem C66_reads_partial : forall (u : udp) (i j : nat) (l : listener) (p : bytes) (rest : list bytes),
  nth_error (u_all u) i = Some l -> nth_error (l_readers l) j = Some Reading -> l_open l = true -> l_socket l = p :: rest -> zlen (u_data u) < 20 ->
  exists u', urun u [ReadOne i j; Deliver i j] = Some u' /\ delivered u' = delivered u ++ [(l_ch l, first_2048 p)].
Proof.
  intros u i j l p rest N R O K D. cbn [urun ustep]. rewrite N, R, O, K. cbn [put_all put_reader l_ch l_socket l_open l_readers u_all u_data u_taken].
  rewrite upd_nth_same by (apply nth_error_Some; congruence). cbn [put_reader l_readers]. rewrite upd_nth_same by (apply nth_error_Some; congruence).
  destruct (Z.ltb_spec (zlen (u_data u)) 20); [|lia]. eexists. split; [reflexivity|]. unfold delivered. cbn [u_taken u_data l_ch]. rewrite app_assoc. reflexivity.
Qed.
Print Assumptions C66_reads_partial.

(* In every execution nothing is invented, repeated or put on another channel: what was delivered, what goroutines hold and what
   lies in the sockets is together what arrived (each cut at the 2048 bytes of the read buffer). *)
Theorem C66_accounting : forall (es : list uevent) (u : udp),
  urun udp0 es = Some u -> Permutation (delivered u ++ flat_map held (u_all u)) (offered (channels es) es).
Proof.
  intros es u R. pose proof (run_channels es _ _ R) as C. pose proof (run_account es (channels es) _ _ R ltac:(exists []; rewrite app_nil_r, C; reflexivity)) as P.
  cbn in P. rewrite app_nil_r in P. exact P.
Qed.
Print Assumptions C66_accounting.

(* The second half is false as well: no execution closes a listener unless a read fails for good. *)
Theorem C66_stop_refuted : forall (es : list uevent) (u : udp),
  urun udp0 es = Some u -> existsb is_failure es = false -> Forall (fun l => l_open l = true) (u_all u).
Proof. intros es u R F. exact (run_open es _ _ R F (Forall_nil _)). Qed.
Print Assumptions C66_stop_refuted.

(* Stop before Start never comes back: it waits for a goroutine that does not exist. *)
Theorem C66_stop_hangs : forall (es : list uevent) (u u' : udp) (i : nat) (rest : list nat) (l : listener),
  u_stop u = Some (i :: rest) -> nth_error (u_all u) i = Some l -> l_readers l = [] ->
  urun u es = Some u' -> existsb is_start es = false -> u_stop u' = Some (i :: rest).
Proof. intros es u u' i rest l S N R H X. exact (proj1 (run_stuck es u u' i rest l H X S N R)). Qed.
Print Assumptions C66_stop_hangs.

(* A session with two listeners, each started, and three datagrams: nothing is read; then Stop returns, one packet of
   each listener comes out, and both sockets are still open. *)
Example C66_example :
  (exists u, urun udp0 [Add 2; Add 3; StartAll; Arrive 0 [1]; Arrive 1 [2]; Arrive 0 [3]] = Some u /\ delivered u = [] /\
     map l_socket (u_all u) = [[[1]; [3]]; [[2]]]) /\
  (exists u, urun udp0 [Add 2; Add 3; StartAll; Arrive 0 [1]; Arrive 1 [2]; Arrive 0 [3]; StopBegin; StopTell 0; StopTell 0; StopEnd;
                        ReadOne 1 0; ReadOne 0 0; Deliver 0 0; Deliver 1 0; Take] = Some u /\
     u_taken u = [(2, [1])] /\ delivered u = [(2, [1]); (3, [2])] /\ map l_open (u_all u) = [true; true] /\ map l_socket (u_all u) = [[[3]]; []]).
Proof. split; eexists; vm_compute; splits; reflexivity. Qed.
(* the hypotheses of C66_stop_hangs are met *)
Example C66_hang_example : exists u l, urun udp0 [Add 2; StopBegin] = Some u /\ u_stop u = Some [0%nat] /\ nth_error (u_all u) 0 = Some l /\ l_readers l = [].
Proof. do 2 eexists. vm_compute. splits; reflexivity. Qed.
