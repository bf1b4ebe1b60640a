(* C133: parameters that a Transport field leaves out. *)
From Coq Require Import String.
From Verif Require Import Base GoStrings S_transport M_transport S_omits L_base L_strings L_omits.

(* C133  Full statement: reading a Transport field gives every parameter that it leaves out the default value of RFC 2326 12.39. *)
(* What is left out stays as it was, whatever else the field says, and whether or not it can be read. *)
Theorem C133_kept_partial : forall u fields, fields <> [] -> Forall (fun f => ~ In 59 f) fields ->
  keeps u (fst (transport_parse u (join 59 fields))) (fun k => omits k fields).
Proof. exact keeps_parse. Qed.
Print Assumptions C133_kept_partial.

(* But the default is multicast, and PLAY: a new Transport stays unicast and without a mode. *)
Theorem C133_default_refuted : forall fields, fields <> [] -> Forall (fun f => ~ In 59 f) fields ->
  omits "unicast" fields -> omits "multicast" fields -> omits "interleaved" fields -> omits "mode" fields ->
  t_multicast (fst (transport_parse transport0 (join 59 fields))) = false /\ t_mode (fst (transport_parse transport0 (join 59 fields))) = [].
Proof. intros fields N F A B C D. destruct (keeps_parse transport0 fields N F) as (K1 & K). split; [apply K1; assumption|apply K; exact D]. Qed.
Print Assumptions C133_default_refuted.

Example C133_case :
  transport_parse transport0 (bs "RTP/AVP;destination=224.2.0.1;port=3456-3457;TTL=127") =
    (mkTr false false false false pair0 (mkPair 3456 3457) pair0 pair0 0 127 (bs "224.2.0.1") [] [] [], None) /\
  transport_parse (new_transport ProtoMulticast 0) (bs "RTP/AVP;destination=224.2.0.1") =
    (mkTr false true false false pair0 (mkPair 50000 50001) pair0 pair0 0 0 (bs "224.2.0.1") [] [] (bs "PLAY"), None) /\
  omits "ttl" [bs "RTP/AVP"; bs "destination=224.2.0.1"] /\ ~ omits "ttl" [bs "TTL=127"].
Proof.
  splits; try (vm_compute; reflexivity).
  - repeat constructor; vm_compute; discriminate.
  - intros F. apply Forall_inv in F. apply F. vm_compute. reflexivity.
Qed.
