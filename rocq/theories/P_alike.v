(* Property C178: packets that differ are not read alike. *)
From Verif Require Import Base S_rtp S_alike M_rtp L_base L_nal L_rtp L_alike.

(* A media packet can be told from any other by what Unpack returns: every bit of it is there. *)
Theorem C178_rtp : forall (a b : bytes) (p : rtp_packet), bytes_ok a -> bytes_ok b -> rtp_unpack a = Ok p -> rtp_unpack b = Ok p -> a = b.
Proof. exact rtp_alike. Qed.
Print Assumptions C178_rtp.

(* Missing: of a control packet only the header is there, and in a sender report the sender's part.
   Two are read alike exactly when they agree in that. *)
Theorem C178_rtcp_partial : forall (a b : bytes) (p : rtcp_packet), bytes_ok a -> bytes_ok b -> rtcp_unpack a = Ok p ->
  (rtcp_unpack b = Ok p <-> firstn (part_read a) b = firstn (part_read a) a /\ room a <= zlen b).
Proof. exact rtcp_alike. Qed.
Print Assumptions C178_rtcp_partial.

(* Sender reports with different report blocks are read alike, and are not refused. *)
Theorem C178_reports_refuted : forall (padding : bool) (len : Z) (s : sender_info) (l m : list report_block) (rest : bytes),
  word 2 len -> si_legal s -> zlen l <= 31 -> zlen m = zlen l ->
  exists p, rtcp_unpack (sr_layout padding len s l rest) = Ok p /\ rtcp_unpack (sr_layout padding len s m rest) = Ok p.
Proof.
  intros padding len s l m rest W S L E. eexists. split; [apply rtcp_unpack_sr; assumption|].
  rewrite rtcp_unpack_sr by (try assumption; lia). rewrite E. reflexivity.
Qed.
Print Assumptions C178_reports_refuted.

(* Neither are the contents of receiver reports, descriptions of sources and goodbyes there: who says it is not known. *)
Theorem C178_others_refuted : forall (padding : bool) (count type len : Z) (x y : bytes),
  0 <= count <= 31 -> type <> 200 -> word 2 len ->
  exists p, rtcp_unpack (rtcp_header_bytes padding count type len ++ x) = Ok p /\ rtcp_unpack (rtcp_header_bytes padding count type len ++ y) = Ok p.
Proof.
  intros padding count type len x y C T W. eexists. split; apply rtcp_unpack_other; assumption.
Qed.
Print Assumptions C178_others_refuted.

(* Two media packets that differ in the profile of an empty extension; goodbyes of two sources; sender reports of one source that
   differ in a block, in a counter. *)
Example C178_case :
  let x := [144; 96; 0; 1; 0; 0; 0; 2; 0; 0; 0; 3; 190; 222; 0; 0; 65] in let y := [144; 96; 0; 1; 0; 0; 0; 2; 0; 0; 0; 3; 16; 0; 0; 0; 65] in
  rtp_unpack x <> rtp_unpack y /\
  rtcp_unpack [129; 203; 0; 1; 0; 0; 0; 7] = rtcp_unpack [129; 203; 0; 1; 0; 0; 0; 9] /\
  let r q n := sr_layout false 12 (mkSI 1 2 3 q 5) [mkRB 6 7 n 9 10 11 12] [] in
  rtcp_unpack (r 4 8) = rtcp_unpack (r 4 20) /\ rtcp_unpack (r 4 8) <> rtcp_unpack (r 5 8) /\ part_read (r 4 8) = 28%nat /\ room (r 4 8) = 52.
Proof. intros x y. split; [|split]; [vm_compute; discriminate|vm_compute; reflexivity|]. intros r. splits; try (vm_compute; reflexivity). vm_compute. discriminate. Qed.
