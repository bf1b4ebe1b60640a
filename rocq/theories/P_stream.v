(* C139: the packets of a stream.  C140: the contents of control packets. *)
From Coq Require Import String.
From Verif Require Import Base GoStrings S_rtp M_rtp S_annexb S_nal M_nal M_conn M_message M_transport M_session S_session M_main S_main S_handshake S_media S_compound
  L_base L_rtp L_compound L_main L_media L_channels P_nal P_media P_compound.
From Coq Require Import ZifyBool ZifyNat.

(* ---- C139 ---- *)
(* Full statement: the units of a stream are shown once each, in the order of the sequence numbers, and nothing is shown of packets from another
   source or of another payload type.  False: two sequences of packets that have channels, timestamps and payloads in common show the same, whatever
   the sequence numbers, the sources and the payload types. *)
Theorem C139_blind_refuted : forall (ch : Z) (hs : list (rtp_header * rtp_header * bytes)) (c : client), ch mod 2 = 0 ->
  Forall (fun e => let '(h, h', _) := e in rtp_legal h /\ rtp_legal h' /\ h_time h = h_time h') hs ->
  shown c (map (fun e => let '(h, _, pl) := e in (ch, rtp_layout h pl)) hs) = shown c (map (fun e => let '(_, h', pl) := e in (ch, rtp_layout h' pl)) hs).
Proof.
  intros ch hs c O F. revert c. induction hs as [|[[h h'] pl] hs IH]; intros c; [reflexivity|]. apply Forall_cons_iff in F as [(L & L' & T) F].
  cbn [map shown]. rewrite !media_packet, T by assumption. destruct (snd (push (c_sink c) pl (h_time h'))); try reflexivity. rewrite IH by exact F. reflexivity.
Qed.
Print Assumptions C139_blind_refuted.

(* So a packet that comes twice is shown twice, the unit of the second with the next number... *)
Theorem C139_twice_refuted : forall (ch : Z) (h : rtp_header) (x : Z) (d : bytes) (c : client),
  ch mod 2 = 0 -> rtp_legal h -> h_padding h = false -> sending_ok (Whole x d) -> don_ok (c_sink c) ->
  let p := (ch, rtp_layout h (encapsulate (x :: d))) in
  exists c', shown c [p; p] = ([mkUnit x (s_don (c_sink c)) (h_time h) d; mkUnit x ((s_don (c_sink c) + 1) mod 2 ^ 16) (h_time h) d], c', Goes).
Proof.
  intros ch h x d c O L P K D p.
  destruct (C81_media_partial ch [(h_time h, Whole x d); (h_time h, Whole x d)] [p; p] c O) as (c' & E); [constructor; [exact K|constructor; [exact K|constructor]]|exact D| |exists c'; exact E].
  cbn [all_payloads flat_map stamped map fst snd payloads app]. do 2 (apply sa_media; [exact L|exact P|]). apply sa_end.
Qed.
Print Assumptions C139_twice_refuted.

(* ...and units whose packets come in another order are shown in that order, with numbers that follow it. *)
Theorem C139_order_refuted : forall (ch : Z) (arrived : list (rtp_header * (Z * bytes))) (c : client), ch mod 2 = 0 -> don_ok (c_sink c) ->
  Forall (fun e => rtp_legal (fst e) /\ h_padding (fst e) = false /\ sending_ok (Whole (fst (snd e)) (snd (snd e)))) arrived ->
  exists us c', shown c (map (fun e => (ch, rtp_layout (fst e) (encapsulate (fst (snd e) :: snd (snd e))))) arrived) = (us, c', Goes) /\
    map (fun u => (u_header u, u_ts u, u_data u)) us = map (fun e => (fst (snd e), h_time (fst e), snd (snd e))) arrived /\
    map u_don us = map (fun i => (s_don (c_sink c) + Z.of_nat i) mod 2 ^ 16) (seq 0 (length arrived)).
Proof.
  intros ch arrived c O D F.
  set (l := map (fun e : rtp_header * (Z * bytes) => (h_time (fst e), Whole (fst (snd e)) (snd (snd e)))) arrived).
  destruct (C81_media_partial ch l (map (fun e => (ch, rtp_layout (fst e) (encapsulate (fst (snd e) :: snd (snd e))))) arrived) c O) as (c' & E); [| exact D | |].
  - apply Forall_map. eapply Forall_impl; [|exact F]. intros e (_ & _ & K). exact K.
  - unfold l. clear - F. induction arrived as [|e r IH]; [constructor|]. apply Forall_cons_iff in F as [(L & P & _) F]. cbn [map]. unfold all_payloads. cbn [flat_map stamped map fst snd payloads app].
    apply sa_media; [exact L|exact P|]. apply IH. exact F.
  - exists (all_units (s_don (c_sink c)) l), c'. split; [exact E|]. clear E. unfold don_ok in D.
    assert (G : forall n k, 0 <= n < 2 ^ 16 -> n = (s_don (c_sink c) + Z.of_nat k) mod 2 ^ 16 ->
      map (fun u => (u_header u, u_ts u, u_data u)) (all_units n l) = map (fun e => (fst (snd e), h_time (fst e), snd (snd e))) arrived /\
      map u_don (all_units n l) = map (fun i => (s_don (c_sink c) + Z.of_nat i) mod 2 ^ 16) (seq k (length arrived))).
    { unfold l. clear - D. induction arrived as [|e r IH]; intros n k R N; [split; reflexivity|]. cbn [map all_units units_of counts app length seq u_header u_ts u_data u_don].
      destruct (IH ((n + 1) mod 2 ^ 16) (S k)) as [A B]; [apply Z.mod_pos_bound; lia| |rewrite A, B, N; split; reflexivity].
      rewrite N, Zplus_mod_idemp_l. f_equal. lia. }
    apply (G (s_don (c_sink c)) 0%nat D). rewrite Z.add_0_r, Z.mod_small by exact D. reflexivity.
Qed.
Print Assumptions C139_order_refuted.

(* The second of three packets comes twice, the third before it; the first is from another source and says it is not video. *)
Example C139_case :
  let at_n n t s pl := (0, rtp_layout (mkRtpH false true t n 93 s [] None) pl) in
  Forall (fun h => rtp_legal h) [mkRtpH false true 8 3 93 7 [] None; mkRtpH false true 96 5 93 1 [] None] /\
  fst (fst (shown client0 [at_n 3 8 7 [65; 1]; at_n 5 96 1 [65; 3]; at_n 4 96 1 [65; 2]; at_n 4 96 1 [65; 2]])) =
    [mkUnit 65 0 93 [1]; mkUnit 65 1 93 [3]; mkUnit 65 2 93 [2]; mkUnit 65 3 93 [2]].
Proof. split; [|vm_compute; reflexivity]. unfold rtp_legal, word. repeat constructor; cbn; lia. Qed.

(* ---- C140 ---- *)
(* Full statement: of every control packet Unpack returns what it says: the sources and the reason of a goodbye, the blocks of a receiver report, the
   items of a description.  What it returns of a packet that is no sender report is the same for all contents of that length... *)
Theorem C140_blind_refuted : forall (padding : bool) (count type : Z) (body body' rest : bytes),
  report_legal (Other padding count type body) -> zlen body = zlen body' ->
  rtcp_unpack (report_bytes (Other padding count type body) ++ rest) = rtcp_unpack (report_bytes (Other padding count type body') ++ rest).
Proof.
  intros padding count type body body' rest L E.
  assert (L' : report_legal (Other padding count type body')) by (unfold report_legal, report_size in *; rewrite <- E; exact L).
  rewrite !report_unpack by assumption. cbn [packet_of report_size]. rewrite E. reflexivity.
Qed.
Print Assumptions C140_blind_refuted.

(* ...namely its first word. *)
Theorem C140_header_partial : forall (padding : bool) (count type : Z) (body rest : bytes), report_legal (Other padding count type body) ->
  exists p, rtcp_unpack (report_bytes (Other padding count type body) ++ rest) = Ok p /\
    rtcp_P p = padding /\ rtcp_C p = count /\ rtcp_pt p = type /\ 4 * (rtcp_ln p + 1) = 4 + zlen body /\ rtcp_dsr p = None.
Proof.
  intros padding count type body rest L. destruct (C125_walk [Other padding count type body] rest ltac:(constructor; [exact L|constructor])) as (ps & W & F).
  rewrite walk_reports in W by (constructor; [exact L|constructor]). injection W as <-.
  inversion F as [|r p rs ps' Q F']; subst. destruct Q as (N & P & C & T & D). exists (packet_of (Other padding count type body)). rewrite report_length in N. splits; try assumption; try reflexivity.
  apply report_unpack. exact L.
Qed.
Print Assumptions C140_header_partial.

(* And the program takes no notice: after any legal packets on the channel of a stream's reports, goodbyes among them, it is as before. *)
Theorem C140_goodbye_refuted : forall (k : Z) (r : report) (rs : list report) (c : client), k mod 2 = 1 -> report_legal r ->
  on_packet c k (flat_map report_bytes (r :: rs)) = (c, Goes).
Proof.
  intros k r rs c O L. unfold on_packet. replace (k mod 2 =? 0) with false by lia. cbn [flat_map]. rewrite report_unpack by exact L. reflexivity.
Qed.
Print Assumptions C140_goodbye_refuted.

(* Two goodbyes, from one source each, with different reasons; a report and a goodbye. *)
Example C140_case :
  let bye s reason := Other false 1 203 ([0; 0; 0; s; zlen reason] ++ reason) in
  let stop := bye 1 (bs "stopped") in let shut := bye 2 (bs "closing") in
  report_legal stop /\ report_legal shut /\ rtcp_unpack (report_bytes stop) = Ok (mkRtcp 129 203 3 None) /\ rtcp_unpack (report_bytes shut) = Ok (mkRtcp 129 203 3 None) /\
  on_packet client0 1 (flat_map report_bytes [Sender false (mkSI 1 2 3 4 5) [] []; stop]) = (client0, Goes).
Proof. cbv zeta. unfold report_legal. splits; try (vm_compute; reflexivity); vm_compute; discriminate. Qed.
