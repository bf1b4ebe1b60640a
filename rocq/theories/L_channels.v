(* Lemmas: the channels of an interleaved connection. *)
From Verif Require Import Base GoStrings S_rtp M_rtp S_annexb M_annexb S_nal M_nal M_conn M_message M_transport M_session S_session M_main S_main S_handshake S_media
  L_base L_annexb L_rtp L_nal L_session L_frames L_main L_handshake L_media.
From Coq Require Import ZifyBool ZifyNat.

Lemma packet_parity c a b p : a mod 2 = b mod 2 -> on_packet c a p = on_packet c b p.
Proof. intros H. unfold on_packet. rewrite H. reflexivity. Qed.

Lemma shown_moved f fs : (forall k, f k mod 2 = k mod 2) -> forall c, shown c (map (fun e => (f (fst e), snd e)) fs) = shown c fs.
Proof.
  intros F. induction fs as [|[k p] fs IH]; intros c; [reflexivity|]. cbn [map fst snd shown]. rewrite (packet_parity c (f k) k p (F k)), F.
  destruct (on_packet c k p) as [c1 []]; try reflexivity. rewrite IH. reflexivity.
Qed.

(* a media packet read as a control packet, unless it looks like a sender report *)
Lemma media_as_control c k h pl : k mod 2 = 1 -> rtp_legal h -> bytes_ok (rtp_layout h pl) -> ~ (h_marker h = true /\ h_type h = 72) -> on_packet c k (rtp_layout h pl) = (c, Goes).
Proof.
  intros O (T & _ & _ & _ & CL & _) B N. pose proof (zlen_nonneg (h_csrc h)) as ZN. apply control_packet; [exact B|exact O| |].
  - unfold control_crash, rtp_layout. intros X. unfold zlen in X. rewrite !app_length, !be_put_length in X. cbn [length] in X. lia.
  - unfold control_leave. intros [_ [V|(a & r & E & _)]].
    + apply V. unfold version2. eexists. eexists. split; [unfold rtp_layout; cbn [app]; reflexivity|]. unfold bit. destruct (h_padding h), (h_ext h); lia.
    + unfold rtp_layout in E. cbn [app] in E. injection E as _ E _. apply N. unfold bit in E. destruct (h_marker h); [split; [reflexivity|lia]|lia].
Qed.

Lemma shown_odd fs : forall c, Forall (fun e => fst e mod 2 = 1 /\ exists h pl, rtp_legal h /\ snd e = rtp_layout h pl /\ bytes_ok (snd e) /\ ~ (h_marker h = true /\ h_type h = 72)) fs ->
  shown c fs = ([], c, Goes).
Proof.
  induction fs as [|[k p] fs IH]; intros c F; [reflexivity|]. apply Forall_cons_iff in F as [(O & h & pl & L & E & B & N) F]. cbn [fst snd] in *. subst p.
  cbn [shown]. rewrite (media_as_control c k h pl O L B N), IH by exact F. replace (k mod 2 =? 0) with false by lia. reflexivity.
Qed.

Lemma be_put_app a b z : be_put (a + b) z = be_put a (z / 256 ^ Z.of_nat b) ++ be_put b z.
Proof.
  induction a as [|a IH]; [reflexivity|]. cbn [Nat.add be_put app]. rewrite IH. f_equal.
  rewrite Z.div_div by (apply Z.pow_nonzero || apply Z.pow_pos_nonneg; lia). rewrite <- Z.pow_add_r by lia. do 3 f_equal. lia.
Qed.

(* a sender report without blocks is a media packet of type 72 *)
Lemma report_as_media padding len s rest : sr_layout padding len s [] rest =
  rtp_layout (mkRtpH padding true 72 len (si_ssrc s) (si_ntp s / 2 ^ 32) [] None) (be_put 4 (si_ntp s) ++ be_put 4 (si_rtp s) ++ be_put 4 (si_packets s) ++ be_put 4 (si_octets s) ++ rest).
Proof.
  unfold sr_layout, rtp_layout, rtcp_header_bytes. cbn [h_padding h_marker h_type h_seq h_time h_ssrc h_csrc h_ext flat_map]. change 8%nat with (4 + 4)%nat.
  rewrite (be_put_app 4 4). change (256 ^ Z.of_nat 4) with (2 ^ 32). rewrite <- !app_assoc. cbn [app]. f_equal. change (zlen (A:=report_block) []) with 0. change (zlen (A:=Z) []) with 0. unfold bit. lia.
Qed.
