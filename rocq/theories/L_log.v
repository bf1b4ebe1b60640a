(* Lemmas: what the client prints. *)
From Coq Require Import String.
From Verif Require Import Base GoStrings S_rtp M_rtp S_annexb M_annexb S_nal M_nal M_conn M_message M_transport M_session S_session M_main S_main S_handshake S_media M_log S_log
  L_base L_rtp L_session L_frames L_main L_handshake L_media.
From Coq Require Import ZifyBool ZifyNat.

(* ---- the lines ---- *)
Lemma entry_nl m : entry (m ++ [13; 10]) = m ++ [13; 10].
Proof. unfold entry. change [13; 10] with ([13] ++ [10]). rewrite app_assoc, last_last. reflexivity. Qed.
Lemma bit7 h : (Z.land h 128 =? 0) = ((h / 128) mod 2 =? 0).
Proof.
  assert (E : (h / 128) mod 2 = Z.b2z (Z.testbit h 7)) by (rewrite Z.testbit_spec' by lia; reflexivity). rewrite E.
  destruct (Z.testbit h 7) eqn:B; cbn [Z.b2z].
  - apply Z.eqb_neq. intros X. apply (f_equal (fun z => Z.testbit z 7)) in X. rewrite Z.land_spec, B in X. discriminate.
  - apply Z.eqb_eq. apply Z.bits_inj'. intros n _. rewrite Z.land_spec, Z.bits_0. change 128 with (2 ^ 7). rewrite Z.pow2_bits_eqb by lia.
    destruct (Z.eqb_spec 7 n) as [<-|]; [rewrite B; reflexivity|apply andb_false_r].
Qed.
Lemma unit_line_text u : unit_line u = unit_text u.
Proof.
  unfold unit_line, unit_text, zero_bit, ref_idc, unit_type, bool_text, crnl. rewrite bit7, Z.shiftr_land. change (Z.shiftr 96 5) with (Z.ones 2). rewrite Z.land_ones, Z.shiftr_div_pow2 by lia.
  change 31 with (Z.ones 5). rewrite Z.land_ones by lia. change (2 ^ 2) with 4. change (2 ^ 5) with 32. rewrite !app_assoc. apply entry_nl.
Qed.
Lemma rtp_line_text ch h pl : rtp_legal h -> rtp_line ch (rtp_of h pl) = media_text ch h.
Proof.
  intros (Ht & _ & _ & _ & Hc & _). unfold rtp_line, media_text, crnl, bool_text, rtp_PT, rtp_CC, rtp_M. cbn [rtp_of rtp_mpt rtp_vpxcc rtp_sn].
  destruct (byte0_join (h_padding h) (if h_ext h then true else false) (zlen (h_csrc h))) as (_ & _ & _ & _ & C); [pose proof (zlen_nonneg (h_csrc h)); lia|].
  destruct (byte1_join (h_marker h) (h_type h) Ht) as (_ & M & T). rewrite C, M, T. rewrite !app_assoc. apply entry_nl.
Qed.
Lemma is_unit_text u : is_unit (unit_text u) = true.
Proof. reflexivity. Qed.
Lemma is_unit_described f l : described f l -> is_unit l = false.
Proof. intros []; reflexivity. Qed.
Lemma units_only us : unit_lines (map unit_line us) = map unit_text us /\ other_lines (map unit_line us) = [].
Proof.
  unfold unit_lines, other_lines. induction us as [|u us [A B]]; [split; reflexivity|]. cbn [map filter]. rewrite unit_line_text, is_unit_text. cbn [negb]. rewrite A, B. split; reflexivity.
Qed.

(* ---- packets ---- *)
Lemma media_lines txt c ch h pl : rtp_legal h -> ch mod 2 = 0 ->
  packet_prints txt c ch (rtp_layout h pl) = media_text ch h ::
    match push (c_sink c) pl (h_time h) with (s, Ok _) => map unit_line (s_units s) | (_, Err e) => [println (txt e)] | _ => [] end.
Proof. intros L O. unfold packet_prints. rewrite O. change (0 =? 0) with true. cbv iota. rewrite rtp_unpack_layout by exact L. rewrite rtp_line_text by exact L. reflexivity. Qed.
Lemma control_lines txt c ch p : bytes_ok p -> ch mod 2 = 1 -> ~ control_crash p -> ~ control_leave p ->
  exists l, packet_prints txt c ch p = [l] /\ described (ch, p) l.
Proof.
  intros B O N1 N2. pose proof (control_packet c ch p B O N1 N2) as G. unfold on_packet, packet_prints in *. replace (ch mod 2 =? 0) with false in * by lia.
  destruct p as [|a [|b [|x [|d r]]]]; try (exfalso; apply N1; unfold control_crash; rewrite ?zlen_cons, ?zlen_nil; lia).
  assert (Ba : byte_ok a) by (inversion B; assumption).
  assert (Bb : byte_ok b) by (inversion B as [|? ? ? B1]; inversion B1; assumption).
  pose proof (rtcp_outcome a b x d r Ba) as RO. cbv zeta in RO. rewrite RO in *. destruct (a / 64 =? 2) eqn:V; cbn [negb] in *; [|discriminate].
  destruct ((b =? 200) && _); [discriminate|]. eexists. split; [reflexivity|].
  assert (Bx : bytes_ok [x; d]) by (inversion B as [|? ? ? B1]; inversion B1 as [|? ? ? B2]; inversion B2 as [|? ? ? B3]; inversion B3; constructor; [assumption|constructor; [assumption|constructor]]).
  assert (E : a :: b :: x :: d :: r = rtcp_header_bytes ((a / 32) mod 2 =? 1) (a mod 32) b (be_of [x; d]) ++ r).
  { unfold rtcp_header_bytes. cbn [app]. f_equal.
    - unfold byte_ok in Ba. assert (a = 64 * (a / 64) + 32 * ((a / 32) mod 2) + a mod 32).
      { pose proof (Z.div_mod a 32 ltac:(lia)) as D1. pose proof (Z.div_mod (a / 32) 2 ltac:(lia)) as D2. rewrite Z.div_div in D2 by lia. change (32 * 2) with 64 in D2. lia. }
      pose proof (Z.mod_pos_bound (a / 32) 2). unfold bit. destruct ((a / 32) mod 2 =? 1) eqn:Q; lia.
    - f_equal. assert (X : be_put 2 (be_of [x; d]) = [x; d]) by (apply (be_put_of [x; d]); exact Bx). rewrite X. reflexivity. }
  unfold rtcp_line, rtcp_C. cbn [rtcp_pt rtcp_ln rtcp_vpc]. change 31 with (Z.ones 5). rewrite Z.land_ones by lia. change (2 ^ 5) with 32.
  rewrite E. replace (entry _) with (control_text ch b (be_of [x; d]) (a mod 32)).
  - apply de_control; [exact O|apply Z.mod_pos_bound; lia|exact Bb|]. pose proof (be_of_range [x; d] Bx) as R. unfold word. exact R.
  - unfold control_text, crnl. rewrite !app_assoc. symmetry. apply entry_nl.
Qed.

(* ---- executions ---- *)
Fixpoint plines (txt : goerr -> bytes) (c : client) (ps : list (Z * bytes)) : list bytes :=
  match ps with
  | [] => []
  | (ch, p) :: r => packet_prints txt c ch p ++ match on_packet c ch p with (c1, Goes) => plines txt c1 r | _ => [] end
  end.
Lemma prints_sink txt c c' ch p : c_sink c = c_sink c' -> packet_prints txt c ch p = packet_prints txt c' ch p.
Proof. intros E. unfold packet_prints. rewrite E. reflexivity. Qed.
Lemma packet_sink c c' ch p : c_sink c = c_sink c' -> c_sink (fst (on_packet c ch p)) = c_sink (fst (on_packet c' ch p)) /\ snd (on_packet c ch p) = snd (on_packet c' ch p).
Proof.
  intros E. unfold on_packet. destruct (ch mod 2 =? 0).
  - destruct (rtp_unpack p) as [q|e| |]; cbn [fst snd]; auto. rewrite E. destruct (push (c_sink c') (rtp_pl q) (rtp_ts q)) as [s [u|e| |]]; cbn [fst snd c_sink]; auto.
  - destruct (rtcp_unpack p) as [q|e| |]; cbn [fst snd]; auto.
Qed.
Lemma plines_sink txt ps : forall c c', c_sink c = c_sink c' -> plines txt c ps = plines txt c' ps.
Proof.
  induction ps as [|[ch p] ps IH]; intros c c' E; cbn [plines]; [reflexivity|]. rewrite (prints_sink txt c c' ch p E). f_equal. destruct (packet_sink c c' ch p E) as [A B].
  destruct (on_packet c ch p) as [c1 f1], (on_packet c' ch p) as [c2 f2]. cbn [fst snd] in *. subst f2. destruct f1; try reflexivity. apply IH. exact A.
Qed.
Lemma of_packets_app a b : of_packets (a ++ b) = of_packets a ++ of_packets b.
Proof. unfold of_packets. rewrite filter_app, map_app. reflexivity. Qed.
Lemma of_packets_one e ls : of_packets (map (fun l => (e, l)) ls) = match e with YPacket => ls | _ => [] end.
Proof.
  unfold of_packets. destruct e; try (induction ls as [|x ls IH]; [reflexivity|]; cbn [map filter fst]; exact IH).
  induction ls as [|x ls IH]; [reflexivity|]. cbn [map filter fst snd]. rewrite IH. reflexivity.
Qed.
Lemma yrun_lines ord txt es : forall y y', yrun y es = Some y' ->
  exists taken new, length taken = ypackets es /\ packets (w_log (y_w y')) = packets (w_log (y_w y)) ++ new /\ y_data y ++ new = taken ++ y_data y' /\
    of_packets (youtput ord txt y es) = plines txt (y_c y) taken.
Proof.
  induction es as [|e es IH]; intros y y' R; cbn [yrun] in R.
  { injection R as <-. exists [], []. cbn. rewrite !app_nil_r. splits; auto. }
  destruct (ystep y e) as [y1|] eqn:S; [|discriminate]. destruct (ystep_parts _ _ _ S) as (YF & P). destruct (IH y1 y' R) as (taken & new & T1 & T2 & T3 & T4).
  cbn [youtput]. rewrite S, of_packets_app, of_packets_one.
  assert (Same : forall new1, ypackets (e :: es) = ypackets es -> packets (w_log (y_w y1)) = packets (w_log (y_w y)) ++ new1 -> y_data y1 = y_data y ++ new1 -> c_sink (y_c y1) = c_sink (y_c y) ->
    exists taken new, length taken = ypackets (e :: es) /\ packets (w_log (y_w y')) = packets (w_log (y_w y)) ++ new /\ y_data y ++ new = taken ++ y_data y' /\
    [] ++ of_packets (youtput ord txt y1 es) = plines txt (y_c y) taken).
  { intros new1 C L D X. exists taken, (new1 ++ new). splits.
    - congruence.
    - rewrite T2, L, app_assoc. reflexivity.
    - rewrite app_assoc, <- D. exact T3.
    - cbn [app]. rewrite T4. apply plines_sink, X. }
  assert (Quiet : acts (y_w y) (y_w y1) -> packets (w_log (y_w y1)) = packets (w_log (y_w y)) ++ []).
  { intros (_ & nw & L & I). rewrite L, packets_app. f_equal. rewrite <- (packets_incoming nw), I. reflexivity. }
  destruct e.
  - destruct P as (_ & (en & T & _) & D & X). apply turn_grows in T as (es' & L & _). apply (Same (packets (news (y_w y) (y_w y1)))); try assumption; [reflexivity|].
    rewrite (news_app _ _ _ L), L, packets_app. reflexivity.
  - destruct P as (A & _ & D & X). apply (Same []); try assumption; [reflexivity|auto|rewrite app_nil_r; exact D].
  - destruct P as (ch & p & rest & D & D' & W & _ & O). exists ((ch, p) :: taken), new. splits.
    + cbn [length]. rewrite T1. reflexivity.
    + rewrite T2, W. reflexivity.
    + rewrite D. cbn [app]. rewrite <- T3, D'. reflexivity.
    + cbn [yprints plines]. rewrite D, O. f_equal. destruct (y_fate y1) eqn:F1; [exact T4|..].
      all: destruct es as [|e0 es0]; [reflexivity|]; exfalso; cbn in R; unfold ystep in R; rewrite F1 in R; discriminate.
  - destruct P as (A & _ & D & X). apply (Same []); try assumption; [reflexivity|auto|rewrite app_nil_r; exact D].
  - destruct P as (A & _ & D & X). apply (Same []); try assumption; [reflexivity|auto|rewrite app_nil_r; exact D].
Qed.

(* ---- video ---- *)
Lemma lines_told txt ch : ch mod 2 = 0 -> forall l fs, sent_as ch l fs -> forall n c, snd (shown c (firstn n fs)) = Goes ->
  unit_lines (plines txt c (firstn n fs)) = map unit_text (fst (fst (shown c (firstn n fs)))) /\
  Forall2 described (firstn n fs) (other_lines (plines txt c (firstn n fs))).
Proof.
  intros O. induction 1 as [|k p l fs K B N1 N2 S IH|h pl l fs L P S IH]; intros n c G.
  - rewrite firstn_nil. split; [reflexivity|constructor].
  - destruct n as [|n]; [split; [reflexivity|constructor]|]. cbn [firstn shown plines] in *. rewrite control_packet in * by assumption. destruct (control_lines txt c k p B K N1 N2) as (x & E & D). rewrite E. cbn [app].
    destruct (shown c (firstn n fs)) as [[us c2] f] eqn:Sh. cbn [fst snd] in *. destruct (IH n c) as [A C]; [rewrite Sh; exact G|]. rewrite Sh in A. cbn [fst] in A.
    unfold unit_lines, other_lines in *. cbn [filter]. rewrite (is_unit_described _ _ D). cbn [negb]. replace (k mod 2 =? 0) with false by lia. cbn [app]. split; [exact A|constructor; assumption].
  - destruct n as [|n]; [split; [reflexivity|constructor]|]. cbn [firstn shown plines] in *. rewrite media_packet, media_lines in * by assumption. rewrite O in *. change (0 =? 0) with true in *. cbv iota in *.
    destruct (push (c_sink c) pl (h_time h)) as [s [u|e| |]]; cbn [fst snd] in *; try discriminate.
    destruct (shown (with_sink c s) (firstn n fs)) as [[us c2] f] eqn:Sh. cbn [fst snd] in *. destruct (IH n (with_sink c s)) as [A C]; [rewrite Sh; exact G|]. rewrite Sh in A. cbn [fst] in A.
    destruct (units_only (s_units s)) as [U1 U2]. unfold unit_lines, other_lines in *. cbn [app filter c_sink with_sink]. change (is_unit (media_text ch h)) with false. cbn [negb].
    rewrite !filter_app, U1, U2, A, map_app. cbn [app]. split; [reflexivity|]. constructor; [constructor; assumption|exact C].
Qed.
