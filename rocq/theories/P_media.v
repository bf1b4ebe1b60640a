(* Properties C81-C82: video from the server to the client's sink. *)
From Coq Require Import String.
From Verif Require Import Base GoStrings S_rtp M_rtp S_annexb M_annexb S_nal M_nal M_conn M_message M_transport M_session S_session M_main S_main S_handshake S_media
  L_base L_annexb L_rtp L_nal L_main L_media P_nal.
From Coq Require Import ZifyBool ZifyNat.

(* ---- C81 ---- *)
(* Full statement: the client shows the NAL units that were sent, in order, each with its timestamp.  It does for one feed, cut
   into fragments where no emulation prevention sequence lies (C20), aggregated where none is (C16), and whatever control
   packets come in between. *)
Theorem C81_media_partial : forall (ch : Z) (l : list (Z * sending)) (fs : list (Z * bytes)) (c : client),
  ch mod 2 = 0 -> Forall (fun e => sending_ok (snd e)) l -> don_ok (c_sink c) -> sent_as ch (all_payloads l) fs ->
  exists c', shown c fs = (all_units (s_don (c_sink c)) l, c', Goes).
Proof.
  intros ch l fs c O F D S. destruct (pushed_all l (c_sink c) F D) as (s' & P & _). destruct (shown_pushed ch O _ _ S c _ _ P) as (c' & E & _). exists c'. exact E.
Qed.
Print Assumptions C81_media_partial.

(* In every execution of the whole program, with responses, silences and such frames on the connection, the client shows a
   beginning of these units, and all of them once it has taken all packets. *)
Theorem C81_program_partial : forall (proto : Z) (w : world) (items : list item) (rest : stream) (es : list yevent) (y : system) (ch : Z) (l : list (Z * sending)),
  opened w proto -> w_in w = flat_map item_stream items ++ rest -> Forall item_ok items -> (yturns es <= length items)%nat ->
  ch mod 2 = 0 -> Forall (fun e => sending_ok (snd e)) l -> sent_as ch (all_payloads l) (frames items) ->
  yrun (launch w) es = Some y ->
  (exists more, all_units 0 l = yshown (launch w) es ++ more) /\
  (ypackets es = length (frames items) -> yshown (launch w) es = all_units 0 l).
Proof.
  intros proto w items rest es y ch l O I K T Ev F S R. destruct (launch_parts w proto O) as (LI & LP & LD & LC & LL).
  destruct (yrun_fifo es _ _ R) as (taken & new & T1 & T2 & T3 & T4 & _). destruct (yrun_items es _ _ items rest K T ltac:(intros _; rewrite LI; exact I) R) as (j & J & _).
  destruct (C81_media_partial ch l (frames items) client0 Ev F ltac:(unfold don_ok; change (s_don (c_sink client0)) with 0; lia) S) as (c' & E). change (s_don (c_sink client0)) with 0 in E.
  rewrite LP in T2, J. rewrite T2 in J. cbn [app] in J. subst new. rewrite LD in T3. cbn [app] in T3. rewrite LC in T4. rewrite T4.
  assert (Q : frames items = taken ++ (y_data y ++ frames (skipn j items))).
  { rewrite app_assoc, <- T3. unfold frames. rewrite <- flat_map_app, firstn_skipn. reflexivity. }
  split.
  - destruct (shown_prefix taken client0 (y_data y ++ frames (skipn j items))) as (u & X). rewrite <- Q, E in X. exists u. exact X.
  - intros N. assert (Z : y_data y ++ frames (skipn j items) = []) by (apply length_zero_iff_nil; rewrite Q, app_length in N; lia).
    rewrite Z, app_nil_r in Q. rewrite <- Q, E. reflexivity.
Qed.
Print Assumptions C81_program_partial.

(* Of several feeds the client shows all units, in the order in which they come, if no packet of one comes between the fragments of a unit of
   another; the decoding order numbers run through all feeds. *)
Theorem C81_feeds_partial : forall (proto : Z) (w : world) (items : list item) (rest : stream) (es : list yevent) (y : system) (l : list (Z * (Z * sending))),
  opened w proto -> w_in w = flat_map item_stream items ++ rest -> Forall item_ok items -> (yturns es <= length items)%nat ->
  Forall (fun e => fst e mod 2 = 0 /\ sending_ok (snd (snd e))) l -> sent_in_turn (fed l) (frames items) ->
  yrun (launch w) es = Some y ->
  (exists more, all_units 0 (map snd l) = yshown (launch w) es ++ more) /\
  (ypackets es = length (frames items) -> yshown (launch w) es = all_units 0 (map snd l)).
Proof. exact feeds_shown. Qed.
Print Assumptions C81_feeds_partial.

(* Two feeds whose fragments come alternately: the client has one sink for all channels, and shows units nobody sent. *)
Theorem C81_two_feeds_refuted : forall (c : client) (k : Z) (ha hb : rtp_header) (h1 h2 : Z) (c1 e1 c2 e2 : bytes),
  rtp_legal ha -> rtp_legal hb -> k mod 2 = 0 -> 0 <= h1 < 128 -> 0 <= h2 < 128 -> nal_type h1 <> 0 -> nal_type h2 <> 0 ->
  Forall (fun x => ~ contains [0; 0; 1] x) [c1; e1; c2; e2] ->
  fst (fst (shown c [(0, rtp_layout ha (fu_a h1 true false c1)); (k, rtp_layout hb (fu_a h2 true false c2));
                     (0, rtp_layout ha (fu_a h1 false true e1)); (k, rtp_layout hb (fu_a h2 false true e2))])) =
  [mkUnit h1 (s_don (c_sink c)) (h_time ha) (ebsp_to_raw c2 ++ ebsp_to_raw e1);
   mkUnit h2 (s_don (c_sink c)) (h_time hb) (ebsp_to_raw c2 ++ ebsp_to_raw e1 ++ ebsp_to_raw e2)].
Proof.
  intros c k ha hb h1 h2 c1 e1 c2 e2 La Lb K H1 H2 T1 T2 F. inversion F as [|? ? F1 F']; subst. inversion F' as [|? ? F2 F'']; subst. inversion F'' as [|? ? F3 F4]; subst. inversion F4 as [|? ? F5 _]; subst.
  assert (B1 : byte_ok h1) by (unfold byte_ok; lia). assert (B2 : byte_ok h2) by (unfold byte_ok; lia).
  cbn [shown]. rewrite K. change (0 mod 2) with 0. change (0 =? 0) with true. cbv iota.
  rewrite media_packet by auto. destruct (pushed_first h1 (h_time ha) c1 (c_sink c) B1 T1 F1) as (s1 & E1 & U1 & D1 & G1). rewrite E1. cbn [fst snd].
  rewrite media_packet by auto. cbn [with_sink c_sink]. destruct (pushed_first h2 (h_time hb) c2 s1 B2 T2 F3) as (s2 & E2 & U2 & D2 & G2). rewrite E2. cbn [fst snd].
  rewrite media_packet by auto. cbn [with_sink c_sink]. pose proof (push_fua s2 h1 false true e1 (h_time ha) B1 T1 F2) as E3. rewrite (add_last _ _ h1) in E3 by auto. rewrite E3. cbn [fst snd].
  rewrite media_packet by auto. cbn [with_sink c_sink]. match goal with |- context [push ?s (fu_a h2 false true e2) _] => pose proof (push_fua s h2 false true e2 (h_time hb) B2 T2 F5) as E4 end. rewrite (add_last _ _ h2) in E4 by auto. rewrite E4. cbn [fst snd].
  cbn [c_sink with_sink s_units fresh app s_don s_frags]. rewrite U1, U2, flat_map_app. cbn [flat_map f_unit u_data app]. rewrite app_nil_r. fold (frag_data s2). rewrite G2, D2, D1, !no_f_id, <- app_assoc by assumption. reflexivity.
Qed.
Print Assumptions C81_two_feeds_refuted.

Definition rtp_at (n ts : Z) : rtp_header := mkRtpH false true 96 n ts 7 [] None.
Definition the_sendings : list (Z * sending) :=
  [(90, Whole 103 [66; 0; 31]); (90, Bundle 24 [[104; 206]; [6; 5]]); (93, Pieces 101 [1; 0; 0; 2; 5] [1; 0; 0; 3] [[2]; [5]])].
Definition the_frames : list (Z * bytes) :=
  [(0, rtp_layout (rtp_at 1 90) [103; 66; 0; 31]); (1, [128; 201; 0; 1; 0; 0; 0; 7]); (0, rtp_layout (rtp_at 2 90) [24; 0; 2; 104; 206; 0; 2; 6; 5]);
   (0, rtp_layout (rtp_at 3 93) [124; 133; 1; 0; 0; 3]); (0, rtp_layout (rtp_at 4 93) [124; 5; 2]); (0, rtp_layout (rtp_at 5 93) [124; 69; 5])].
Example C81_case :
  Forall (fun e => sending_ok (snd e)) the_sendings /\ sent_as 0 (all_payloads the_sendings) the_frames /\
  fst (fst (shown client0 the_frames)) = [mkUnit 103 0 90 [66; 0; 31]; mkUnit 104 1 90 [206]; mkUnit 6 2 90 [5]; mkUnit 101 3 93 [1; 0; 0; 2; 5]].
Proof.
  splits.
  - constructor; [|constructor; [|constructor; [|constructor]]]; cbn [snd sending_ok].
    + splits; [split; lia|repeat constructor; lia|reflexivity|unfold nal_type; cbn; lia|unfold nal_type; cbn; lia].
    + splits; [split; lia|reflexivity|]. repeat constructor; try (cbn; lia); apply not_contains; reflexivity.
    + splits; try reflexivity; try discriminate; try (unfold nal_type; cbn; lia).
      * repeat constructor; cbn; lia.
      * cbn [cuts_ok app concat]. unfold no_straddle. splits; try exact I.
        all: intros (a & b & A & B); try discriminate B.
        all: try (apply (f_equal (@rev Z)) in A; rewrite rev_app_distr in A; discriminate A).
  - assert (H : forall n ts, 0 <= n < 100 -> 0 <= ts < 100 -> rtp_legal (rtp_at n ts)) by (intros n ts Hn Ht; repeat split; cbn; try lia; constructor).
    unfold the_frames. cbn [all_payloads flat_map the_sendings fst snd payloads stamped map app fu_packets fu_tail].
    apply (sa_media 0 (rtp_at 1 90)); [apply H; lia|reflexivity|]. apply sa_control; [reflexivity|repeat constructor; lia|intros X; unfold control_crash in X; cbn in X; lia| |].
    { intros (_ & [X|(a & r & X & _)]); [apply X; exists 128; eexists; split; reflexivity|discriminate X]. }
    apply (sa_media 0 (rtp_at 2 90)); [apply H; lia|reflexivity|]. apply (sa_media 0 (rtp_at 3 93)); [apply H; lia|reflexivity|].
    apply (sa_media 0 (rtp_at 4 93)); [apply H; lia|reflexivity|]. apply (sa_media 0 (rtp_at 5 93)); [apply H; lia|reflexivity|]. constructor.
  - vm_compute. reflexivity.
Qed.

(* the same on a connection, before, between and after the responses *)
Definition the_program : world :=
  mkW (dialled ProtoTCP None (bs "rtsp://h/s")) (map Some (bs "RTSP/1.0 200 OK" ++ [13; 10] ++ bs "CSeq: 1" ++ [13; 10; 13; 10]) ++ flat_map (fun f => map Some (frame_text (fst f) (snd f))) the_frames) [] [] [] [].
Example C81_program_case :
  let es := [YTurn 0 0; YTurn 0 0; YTurn 0 0; YPacket; YTurn 0 0; YPacket; YPacket; YTurn 0 0; YPacket; YTurn 0 0; YTurn 0 0; YPacket; YPacket] in
  yshown (launch the_program) es = all_units 0 the_sendings /\ yshown (launch the_program) (firstn 6 es) = [mkUnit 103 0 90 [66; 0; 31]].
Proof. vm_compute. split; reflexivity. Qed.

(* two feeds, of which one comes in fragments *)
Definition the_feeds : list (Z * (Z * sending)) :=
  [(0, (90, Whole 103 [66; 0; 31])); (2, (40, Whole 103 [77])); (0, (93, Pieces 101 [1; 0; 0; 2; 5] [1; 0; 0; 3] [[2]; [5]])); (2, (41, Whole 97 [9]))].
Definition the_mix : list (Z * bytes) :=
  [(0, rtp_layout (rtp_at 1 90) [103; 66; 0; 31]); (2, rtp_layout (rtp_at 8 40) [103; 77]); (0, rtp_layout (rtp_at 3 93) [124; 133; 1; 0; 0; 3]);
   (3, [128; 201; 0; 1; 0; 0; 0; 7]); (0, rtp_layout (rtp_at 4 93) [124; 5; 2]); (0, rtp_layout (rtp_at 5 93) [124; 69; 5]); (2, rtp_layout (rtp_at 9 41) [97; 9])].
Example C81_feeds_case :
  Forall (fun e => fst e mod 2 = 0 /\ sending_ok (snd (snd e))) the_feeds /\ sent_in_turn (fed the_feeds) the_mix /\
  fst (fst (shown client0 the_mix)) = [mkUnit 103 0 90 [66; 0; 31]; mkUnit 103 1 40 [77]; mkUnit 101 2 93 [1; 0; 0; 2; 5]; mkUnit 97 2 41 [9]].
Proof.
  splits.
  - constructor; [|constructor; [|constructor; [|constructor; [|constructor]]]]; cbn [fst snd sending_ok]; (split; [reflexivity|]).
    1, 2, 4: splits; [split; lia|repeat constructor; lia|reflexivity|unfold nal_type; cbn; lia|unfold nal_type; cbn; lia].
    splits; try reflexivity; try discriminate; try (unfold nal_type; cbn; lia).
    * repeat constructor; cbn; lia.
    * cbn [cuts_ok app concat]. unfold no_straddle. splits; try exact I.
      all: intros (a & b & A & B); try discriminate B.
      all: try (apply (f_equal (@rev Z)) in A; rewrite rev_app_distr in A; discriminate A).
  - assert (H : forall n ts, 0 <= n < 100 -> 0 <= ts < 100 -> rtp_legal (rtp_at n ts)) by (intros n ts Hn Ht; repeat split; cbn; try lia; constructor).
    unfold the_mix. cbn [fed flat_map the_feeds fst snd payloads stamped map app fu_packets fu_tail].
    apply (st_media 0 (rtp_at 1 90)); [apply H; lia|reflexivity|]. apply (st_media 2 (rtp_at 8 40)); [apply H; lia|reflexivity|]. apply (st_media 0 (rtp_at 3 93)); [apply H; lia|reflexivity|].
    apply st_control; [reflexivity|repeat constructor; lia|intros X; unfold control_crash in X; cbn in X; lia| |].
    { intros (_ & [X|(a & r & X & _)]); [apply X; exists 128; eexists; split; reflexivity|discriminate X]. }
    apply (st_media 0 (rtp_at 4 93)); [apply H; lia|reflexivity|]. apply (st_media 0 (rtp_at 5 93)); [apply H; lia|reflexivity|]. apply (st_media 2 (rtp_at 9 41)); [apply H; lia|reflexivity|]. constructor.
  - vm_compute. reflexivity.
Qed.

(* ---- C82 ---- *)
(* Full statement: a unit of which a fragment is lost, repeated or out of place is not shown.  Nothing in the header of an RTP packet but
   its timestamp makes a difference to the client, so that it cannot know... *)
Theorem C82_header_refuted : forall (c : client) (ch : Z) (h h' : rtp_header) (pl : bytes),
  rtp_legal h -> rtp_legal h' -> ch mod 2 = 0 -> h_time h = h_time h' -> on_packet c ch (rtp_layout h pl) = on_packet c ch (rtp_layout h' pl).
Proof. intros c ch h h' pl L L' O T. rewrite !media_packet, T by assumption. reflexivity. Qed.
Print Assumptions C82_header_refuted.

(* ...and shows whatever comes between a first and a last fragment as one unit *)
Theorem C82_between_refuted : forall (ch ts h : Z) (first : bytes) (others : list bytes) (fs : list (Z * bytes)) (c : client),
  ch mod 2 = 0 -> 0 <= h < 128 -> nal_type h <> 0 -> others <> [] -> Forall (fun x => ~ contains [0; 0; 1] x) (first :: others) ->
  sent_as ch (stamped ts (fu_packets (fu_a h) first others)) fs ->
  exists c', shown c fs = ([mkUnit h (s_don (c_sink c)) ts (ebsp_to_raw first ++ flat_map ebsp_to_raw others)], c', Goes).
Proof.
  intros ch ts h first others fs c O H T NE F S. apply Forall_cons_iff in F as [F1 F]. assert (B : byte_ok h) by (unfold byte_ok; lia).
  destruct (pushed_first h ts first (c_sink c) B T F1) as (s1 & E1 & U1 & D1 & G1). destruct (pushed_tail h ts others s1 B T NE F) as (s2 & P2 & _).
  rewrite G1, D1, no_f_id in P2 by exact H. destruct (shown_pushed ch O _ _ S c [mkUnit h (s_don (c_sink c)) ts (ebsp_to_raw first ++ flat_map ebsp_to_raw others)] s2) as (c' & E & _).
  - unfold fu_packets. cbn [stamped map]. eapply pd_eq; [exact E1|exact P2|]. rewrite U1. reflexivity.
  - exists c'. exact E.
Qed.
Print Assumptions C82_between_refuted.

(* so a unit without one of its middle fragments is shown, shorter than it was *)
Theorem C82_middle_lost_refuted : forall (ch ts h : Z) (d c0 : bytes) (a : list bytes) (m : bytes) (b : list bytes) (fs : list (Z * bytes)) (c : client),
  ch mod 2 = 0 -> sending_ok (Pieces h d c0 (a ++ m :: b)) -> m <> [] -> b <> [] ->
  sent_as ch (stamped ts (fu_packets (fu_a h) c0 (a ++ b))) fs ->
  exists d' c', shown c fs = ([mkUnit h (s_don (c_sink c)) ts d'], c', Goes) /\ zlen d' < zlen d.
Proof.
  intros ch ts h d c0 a m b fs c O (H & Bd & L & T & C & _ & Q) M NB S.
  assert (NS : Forall (fun x => ~ contains [0; 0; 1] x) (c0 :: a ++ m :: b)).
  { apply Forall_forall. intros y Hy X. apply (proj1 (encapsulate_props d Bd)). rewrite <- C. apply (contains_concat _ y); assumption. }
  destruct (C82_between_refuted ch ts h c0 (a ++ b) fs c O H ltac:(lia)) as (c' & E); try assumption.
  { destruct a; [exact NB|discriminate]. }
  { rewrite Forall_cons_iff, Forall_app in *. destruct NS as (N1 & N2 & N3). apply Forall_cons_iff in N3 as [_ N3]. auto. }
  eexists. exists c'. split; [exact E|]. pose proof (raw_cuts (c0 :: a ++ m :: b) [] Q) as R. cbn [app ebsp_to_raw] in R. rewrite C, raw_encapsulate in R by assumption. rewrite R.
  cbn [flat_map]. rewrite !flat_map_app. cbn [flat_map]. rewrite !zlen_app. assert (ebsp_to_raw m <> []) by (intros X; apply raw_nil_inv in X; contradiction).
  destruct (ebsp_to_raw m) as [|x r]; [congruence|]. rewrite zlen_cons. pose proof (zlen_nonneg r). lia.
Qed.
Print Assumptions C82_middle_lost_refuted.

(* and a unit without its first fragment is shown with the content of the one before it *)
Theorem C82_first_lost_refuted : forall (ch t1 t2 h1 h2 : Z) (d1 d2 c1 c2 : bytes) (cs1 cs2 : list bytes) (fs : list (Z * bytes)) (c : client),
  ch mod 2 = 0 -> sending_ok (Pieces h1 d1 c1 cs1) -> sending_ok (Pieces h2 d2 c2 cs2) -> don_ok (c_sink c) ->
  sent_as ch (stamped t1 (payloads (Pieces h1 d1 c1 cs1)) ++ stamped t2 (tl (payloads (Pieces h2 d2 c2 cs2)))) fs ->
  exists c', shown c fs = ([mkUnit h1 (s_don (c_sink c)) t1 d1; mkUnit h2 (s_don (c_sink c)) t2 (d1 ++ flat_map ebsp_to_raw cs2)], c', Goes).
Proof.
  intros ch t1 t2 h1 h2 d1 d2 c1 c2 cs1 cs2 fs c O K1 K2 D S. destruct (pushed_sending (c_sink c) t1 _ K1 D) as (s1 & P1 & D1 & G1). specialize (G1 _ _ _ _ eq_refl).
  destruct K2 as (H & Bd & L & T & C & NE & Q).
  assert (NS : Forall (fun x => ~ contains [0; 0; 1] x) (c2 :: cs2)).
  { apply Forall_forall. intros y Hy X. apply (proj1 (encapsulate_props d2 Bd)). rewrite <- C. apply (contains_concat _ y); assumption. }
  apply Forall_cons_iff in NS as [_ NS]. destruct (pushed_tail h2 t2 cs2 s1 ltac:(unfold byte_ok; lia) ltac:(lia) NE NS) as (s2 & P2 & _).
  rewrite G1, D1, no_f_id in P2 by exact H. cbn [counts] in P2. rewrite Z.add_0_r, Z.mod_small in P2 by exact D. cbn [units_of] in P1.
  destruct (shown_pushed ch O _ _ S c _ _ (pushed_app _ _ _ _ P1 _ _ _ P2)) as (c' & E & _). exists c'. exact E.
Qed.
Print Assumptions C82_first_lost_refuted.

(* Only the loss of the last fragment does no harm: the unit is not shown, and those after it are. *)
Theorem C82_last_lost_partial : forall (ch ts h : Z) (d c0 : bytes) (cs : list bytes) (l : list (Z * sending)) (fs : list (Z * bytes)) (c : client),
  ch mod 2 = 0 -> sending_ok (Pieces h d c0 cs) -> Forall (fun e => sending_ok (snd e)) l -> don_ok (c_sink c) ->
  sent_as ch (stamped ts (removelast (payloads (Pieces h d c0 cs))) ++ all_payloads l) fs ->
  exists c', shown c fs = (all_units (s_don (c_sink c)) l, c', Goes).
Proof.
  intros ch ts h d c0 cs l fs c O (H & Bd & L & T & C & NE & Q) F D S.
  assert (NS : Forall (fun x => ~ contains [0; 0; 1] x) (c0 :: cs)).
  { apply Forall_forall. intros y Hy X. apply (proj1 (encapsulate_props d Bd)). rewrite <- C. apply (contains_concat _ y); assumption. }
  apply Forall_cons_iff in NS as [Nc NS]. assert (B : byte_ok h) by (unfold byte_ok; lia).
  assert (M : forall xs s, xs <> [] -> Forall (fun x => ~ contains [0; 0; 1] x) xs -> exists s', pushed s (stamped ts (removelast (fu_tail (fu_a h) xs))) [] s' /\ s_don s' = s_don s).
  { clear - B T. induction xs as [|x xs IH]; intros s NE F; [congruence|]. apply Forall_cons_iff in F as [Fx F]. destruct xs as [|y xs]; [exists s; split; [constructor|reflexivity]|].
    change (removelast (fu_tail (fu_a h) (x :: y :: xs))) with (removelast (fu_a h false false x :: fu_tail (fu_a h) (y :: xs))).
    assert (X : fu_tail (fu_a h) (y :: xs) <> []) by (destruct xs; discriminate).
    replace (removelast (fu_a h false false x :: fu_tail (fu_a h) (y :: xs))) with (fu_a h false false x :: removelast (fu_tail (fu_a h) (y :: xs))) by (destruct (fu_tail (fu_a h) (y :: xs)); [congruence|reflexivity]).
    destruct (pushed_mid h ts x s B ltac:(lia) Fx) as (s1 & E1 & U1 & D1 & _). destruct (IH s1 ltac:(discriminate) F) as (s2 & P2 & D2).
    exists s2. split; [|congruence]. cbn [stamped map]. eapply pd_eq; [exact E1|exact P2|]. rewrite U1. reflexivity. }
  cbn [payloads] in S. unfold fu_packets in S.
  assert (X : fu_tail (fu_a h) cs <> []) by (destruct cs as [|x [|y cs]]; [congruence|discriminate|discriminate]).
  replace (removelast (fu_a h true false c0 :: fu_tail (fu_a h) cs)) with (fu_a h true false c0 :: removelast (fu_tail (fu_a h) cs)) in S by (destruct (fu_tail (fu_a h) cs); [congruence|reflexivity]).
  destruct (pushed_first h ts c0 (c_sink c) B ltac:(lia) Nc) as (s1 & E1 & U1 & D1 & _). destruct (M cs s1 NE NS) as (s2 & P2 & D2).
  destruct (pushed_all l s2 F ltac:(unfold don_ok; rewrite D2, D1; exact D)) as (s3 & P3 & _). rewrite D2, D1 in P3.
  assert (P : pushed (c_sink c) (stamped ts (fu_a h true false c0 :: removelast (fu_tail (fu_a h) cs)) ++ all_payloads l) (all_units (s_don (c_sink c)) l) s3).
  { change (all_units (s_don (c_sink c)) l) with ([] ++ all_units (s_don (c_sink c)) l). eapply pushed_app; [|exact P3]. cbn [stamped map]. eapply pd_eq; [exact E1|exact P2|]. rewrite U1. reflexivity. }
  destruct (shown_pushed ch O _ _ S c _ _ P) as (c' & E & _). exists c'. exact E.
Qed.
Print Assumptions C82_last_lost_partial.

(* the fragmented unit of C81: without its middle, without its first, without its last packet *)
Example C82_case :
  let at_n n pl := (0, rtp_layout (rtp_at n 93) pl) in
  let one := [at_n 3 [124; 133; 1; 0; 0; 3]; at_n 4 [124; 5; 2]; at_n 5 [124; 69; 5]] in
  let two := [at_n 6 [92; 129; 9]; at_n 7 [92; 65; 8]] in
  fst (fst (shown client0 (at_n 3 [124; 133; 1; 0; 0; 3] :: [at_n 5 [124; 69; 5]]))) = [mkUnit 101 0 93 [1; 0; 0; 5]] /\
  fst (fst (shown client0 (one ++ tl two))) = [mkUnit 101 0 93 [1; 0; 0; 2; 5]; mkUnit 65 0 93 [1; 0; 0; 2; 5; 8]] /\
  fst (fst (shown client0 (removelast one ++ two))) = [mkUnit 65 0 93 [9; 8]].
Proof. vm_compute. repeat split. Qed.
