(* Properties C15-C24: the NAL unit sink (RFC 6184 depacketization). *)
From Verif Require Import Base S_annexb S_nal M_annexb M_nal L_base L_annexb L_nal.
From Coq Require Import ZifyBool ZifyNat.

(* Sinks are quantified over all values of their Go fields; the only constraint is the range of uint16. *)
Definition don_ok (s : sink) : Prop := 0 <= s_don s < 2 ^ 16.

(* ---- C15 ---- *)
Theorem C15_single : forall s h d ts,
  don_ok s -> byte_ok h -> bytes_ok d -> rbsp_legal (h :: d) -> nal_type h < 24 \/ 29 < nal_type h ->
  push s (encapsulate (h :: d)) ts =
  (mkSink [mkUnit h (s_don s) ts d] (s_frags s) ((s_don s + 1) mod 2 ^ 16), Ok tt).
Proof.
  intros s h d ts Hs Hh Hd HL HT. assert (B : bytes_ok (h :: d)) by (constructor; assumption).
  rewrite push_no_start by (apply encapsulate_props, B).
  pose proof (raw_enc_body [3] (or_intror eq_refl) (h :: d) 0 B ltac:(lia)) as R.
  cbn [repeat app] in R. unfold encapsulate. rewrite R.
  unfold rbsp_legal in HL. rewrite <- Nat.negb_odd in HL. destruct (Nat.odd (trail_zeros (h :: d))); [discriminate|].
  rewrite andb_false_r, app_nil_r. apply parse_single; assumption.
Qed.
Print Assumptions C15_single.

(* The same for any payload without a start code, as received. *)
Theorem C15_single_raw : forall s p h d ts,
  don_ok s -> bytes_ok p -> ~ contains [0; 0; 1] p -> ebsp_to_raw p = h :: d -> nal_type h < 24 \/ 29 < nal_type h ->
  push s p ts = (mkSink [mkUnit h (s_don s) ts d] (s_frags s) ((s_don s + 1) mod 2 ^ 16), Ok tt).
Proof.
  intros s p h d ts Hs Hp HC HR HT. rewrite push_no_start, HR by exact HC. apply parse_single; [|exact HT].
  apply bytes_ok_raw in Hp. rewrite HR in Hp. apply Forall_cons_iff in Hp. tauto.
Qed.
Print Assumptions C15_single_raw.

Example C15_case : rbsp_legal [101; 0; 0; 1; 9] /\
  push (mkSink [] [] 65535) (encapsulate [101; 0; 0; 1; 9]) 7 = (mkSink [mkUnit 101 65535 7 [0; 0; 1; 9]] [] 0, Ok tt).
Proof. split; reflexivity. Qed.

(* ---- C16 ---- *)
(* Full statement: for all NAL units us of size 1..65535 (in their transmitted, encapsulated form),
   pushing stap_a h us exposes exactly the decoded units.  False: emulation bytes are removed before the
   size fields are read, and sizes 65534 and 65535 overflow. *)
Theorem C16_stap_a_partial : forall s h us ts,
  don_ok s -> byte_ok h -> nal_type h = 24 -> Forall stap_size_ok us -> plain (stap_a h us) ->
  push s (stap_a h us) ts =
  (mkSink (number (s_don s) ts us) (s_frags s) ((s_don s + zlen us) mod 2 ^ 16), Ok tt).
Proof.
  intros s h us ts Hs Hh HT HF HP. rewrite push_plain by exact HP. unfold stap_a.
  rewrite parse_stap_a by assumption. rewrite <- (app_nil_r (stap_entries us)).
  rewrite stap_entries_run by assumption. apply stap_short. reflexivity.
Qed.
Print Assumptions C16_stap_a_partial.

(* A condition on the units alone: none of them contains an emulation byte. *)
Theorem C16_stap_a_units_partial : forall s h us ts,
  don_ok s -> byte_ok h -> nal_type h = 24 ->
  Forall (fun u => 1 <= zlen u <= 65533 /\ hd 0 u <> 0 /\ last u 1 <> 0 /\ plain u) us ->
  push s (stap_a h us) ts =
  (mkSink (number (s_don s) ts us) (s_frags s) ((s_don s + zlen us) mod 2 ^ 16), Ok tt).
Proof.
  intros s h us ts Hs Hh HT HF. apply C16_stap_a_partial; try assumption.
  - eapply Forall_impl; [|exact HF]. unfold stap_size_ok. intros u Hu. tauto.
  - apply stap_a_plain; [apply (type_nz h 24 HT); lia|exact HF].
Qed.
Print Assumptions C16_stap_a_units_partial.

(* What any packet yields whose decoded form is a STAP-A, whole or cut: its complete units, and an error if the last
   one is cut after its size. *)
Theorem C16_stap_a_exact : forall s p h us tail ts,
  don_ok s -> byte_ok h -> nal_type h = 24 -> ~ contains [0; 0; 1] p -> Forall stap_size_ok us ->
  ebsp_to_raw p = stap_a h us ++ tail ->
  (zlen tail < 2 \/ exists n rest, tail = be_put 2 n ++ rest /\ zlen rest < n <= 65533) ->
  push s p ts =
  (mkSink (number (s_don s) ts us) (s_frags s) ((s_don s + zlen us) mod 2 ^ 16),
   if zlen tail <? 2 then Ok tt else Err ErrPacketTooShort).
Proof.
  intros s p h us tail ts Hs Hh HT HC HF HR HL. rewrite push_no_start, HR by exact HC. unfold stap_a. cbn [app].
  rewrite parse_stap_a by assumption. rewrite stap_entries_run by assumption. destruct HL as [HL|(n & rest & -> & HL)].
  - rewrite stap_short by exact HL. replace (zlen tail <? 2) with true by lia. reflexivity.
  - rewrite zlen_app, zlen_be_put. pose proof (zlen_nonneg rest). replace (Z.of_nat 2 + zlen rest <? 2) with false by lia.
    apply stap_trunc; lia.
Qed.
Print Assumptions C16_stap_a_exact.
(* the emulation byte of the unit gone, the unit is one byte too short for its size *)
Example C16_exact_case : let p := stap_a 24 [[104; 9]; [101; 0; 0; 3; 1]] in
  ebsp_to_raw p = stap_a 24 [[104; 9]] ++ be_put 2 5 ++ [101; 0; 0; 1] /\
  push new_sink p 7 = (mkSink [mkUnit 104 0 7 [9]] [] 1, Err ErrPacketTooShort).
Proof. split; reflexivity. Qed.

Theorem C16_stap_a_refuted : exists h us ts,
  byte_ok h /\ nal_type h = 24 /\ Forall (fun u => bytes_ok u /\ 1 <= zlen u <= 65535 /\ ~ forbidden u) us /\
  snd (push new_sink (stap_a h us) ts) = Err ErrPacketTooShort.
Proof.
  exists 24, [[101; 0; 0; 3; 1]], 5. splits; [split; lia|reflexivity| |reflexivity].
  repeat constructor; try (cbn; lia). apply clean_spec. reflexivity.
Qed.
Print Assumptions C16_stap_a_refuted.

(* A unit of the largest sizes crashes the process. *)
Theorem C16_stap_a_crash : forall s h u ts, don_ok s -> byte_ok h -> nal_type h = 24 ->
  65534 <= zlen u <= 65535 -> plain (stap_a h [u]) -> snd (push s (stap_a h [u]) ts) = Panic.
Proof.
  intros s h u ts Hs Hh HT Hu HP. rewrite push_plain by exact HP. unfold stap_a. rewrite parse_stap_a by assumption.
  cbn [stap_entries flat_map]. rewrite <- app_assoc. apply stap_bad. lia.
Qed.
Print Assumptions C16_stap_a_crash.

Example C16_case : push new_sink (stap_a 120 [[103; 66; 0; 31]; [104; 206]]) 9 =
  (mkSink [mkUnit 103 0 9 [66; 0; 31]; mkUnit 104 1 9 [206]] [] 2, Ok tt) /\
  plain (stap_a 120 [[103; 66; 0; 31]; [104; 206]]).
Proof.
  split; [reflexivity|]. split; apply not_contains; reflexivity.
Qed.

(* ---- C17 ---- *)
(* Full statement: without [plain].  False, see the refutation: the DON and size fields themselves are
   taken for a start code or an emulation sequence. *)
Theorem C17_stap_b_partial : forall s h don us ts,
  byte_ok h -> nal_type h = 25 -> 0 <= don < 2 ^ 16 -> Forall stap_size_ok us -> plain (stap_b h don us) ->
  push s (stap_b h don us) ts =
  (mkSink (number don ts us) (s_frags s) ((don + zlen us) mod 2 ^ 16), Ok tt).
Proof.
  intros s h don us ts Hh HT Hd HF HP. rewrite push_plain by exact HP. unfold stap_b.
  rewrite parse_stap_b by assumption. rewrite <- (app_nil_r (stap_entries us)).
  rewrite stap_entries_run by assumption. apply stap_short. reflexivity.
Qed.
Print Assumptions C17_stap_b_partial.

(* the numbering used above, read off unit by unit *)
Theorem C17_number : forall us don ts i u, 0 <= don < 2 ^ 16 -> nth_error us i = Some u ->
  nth_error (number don ts us) i = Some (mkUnit (hd 0 u) ((don + Z.of_nat i) mod 2 ^ 16) ts (tl u)).
Proof.
  induction us as [|v us IH]; intros don ts [|i] u Hd E; try discriminate.
  - injection E as ->. cbn. rewrite Z.add_0_r, Z.mod_small by lia. reflexivity.
  - cbn [nth_error number] in *. assert (R : 0 <= (don + 1) mod 2 ^ 16 < 2 ^ 16) by (apply Z.mod_pos_bound; lia).
    rewrite (IH ((don + 1) mod 2 ^ 16) ts i u R E).
    do 2 f_equal. rewrite Z.add_mod_idemp_l by lia. f_equal. lia.
Qed.
Print Assumptions C17_number.

Theorem C17_stap_b_units_partial : forall s h don us ts,
  byte_ok h -> nal_type h = 25 -> 0 <= don < 2 ^ 16 -> don mod 256 <> 0 ->
  Forall (fun u => 1 <= zlen u <= 65533 /\ hd 0 u <> 0 /\ last u 1 <> 0 /\ plain u) us ->
  push s (stap_b h don us) ts =
  (mkSink (number don ts us) (s_frags s) ((don + zlen us) mod 2 ^ 16), Ok tt).
Proof.
  intros s h don us ts Hh HT Hd H0 HF. apply C17_stap_b_partial; try assumption.
  - eapply Forall_impl; [|exact HF]. unfold stap_size_ok. intros u Hu. tauto.
  - destruct (stap_a_plain' don us HF H0) as [P1 P2]. assert (h <> 0) by (apply (type_nz h 25 HT); lia).
    unfold stap_b. split; rewrite contains_nz; assumption.
Qed.
Print Assumptions C17_stap_b_units_partial.

(* What any packet yields whose decoded form is a STAP-B, whole or cut. *)
Theorem C17_stap_b_exact : forall s p h don us tail ts,
  byte_ok h -> nal_type h = 25 -> 0 <= don < 2 ^ 16 -> ~ contains [0; 0; 1] p -> Forall stap_size_ok us ->
  ebsp_to_raw p = stap_b h don us ++ tail ->
  (zlen tail < 2 \/ exists n rest, tail = be_put 2 n ++ rest /\ zlen rest < n <= 65533) ->
  push s p ts =
  (mkSink (number don ts us) (s_frags s) ((don + zlen us) mod 2 ^ 16),
   if zlen tail <? 2 then Ok tt else Err ErrPacketTooShort).
Proof.
  intros s p h don us tail ts Hh HT Hd HC HF HR HL. rewrite push_no_start, HR by exact HC. unfold stap_b. cbn [app].
  rewrite <- app_assoc. rewrite parse_stap_b by assumption. rewrite stap_entries_run by assumption. destruct HL as [HL|(n & rest & -> & HL)].
  - rewrite stap_short by exact HL. replace (zlen tail <? 2) with true by lia. reflexivity.
  - rewrite zlen_app, zlen_be_put. pose proof (zlen_nonneg rest). replace (Z.of_nat 2 + zlen rest <? 2) with false by lia.
    apply stap_trunc; lia.
Qed.
Print Assumptions C17_stap_b_exact.
(* the size is taken for an emulation byte, and the first two bytes of the unit for the size *)
Example C17_exact_case : let p := stap_b 25 256 [[1; 9; 9]] in
  ebsp_to_raw p = stap_b 25 256 [[9]] ++ [9] /\ push new_sink p 7 = (mkSink [mkUnit 9 256 7 []] [] 257, Ok tt).
Proof. split; reflexivity. Qed.

Theorem C17_stap_b_refuted : exists h don u ts s',
  byte_ok h /\ nal_type h = 25 /\ 0 <= don < 2 ^ 16 /\ bytes_ok u /\ zlen u = 3 /\ hd 0 u <> 0 /\ last u 1 <> 0 /\ plain u /\
  push new_sink (stap_b h don [u]) ts = (s', Err ErrPacketTooShort).
Proof.
  exists 25, 256, [101; 9; 9], 5. eexists. splits; try (split; lia); try reflexivity; try (cbn; lia).
  - repeat constructor; lia.
  - split; apply not_contains; reflexivity.
Qed.
Print Assumptions C17_stap_b_refuted.

Example C17_case : push new_sink (stap_b 121 65535 [[103; 66; 0; 31]; [104; 206]]) 9 =
  (mkSink [mkUnit 103 65535 9 [66; 0; 31]; mkUnit 104 0 9 [206]] [] 1, Ok tt).
Proof. reflexivity. Qed.

(* ---- C18 ---- *)
(* Full statement: unit i has DON (donb + dond_i) mod 2^16 and timestamp (ts + off_i) mod 2^32.
   False for every i >= 1 (the running counter is added) and for every 24-bit offset. *)
Theorem C18_mtap16_partial : forall s h donb us ts,
  byte_ok h -> nal_type h = 26 -> 0 <= donb < 2 ^ 16 -> Forall (mtap_entry_ok 2) us -> plain (mtap 2 h donb us) ->
  exists s', push s (mtap 2 h donb us) ts = (s', Ok tt) /\ length (s_units s') = length us /\
    s_frags s' = s_frags s /\ s_don s' = (donb + zlen us) mod 2 ^ 16 /\
    forall i dond off u, nth_error us i = Some (dond, off, u) ->
      nth_error (s_units s') i =
      Some (mkUnit (hd 0 u) ((donb + Z.of_nat i + dond) mod 2 ^ 16) ((ts + off) mod 2 ^ 32) (tl u)).
Proof.
  intros s h donb us ts Hh HT Hd HF HP. rewrite push_plain by exact HP. unfold mtap.
  rewrite (parse_mtap_eq s false) by assumption. rewrite <- (app_nil_r (mtap_entries 2 us)).
  rewrite (mtap_entries_run false) by assumption. rewrite mtap_short by reflexivity.
  eexists. split; [reflexivity|]. cbn [s_units s_frags s_don app]. splits; try reflexivity.
  - apply code_mtap_length.
  - intros i dond off u E. apply (code_mtap_nth false); assumption.
Qed.
Print Assumptions C18_mtap16_partial.

Theorem C18_mtap24_partial : forall s h donb us ts,
  byte_ok h -> nal_type h = 27 -> 0 <= donb < 2 ^ 16 -> Forall (mtap_entry_ok 3) us -> plain (mtap 3 h donb us) ->
  exists s', push s (mtap 3 h donb us) ts = (s', Ok tt) /\ length (s_units s') = length us /\
    s_frags s' = s_frags s /\ s_don s' = (donb + zlen us) mod 2 ^ 16 /\
    forall i dond off u, nth_error us i = Some (dond, off, u) ->
      nth_error (s_units s') i =
      Some (mkUnit (hd 0 u) ((donb + Z.of_nat i + dond) mod 2 ^ 16) ((ts + (ts * 256 + off mod 256) mod 2 ^ 32) mod 2 ^ 32) (tl u)).
Proof.
  intros s h donb us ts Hh HT Hd HF HP. rewrite push_plain by exact HP. unfold mtap.
  rewrite (parse_mtap_eq s true) by assumption. rewrite <- (app_nil_r (mtap_entries 3 us)).
  rewrite (mtap_entries_run true) by assumption. rewrite mtap_short by reflexivity.
  eexists. split; [reflexivity|]. cbn [s_units s_frags s_don app]. splits; try reflexivity.
  - apply code_mtap_length.
  - intros i dond off u E. apply (code_mtap_nth true); assumption.
Qed.
Print Assumptions C18_mtap24_partial.

(* What any packet yields whose decoded form is an MTAP, whole or cut: its complete units, and an error if the last one is
   cut after its header. *)
Theorem C18_mtap_exact : forall s p (wide : bool) h donb us tail ts,
  let w := if wide then 3%nat else 2%nat in
  byte_ok h -> nal_type h = (if wide then 27 else 26) -> 0 <= donb < 2 ^ 16 -> ~ contains [0; 0; 1] p -> Forall (mtap_entry_ok w) us ->
  ebsp_to_raw p = mtap w h donb us ++ tail ->
  (zlen tail < 3 + Z.of_nat w \/
   exists n rest, tail = be_put 2 n ++ rest /\ 1 <= n <= 65532 - Z.of_nat w /\ 1 + Z.of_nat w <= zlen rest < 1 + Z.of_nat w + n) ->
  exists s', push s p ts = (s', if zlen tail <? 3 + Z.of_nat w then Ok tt else Err ErrPacketTooShort) /\ length (s_units s') = length us /\
    s_frags s' = s_frags s /\ s_don s' = (donb + zlen us) mod 2 ^ 16 /\
    forall i dond off u, nth_error us i = Some (dond, off, u) ->
      nth_error (s_units s') i =
      Some (mkUnit (hd 0 u) ((donb + Z.of_nat i + dond) mod 2 ^ 16)
                   ((ts + if wide then (ts * 256 + off mod 256) mod 2 ^ 32 else off) mod 2 ^ 32) (tl u)).
Proof.
  intros s p wide h donb us tail ts w Hh HT Hd HC HF HR HL. rewrite push_no_start, HR by exact HC. unfold mtap. cbn [app]. rewrite <- app_assoc.
  rewrite (parse_mtap_eq s wide) by assumption. change w with (wid wide). rewrite (mtap_entries_run wide) by assumption.
  exists (mkSink (code_mtap wide donb ts us) (s_frags s) (count_don donb (length us))). cbn [s_units s_frags s_don app].
  splits; [| | | |intros i dond off u E; rewrite (code_mtap_nth wide us donb ts i dond off u Hd E); reflexivity].
  - destruct HL as [HL|(n & rest & -> & HL)].
    + rewrite mtap_short by exact HL. change (wid wide) with w. replace (zlen tail <? 3 + Z.of_nat w) with true by lia. reflexivity.
    + rewrite mtap_trunc by apply HL. rewrite zlen_app, zlen_be_put. change (wid wide) with w. replace (Z.of_nat 2 + zlen rest <? 3 + Z.of_nat w) with false by lia. reflexivity.
  - apply code_mtap_length.
  - reflexivity.
  - reflexivity.
Qed.
Print Assumptions C18_mtap_exact.
(* an emulation byte in the second unit: the first comes out, the second is short by one *)
Example C18_exact_case : let p := mtap 2 26 257 [(0, 5, [101; 9]); (1, 6, [101; 0; 0; 3; 1])] in
  ebsp_to_raw p = mtap 2 26 257 [(0, 5, [101; 9])] ++ be_put 2 5 ++ [1; 0; 6; 101; 0; 0; 1] /\
  push new_sink p 7 = (mkSink [mkUnit 101 257 12 [9]] [] 258, Err ErrPacketTooShort).
Proof. split; reflexivity. Qed.

Theorem C18_mtap16_don_refuted : exists h donb us ts s' dond off u,
  byte_ok h /\ nal_type h = 26 /\ Forall (mtap_entry_ok 2) us /\ nth_error us 1 = Some (dond, off, u) /\
  push new_sink (mtap 2 h donb us) ts = (s', Ok tt) /\
  option_map u_don (nth_error (s_units s') 1) <> Some ((donb + dond) mod 2 ^ 16).
Proof.
  exists 26, 257, [(0, 5, [101; 9]); (1, 6, [101; 8])], 1000. eexists. exists 1, 6, [101; 8].
  splits; [split; lia|reflexivity| |reflexivity|reflexivity|discriminate].
  repeat constructor; cbn; lia.
Qed.
Print Assumptions C18_mtap16_don_refuted.

Theorem C18_mtap24_ts_refuted : exists h donb us ts s' dond off u,
  byte_ok h /\ nal_type h = 27 /\ Forall (mtap_entry_ok 3) us /\ nth_error us 0 = Some (dond, off, u) /\
  push new_sink (mtap 3 h donb us) ts = (s', Ok tt) /\
  option_map u_ts (nth_error (s_units s') 0) <> Some ((ts + off) mod 2 ^ 32).
Proof.
  exists 27, 257, [(0, 5, [101; 9])], 1000. eexists. exists 0, 5, [101; 9].
  splits; [split; lia|reflexivity| |reflexivity|reflexivity|discriminate].
  repeat constructor; cbn; lia.
Qed.
Print Assumptions C18_mtap24_ts_refuted.

Example C18_case : push new_sink (mtap 2 26 65535 [(0, 700, [101; 9; 7]); (3, 6, [101; 8])]) 4294967295 =
  (mkSink [mkUnit 101 65535 699 [9; 7]; mkUnit 101 3 5 [8]] [] 1, Ok tt).
Proof. reflexivity. Qed.

(* ---- C19 ---- *)
(* FU-A series: from any sink state, any chunks a sender may produce (no start code inside). *)
Theorem C19_fu_a : forall s h c cs ts,
  byte_ok h -> nal_type h <> 0 -> cs <> [] -> Forall (fun c => ~ contains [0; 0; 1] c) (c :: cs) ->
  exists s', push_all s (map (fun p => (p, ts)) (fu_packets (fu_a h) c cs)) = (s', repeat (Ok tt) (S (length cs))) /\
    s_units s' = [mkUnit (nal_nri h * 32 + nal_type h) (s_don s) ts (flat_map ebsp_to_raw (c :: cs))] /\
    s_don s' = s_don s.
Proof.
  intros s h c cs ts Hh HT NE HF. apply Forall_cons_iff in HF as [Hc HF].
  unfold fu_packets. cbn [map push_all]. rewrite push_fua by assumption. rewrite (add_first _ _ h) by auto.
  match goal with |- context [push_all ?x _] => destruct (push_tail h ts cs x Hh HT NE HF) as (s' & -> & U & D) end.
  exists s'. split; [reflexivity|]. rewrite U. split; [|exact D]. cbn [frag_data flat_map s_frags f_unit u_data app]. rewrite app_nil_r. reflexivity.
Qed.
Print Assumptions C19_fu_a.

(* Series opened by an FU-B (full statement: without the two conditions on the first packet). *)
Theorem C19_fu_b_partial : forall s h don c cs ts,
  byte_ok h -> nal_type h <> 0 -> 0 <= don < 2 ^ 16 -> cs <> [] ->
  ~ contains [0; 0; 1] (be_put 2 don ++ c) -> no_straddle (be_put 2 don) c ->
  Forall (fun c => ~ contains [0; 0; 1] c) cs ->
  exists s', push_all s (map (fun p => (p, ts)) (fu_b h don true false c :: fu_tail (fu_a h) cs)) = (s', repeat (Ok tt) (S (length cs))) /\
    s_units s' = [mkUnit (nal_nri h * 32 + nal_type h) (s_don s) ts (flat_map ebsp_to_raw (c :: cs))].
Proof.
  intros s h don c cs ts Hh HT Hd NE Hc HS HF. cbn [map push_all].
  rewrite push_fub; try assumption.
  - rewrite (add_first _ _ h) by auto.
    match goal with |- context [push_all ?x _] => destruct (push_tail h ts cs x Hh HT NE HF) as (s' & -> & U & D) end.
    exists s'. split; [reflexivity|]. rewrite U. cbn [frag_data flat_map s_frags f_unit u_data app]. rewrite app_nil_r. reflexivity.
  - rewrite raw_app by exact HS. reflexivity.
Qed.
Print Assumptions C19_fu_b_partial.

(* Exactly: the first fragment contributes what is left of the number and the fragment after decoding both in one and leaving out
   two bytes; this is the fragment if and only if no emulation sequence lies across. *)
Theorem C19_fu_b_exact : forall s h don c cs ts,
  byte_ok h -> nal_type h <> 0 -> 0 <= don < 2 ^ 16 -> cs <> [] ->
  ~ contains [0; 0; 1] (be_put 2 don ++ c) -> Forall (fun c => ~ contains [0; 0; 1] c) cs ->
  let first := skipn 2 (ebsp_to_raw (be_put 2 don ++ c)) in
  exists s', push_all s (map (fun p => (p, ts)) (fu_b h don true false c :: fu_tail (fu_a h) cs)) = (s', repeat (Ok tt) (S (length cs))) /\
    s_units s' = [mkUnit (nal_nri h * 32 + nal_type h) (s_don s) ts (first ++ flat_map ebsp_to_raw cs)] /\
    (first = ebsp_to_raw c <-> no_straddle (be_put 2 don) c).
Proof.
  intros s h don c cs ts Hh HT Hd NE Hc HF first. cbn [map push_all].
  rewrite (push_fub_raw s h don true false c ts don first) by (try assumption; apply raw_two).
  rewrite (add_first _ _ h) by auto.
  match goal with |- context [push_all ?x _] => destruct (push_tail h ts cs x Hh HT NE HF) as (s' & -> & U & D) end.
  exists s'. split; [reflexivity|]. rewrite U. cbn [frag_data flat_map s_frags f_unit u_data app]. rewrite app_nil_r. split; [reflexivity|].
  apply raw_two_iff.
Qed.
Print Assumptions C19_fu_b_exact.
Example C19_exact_case : s_units (fst (push_all new_sink [(fu_b 101 256 true false [0; 3; 7], 5); (fu_a 101 false true [9], 5)])) = [mkUnit 101 0 5 [0; 7; 9]] /\
  s_units (fst (push_all new_sink [(fu_b 101 257 true false [0; 3; 7], 5); (fu_a 101 false true [9], 5)])) = [mkUnit 101 0 5 [0; 3; 7; 9]].
Proof. split; reflexivity. Qed.

(* A fragment whose payload starts with 01, opened by an FU-B with DON 0, is not reassembled. *)
Theorem C19_fu_b_refuted : exists h c d ts,
  byte_ok h /\ nal_type h <> 0 /\ ~ contains [0; 0; 1] (c ++ d) /\
  exists s' os, push_all new_sink [(fu_b h 0 true false c, ts); (fu_a h false true d, ts)] = (s', os) /\
    s_units s' <> [mkUnit (nal_nri h * 32 + nal_type h) 0 ts (c ++ d)].
Proof.
  exists 101, [1; 8], [9], 5. splits; [split; lia|discriminate| |].
  - apply not_contains. reflexivity.
  - eexists. eexists. split; [reflexivity|discriminate].
Qed.
Print Assumptions C19_fu_b_refuted.

Example C19_case : s_units (fst (push_all (mkSink [] [mkFrag (mkUnit 1 2 3 [4]) 5] 17)
    (map (fun p => (p, 40)) (fu_packets (fu_a 101) [1; 2] [[3]; [0; 0; 3; 1]])))) =
  [mkUnit 101 17 40 [1; 2; 3; 0; 0; 1]].
Proof. reflexivity. Qed.

(* ---- C20 ---- *)
(* Full statement: without cuts_ok.  False when an emulation sequence lies across a fragment border. *)
Theorem C20_fragmentation_partial : forall s h d c cs ts,
  byte_ok h -> nal_type h <> 0 -> cs <> [] -> ~ contains [0; 0; 1] d -> concat (c :: cs) = d -> cuts_ok [] (c :: cs) ->
  exists s', push_all s (map (fun p => (p, ts)) (fu_packets (fu_a h) c cs)) = (s', repeat (Ok tt) (S (length cs))) /\
    s_units s' = [mkUnit (nal_nri h * 32 + nal_type h) (s_don s) ts (ebsp_to_raw d)].
Proof.
  intros s h d c cs ts Hh HT NE HC Hd HO. destruct (C19_fu_a s h c cs ts Hh HT NE) as (s' & P & U & _).
  - apply Forall_forall. intros x Hx C. apply HC. rewrite <- Hd. apply (contains_concat _ x); assumption.
  - exists s'. split; [exact P|]. rewrite U, <- Hd. pose proof (raw_cuts (c :: cs) [] HO) as R. cbn [app ebsp_to_raw] in R.
    rewrite R. reflexivity.
Qed.
Print Assumptions C20_fragmentation_partial.

(* Exactly: the unit comes out decoded if and only if no sequence is cut. *)
Theorem C20_fragmentation_exact : forall s h d c cs ts,
  byte_ok h -> nal_type h <> 0 -> cs <> [] -> ~ contains [0; 0; 1] d -> concat (c :: cs) = d ->
  exists s', push_all s (map (fun p => (p, ts)) (fu_packets (fu_a h) c cs)) = (s', repeat (Ok tt) (S (length cs))) /\
    (s_units s' = [mkUnit (nal_nri h * 32 + nal_type h) (s_don s) ts (ebsp_to_raw d)] <-> cuts_ok [] (c :: cs)).
Proof.
  intros s h d c cs ts Hh HT NE HC Hd. destruct (C19_fu_a s h c cs ts Hh HT NE) as (s' & P & U & _).
  - apply Forall_forall. intros x Hx C. apply HC. rewrite <- Hd. apply (contains_concat _ x); assumption.
  - exists s'. split; [exact P|]. rewrite U, <- Hd, <- raw_cuts_iff. split; intros E; [injection E; auto|]. do 2 f_equal. exact E.
Qed.
Print Assumptions C20_fragmentation_exact.
Example C20_exact_case : let whole := s_units (fst (push_all new_sink (map (fun p => (p, 5)) (fu_packets (fu_a 101) [7; 0; 0; 3] [[1; 8]])))) in
  let cut := s_units (fst (push_all new_sink (map (fun p => (p, 5)) (fu_packets (fu_a 101) [7; 0] [[0; 3; 1; 8]])))) in
  whole = [mkUnit 101 0 5 [7; 0; 0; 1; 8]] /\ cut = [mkUnit 101 0 5 [7; 0; 0; 3; 1; 8]].
Proof. split; reflexivity. Qed.

Theorem C20_fragmentation_refuted : exists h d c1 c2 d1 d2 ts,
  byte_ok h /\ nal_type h <> 0 /\ ~ forbidden (h :: d) /\ c1 ++ c2 = d /\ d1 ++ d2 = d /\
  s_units (fst (push_all new_sink [(fu_a h true false c1, ts); (fu_a h false true c2, ts)])) <>
  s_units (fst (push_all new_sink [(fu_a h true false d1, ts); (fu_a h false true d2, ts)])).
Proof.
  exists 101, [7; 0; 0; 3; 1; 8], [7], [0; 0; 3; 1; 8], [7; 0], [0; 3; 1; 8], 5.
  splits; [split; lia|discriminate| |reflexivity|reflexivity|discriminate]. apply clean_spec. reflexivity.
Qed.
Print Assumptions C20_fragmentation_refuted.

Example C20_case : cuts_ok [] [[7; 0; 0; 3]; [1]; [8]].
Proof.
  cbn [cuts_ok app concat]. repeat split; intros (a & b & E1 & E2); try discriminate.
Qed.

(* ---- C21 ---- *)
(* Full statement: all units of the payload are exposed.  False: only those of the last NAL unit are. *)
Theorem C21_push_all_partial : forall s us ts,
  us <> [] -> don_ok s ->
  Forall (fun u => bytes_ok (snd u) /\ snd u <> [] /\ rbsp_legal (snd u) /\
                   (nal_type (hd 0 (snd u)) < 24 \/ 29 < nal_type (hd 0 (snd u)))) us ->
  push s (byte_stream us) ts =
  (let l := snd (last us (false, [])) in
   mkSink [mkUnit (hd 0 l) ((s_don s + zlen us - 1) mod 2 ^ 16) ts (tl l)] (s_frags s) ((s_don s + zlen us) mod 2 ^ 16), Ok tt).
Proof.
  intros s us ts NE Hs HF. unfold push.
  assert (split_annexb (byte_stream us) = Ok (map snd us)) as ->.
  { rewrite split_annexb_scan. destruct us as [|[l u] us]; [congruence|].
    rewrite scan_stream; [|eapply Forall_impl; [|exact HF]; cbn; tauto|cbn; lia].
    cbn [piece app]. rewrite map_map. f_equal. apply map_ext_in. intros x Hx.
    apply (proj1 (Forall_forall _ _) HF) in Hx as (H1 & _ & H3 & _).
    pose proof (raw_enc_body [3] (or_intror eq_refl) (snd x) 0 H1 ltac:(lia)) as R.
    cbn [repeat app] in R. unfold encapsulate. rewrite R.
    unfold rbsp_legal in H3. rewrite <- Nat.negb_odd in H3. destruct (Nat.odd (trail_zeros (snd x))); [discriminate|].
    rewrite andb_false_r. apply app_nil_r. }
  rewrite push_nals_single.
  - rewrite zlen_map. assert (forall l : list (bool * bytes), last (map snd l) [] = snd (last l (false, []))) as ->; [|reflexivity].
    clear. intros l. induction l as [|x [|y l] IH]; [reflexivity|reflexivity|exact IH].
  - destruct us; [congruence|discriminate].
  - exact Hs.
  - apply Forall_map. eapply Forall_impl; [|exact HF]. cbn. intros [l u] (B & N & _ & T). cbn in *.
    destruct u as [|h d]; [congruence|]. exists h, d. apply Forall_cons_iff in B as [B _]. auto.
Qed.
Print Assumptions C21_push_all_partial.

Theorem C21_push_all_refuted : exists us ts,
  length us = 2%nat /\ Forall (fun u => snd u <> [] /\ rbsp_legal (snd u) /\ nal_type (hd 0 (snd u)) < 24) us /\
  length (s_units (fst (push new_sink (byte_stream us) ts))) = 1%nat.
Proof.
  exists [(true, [103; 66]); (true, [104; 9])], 5. splits; [reflexivity| |reflexivity].
  repeat constructor; try discriminate.
Qed.
Print Assumptions C21_push_all_refuted.

Example C21_case : push (mkSink [] [] 65535) (byte_stream [(true, [103; 66]); (false, [104; 9]); (false, [101; 7; 7])]) 5 =
  (mkSink [mkUnit 101 1 5 [7; 7]] [] 2, Ok tt).
Proof. reflexivity. Qed.

(* ---- C22 ---- *)
(* Full statement: for all s buf ts, returns (snd (push s buf ts)).  False; [crash] describes exactly the
   NAL units on which the process panics. *)
Theorem C22_total_partial : forall s buf ts nals,
  bytes_ok buf -> don_ok s -> split_annexb buf = Ok nals -> Forall (fun n => ~ crash n) nals ->
  snd (push s buf ts) = Ok tt \/ snd (push s buf ts) = Err ErrPacketTooShort.
Proof.
  intros s buf ts nals HB HD HS HN. destruct (push_nals_bytes buf HB) as (nals' & E & F).
  rewrite HS in E. injection E as <-. unfold push. rewrite HS.
  destruct (push_nals_outcome nals s ts F HD) as [[_ X]|X]; [|exact X].
  exfalso. apply Exists_exists in X as (n & I & C). rewrite Forall_forall in HN. exact (HN n I C).
Qed.
Print Assumptions C22_total_partial.

Theorem C22_panic_exact : forall s buf ts,
  bytes_ok buf -> don_ok s -> ~ contains [0; 0; 1] buf ->
  (snd (push s buf ts) = Panic <-> crash (ebsp_to_raw buf)).
Proof.
  intros s buf ts HB HD HC. rewrite push_no_start by exact HC. apply bytes_ok_raw in HB. split; intros H.
  - destruct (parse_outcome s (ebsp_to_raw buf) ts HB HD) as [[_ C]|[E|E]]; [exact C|congruence|congruence].
  - apply parse_crash; assumption.
Qed.
Print Assumptions C22_panic_exact.

(* All payloads: what is returned depends on the packets between the start codes. *)
Theorem C22_exact : forall s buf ts, bytes_ok buf -> don_ok s -> exists nals, split_annexb buf = Ok nals /\
  (snd (push s buf ts) = Ok tt <-> Forall taken nals) /\ (snd (push s buf ts) = Panic <-> breaks_at nals) /\
  (snd (push s buf ts) = Err ErrPacketTooShort <-> ~ Forall taken nals /\ ~ breaks_at nals).
Proof.
  intros s buf ts HB HD. destruct (push_nals_bytes buf HB) as (nals & E & F). exists nals. split; [exact E|]. unfold push. rewrite E. apply push_nals_exact; assumption.
Qed.
Print Assumptions C22_exact.
Example C22_exact_case : split_annexb [0; 0; 1; 101; 1; 0; 0; 1; 24; 0; 0; 7; 0; 0; 1; 9] = Ok [[101; 1]; [24; 0; 0; 7]; [9]] /\
  snd (push new_sink [0; 0; 1; 101; 1; 0; 0; 1; 24; 0; 0; 7; 0; 0; 1; 9] 5) = Panic /\ breaks_at [[101; 1]; [24; 0; 0; 7]; [9]].
Proof.
  splits; [reflexivity|reflexivity|]. exists [[101; 1]], [24; 0; 0; 7], [[9]]. splits; [reflexivity| |].
  - constructor; [|constructor]. exists 101, [1]. split; [reflexivity|]. left. left. reflexivity.
  - left. exists 24, [], 0, [7]. splits; try reflexivity; [constructor|left; reflexivity].
Qed.

(* Only aggregation packets can crash the sink. *)
Theorem C22_types : forall n, crash n -> exists h r, n = h :: r /\ 24 <= nal_type h <= 27.
Proof.
  intros n [(h & us & size & rest & T & _ & -> & _)|[(h & don & us & size & rest & T & _ & -> & _)|(w & h & don & us & size & rest & T & _ & -> & _)]].
  all: eexists; eexists; split; [reflexivity|]; lia.
Qed.
Print Assumptions C22_types.

Theorem C22_total_refuted : exists buf ts, bytes_ok buf /\ length buf = 3%nat /\ snd (push new_sink buf ts) = Panic.
Proof. exists [24; 0; 0], 5. splits; [repeat constructor; lia|reflexivity|reflexivity]. Qed.
Print Assumptions C22_total_refuted.

Example C22_case : split_annexb [24; 0; 2; 103; 66; 0] = Ok [[24; 0; 2; 103; 66; 0]] /\ ~ crash [24; 0; 2; 103; 66; 0].
Proof.
  split; [reflexivity|]. intros C.
  assert (D : 0 <= s_don new_sink < 2 ^ 16) by (cbn; lia).
  assert (B : bytes_ok [24; 0; 2; 103; 66; 0]) by (repeat constructor; cbn; lia).
  pose proof (parse_crash new_sink _ 0 B D C) as P. vm_compute in P. discriminate.
Qed.

(* ---- C23 ---- *)
Theorem C23_don_diff : forall m n, 0 <= m < 2 ^ 16 -> 0 <= n < 2 ^ 16 ->
  don_diff m n = rfc_don_diff m n /\
  don_diff n m = - don_diff m n /\
  -32768 <= don_diff m n <= 32768 /\
  don_diff m n mod 2 ^ 16 = (n - m) mod 2 ^ 16 /\
  (don_diff m n = 0 <-> m = n).
Proof.
  intros m n Hm Hn. rewrite <- don_diff_rfc by assumption.
  assert (C : don_diff m n = n - m \/ don_diff m n = n - m + 1 * 2 ^ 16 \/ don_diff m n = n - m + (-1) * 2 ^ 16).
  { unfold don_diff. destruct (_ >=? _); [lia|]. destruct (_ <=? _); lia. }
  assert (M : don_diff m n mod 2 ^ 16 = (n - m) mod 2 ^ 16).
  { destruct C as [-> |[-> | ->]]; [reflexivity|apply Z.mod_add; lia|apply Z.mod_add; lia]. }
  splits; auto; clear M C; unfold don_diff;
    repeat match goal with |- context [if ?b then _ else _] => destruct b eqn:? end; lia.
Qed.
Print Assumptions C23_don_diff.

Example C23_case : don_diff 65535 0 = 1 /\ don_diff 0 65535 = -1 /\ don_diff 0 32768 = -32768.
Proof. splits; reflexivity. Qed.

(* ---- C24 ---- *)
(* Full statement: any proper cut of an aggregation unit is reported.  False for cuts that leave less
   than the two bytes of a size field (STAP), or less than a whole unit header (MTAP). *)
Theorem C24_stap_a_cut_partial : forall s h us u k ts,
  don_ok s -> byte_ok h -> nal_type h = 24 -> Forall stap_size_ok (us ++ [u]) ->
  2 <= k < 2 + zlen u ->
  let p := h :: stap_entries us ++ firstn (Z.to_nat k) (be_put 2 (zlen u) ++ u) in
  plain p ->
  push s p ts = (mkSink (number (s_don s) ts us) (s_frags s) ((s_don s + zlen us) mod 2 ^ 16), Err ErrPacketTooShort).
Proof.
  intros s h us u k ts Hs Hh HT HF Hk p HP. rewrite push_plain by exact HP. unfold p.
  apply Forall_app in HF as [HF Hu]. apply Forall_cons_iff in Hu as [Hu _]. unfold stap_size_ok in Hu.
  rewrite parse_stap_a by assumption. rewrite stap_entries_run by assumption.
  rewrite firstn_app, be_put_length. rewrite (firstn_all2 (be_put 2 _)) by (rewrite be_put_length; lia).
  apply stap_trunc; [lia|]. rewrite zlen_firstn. lia.
Qed.
Print Assumptions C24_stap_a_cut_partial.

Theorem C24_mtap16_cut_partial : forall s h donb us dond off u k ts,
  byte_ok h -> nal_type h = 26 -> 0 <= donb < 2 ^ 16 -> Forall (mtap_entry_ok 2) (us ++ [(dond, off, u)]) ->
  5 <= k < 5 + zlen u ->
  let p := h :: be_put 2 donb ++ mtap_entries 2 us ++ firstn (Z.to_nat k) (be_put 2 (zlen u) ++ [dond] ++ be_put 2 off ++ u) in
  plain p -> snd (push s p ts) = Err ErrPacketTooShort.
Proof.
  intros s h donb us dond off u k ts Hh HT Hd HF Hk p HP. rewrite push_plain by exact HP. unfold p.
  apply Forall_app in HF as [HF Hu]. apply Forall_cons_iff in Hu as [(_ & _ & Hu) _].
  rewrite (parse_mtap_eq s false) by assumption. rewrite (mtap_entries_run false) by assumption.
  rewrite firstn_app, be_put_length. rewrite (firstn_all2 (be_put 2 (zlen u))) by (rewrite be_put_length; lia).
  rewrite mtap_trunc; [reflexivity|cbn [wid]; lia|]. cbn [wid]. rewrite zlen_firstn, !zlen_app, zlen_be_put.
  change (zlen [dond]) with 1. lia.
Qed.
Print Assumptions C24_mtap16_cut_partial.

Theorem C24_mtap24_cut_partial : forall s h donb us dond off u k ts,
  byte_ok h -> nal_type h = 27 -> 0 <= donb < 2 ^ 16 -> Forall (mtap_entry_ok 3) (us ++ [(dond, off, u)]) ->
  6 <= k < 6 + zlen u ->
  let p := h :: be_put 2 donb ++ mtap_entries 3 us ++ firstn (Z.to_nat k) (be_put 2 (zlen u) ++ [dond] ++ be_put 3 off ++ u) in
  plain p -> snd (push s p ts) = Err ErrPacketTooShort.
Proof.
  intros s h donb us dond off u k ts Hh HT Hd HF Hk p HP. rewrite push_plain by exact HP. unfold p.
  apply Forall_app in HF as [HF Hu]. apply Forall_cons_iff in Hu as [(_ & _ & Hu) _].
  rewrite (parse_mtap_eq s true) by assumption. rewrite (mtap_entries_run true) by assumption.
  rewrite firstn_app, be_put_length. rewrite (firstn_all2 (be_put 2 (zlen u))) by (rewrite be_put_length; lia).
  rewrite mtap_trunc; [reflexivity|cbn [wid]; lia|]. cbn [wid]. rewrite zlen_firstn, !zlen_app, zlen_be_put.
  change (zlen [dond]) with 1. lia.
Qed.
Print Assumptions C24_mtap24_cut_partial.

(* Exactly: a cut is reported if and only if it leaves the size (STAP) or the header (MTAP) of the unit that is cut. *)
Theorem C24_stap_cut_exact : forall s h (don : option Z) us u k ts,
  don_ok s -> byte_ok h -> match don with None => nal_type h = 24 | Some d => nal_type h = 25 /\ 0 <= d < 2 ^ 16 end -> Forall stap_size_ok (us ++ [u]) ->
  0 <= k < 2 + zlen u ->
  let p := h :: (match don with None => [] | Some d => be_put 2 d end) ++ stap_entries us ++ firstn (Z.to_nat k) (be_put 2 (zlen u) ++ u) in
  let d := match don with None => s_don s | Some d => d end in
  plain p -> push s p ts = (mkSink (number d ts us) (s_frags s) ((d + zlen us) mod 2 ^ 16), if k <? 2 then Ok tt else Err ErrPacketTooShort).
Proof.
  intros s h don us u k ts Hs Hh HT HF Hk p d HP. apply Forall_app in HF as [HF Hu]. apply Forall_cons_iff in Hu as [Hu _]. unfold stap_size_ok in Hu.
  assert (Hd : 0 <= d < 2 ^ 16) by (subst d; destruct don; [apply HT|exact Hs]).
  assert (E : push s p ts = stap_run (mkSink [] (s_frags s) d) (stap_entries us ++ firstn (Z.to_nat k) (be_put 2 (zlen u) ++ u)) ts).
  { rewrite push_plain by exact HP. unfold p, d. destruct don as [d'|].
    - destruct HT as [HT HD]. apply parse_stap_b; assumption.
    - cbn [app]. apply parse_stap_a; assumption. }
  rewrite E, stap_entries_run by assumption. cbn [s_units s_frags s_don app]. destruct (k <? 2) eqn:K.
  - apply stap_short. rewrite zlen_firstn. lia.
  - rewrite firstn_app, be_put_length. rewrite (firstn_all2 (be_put 2 _)) by (rewrite be_put_length; lia).
    apply stap_trunc; [lia|]. rewrite zlen_firstn. lia.
Qed.
Print Assumptions C24_stap_cut_exact.
Theorem C24_mtap_cut_exact : forall s (wide : bool) h donb us dond off u k ts,
  let w := if wide then 3%nat else 2%nat in
  byte_ok h -> nal_type h = (if wide then 27 else 26) -> 0 <= donb < 2 ^ 16 -> Forall (mtap_entry_ok w) (us ++ [(dond, off, u)]) ->
  0 <= k < 3 + Z.of_nat w + zlen u ->
  let p := h :: be_put 2 donb ++ mtap_entries w us ++ firstn (Z.to_nat k) (be_put 2 (zlen u) ++ [dond] ++ be_put w off ++ u) in
  plain p -> snd (push s p ts) = (if k <? 3 + Z.of_nat w then Ok tt else Err ErrPacketTooShort) /\ length (s_units (fst (push s p ts))) = length us.
Proof.
  intros s wide h donb us dond off u k ts w Hh HT Hd HF Hk p HP. apply Forall_app in HF as [HF Hu]. apply Forall_cons_iff in Hu as [(_ & _ & Hu) _].
  rewrite push_plain by exact HP. unfold p. rewrite (parse_mtap_eq s wide) by assumption. change w with (wid wide) in *.
  rewrite (mtap_entries_run wide) by assumption. destruct (k <? 3 + Z.of_nat (wid wide)) eqn:K.
  - rewrite mtap_short by (rewrite zlen_firstn; lia). split; [reflexivity|]. cbn [fst s_units]. apply code_mtap_length.
  - rewrite firstn_app, be_put_length. rewrite (firstn_all2 (be_put 2 (zlen u))) by (rewrite be_put_length; lia).
    rewrite mtap_trunc; [split; [reflexivity|]; cbn [fst s_units]; apply code_mtap_length|lia|].
    rewrite zlen_firstn, !zlen_app, zlen_be_put. change (zlen [dond]) with 1. lia.
Qed.
Print Assumptions C24_mtap_cut_exact.

(* packets that end inside their fixed header *)
Theorem C24_short_headers : forall s h r ts, byte_ok h -> bytes_ok r -> ~ contains [0; 0; 1] (h :: r) -> h <> 0 ->
  (25 <= nal_type h <= 27 /\ zlen r < 2) \/ (nal_type h = 28 /\ zlen r < 1) \/ (nal_type h = 29 /\ zlen r < 3) ->
  push s (h :: r) ts = (mkSink [] (s_frags s) (s_don s), Err ErrPacketTooShort).
Proof.
  intros s h r ts Hh Hr HC H0 C. rewrite push_no_start by exact HC.
  assert (L : zlen (ebsp_to_raw r) <= zlen r).
  { clear. induction r as [r IH] using list_ind_len. destruct r as [|a r]; [cbn; lia|]. rewrite raw_cons.
    assert (zlen (ebsp_to_raw r) <= zlen r) by (apply IH; cbn; lia).
    destruct r as [|b [|c r]]; [cbn; lia|rewrite !zlen_cons in *; lia|].
    destruct (_ && _); rewrite !zlen_cons in *; [|lia]. pose proof (IH r ltac:(cbn; lia)). lia. }
  rewrite raw_nz by exact H0. destruct C as [[T C]|[[T C]|[T C]]].
  - apply parse_short; [exact Hh|lia|]. unfold is_mtap. lia.
  - pose proof (zlen_nonneg (ebsp_to_raw r)). unfold parse_nal. rewrite land31, T by exact Hh. cbn [Z.eqb Pos.eqb].
    rewrite zlen_cons. replace (_ <? 2) with true by lia. reflexivity.
  - unfold parse_nal. rewrite land31, T by exact Hh. cbn [Z.eqb Pos.eqb].
    rewrite zlen_cons. replace (_ <? 4) with true by lia. reflexivity.
Qed.
Print Assumptions C24_short_headers.

Theorem C24_cut_refuted : exists p q ts, byte_ok 24 /\
  p = stap_a 24 [[103; 66]; [104; 9]] /\ (exists t, p = q ++ t /\ t <> [] /\ length q = 6%nat) /\
  snd (push new_sink q ts) = Ok tt.
Proof.
  exists [24; 0; 2; 103; 66; 0; 2; 104; 9], [24; 0; 2; 103; 66; 0], 5. splits; [split; lia|reflexivity| |reflexivity].
  exists [2; 104; 9]. splits; [reflexivity|discriminate|reflexivity].
Qed.
Print Assumptions C24_cut_refuted.

Example C24_case : push new_sink [24; 0; 2; 103; 66; 0; 2; 104] 5 = (mkSink [mkUnit 103 0 5 [66]] [] 1, Err ErrPacketTooShort).
Proof. reflexivity. Qed.
(* an STAP-B cut in its second unit, and one cut in the size field of it *)
Example C24_stap_case : push new_sink (25 :: be_put 2 65535 ++ stap_entries [[103; 66]] ++ [0; 2; 104]) 5 = (mkSink [mkUnit 103 65535 5 [66]] [] 0, Err ErrPacketTooShort) /\
  push new_sink (25 :: be_put 2 65535 ++ stap_entries [[103; 66]] ++ [0]) 5 = (mkSink [mkUnit 103 65535 5 [66]] [] 0, Ok tt).
Proof. split; reflexivity. Qed.
(* an MTAP16 and an MTAP24 cut in the second unit; an MTAP16 cut in the header of it *)
Example C24_mtap_case : push new_sink (26 :: be_put 2 7 ++ mtap_entries 2 [(0, 9, [103; 66])] ++ [0; 2; 1; 0; 9; 104]) 5 = (mkSink [mkUnit 103 7 14 [66]] [] 8, Err ErrPacketTooShort) /\
  snd (push new_sink (27 :: be_put 2 7 ++ mtap_entries 3 [(0, 70000, [103; 66])] ++ [0; 2; 1; 0; 1; 9; 104]) 5) = Err ErrPacketTooShort /\
  push new_sink (26 :: be_put 2 7 ++ mtap_entries 2 [(0, 9, [103; 66])] ++ [0; 2; 1; 0]) 5 = (mkSink [mkUnit 103 7 14 [66]] [] 8, Ok tt).
Proof. splits; reflexivity. Qed.
Example C24_short_case : map (fun p => push (mkSink [mkUnit 103 0 5 [66]] [] 3) p 9) [[25; 7]; [26]; [27; 0]; [28]; [29; 133; 1]] =
  repeat (mkSink [] [] 3, Err ErrPacketTooShort) 5.
Proof. reflexivity. Qed.
