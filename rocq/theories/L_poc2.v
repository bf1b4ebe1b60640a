(* pic_order_cnt_type 2 is read as if it were type 1. *)
From Verif Require Import Base S_bits M_bits S_sps M_sps S_spsrel S_interlaced L_base L_bits L_sps L_spsdec L_interlaced.
From Coq Require Import ZifyBool ZifyNat.

(* a number that begins with a zero bit is not zero *)
Lemma ue_not_zero k r u' v : (1 <= k <= 30)%nat -> spec_ue (repeat false k ++ true :: r) = (u', Ok v) -> 0 < v < 2 ^ 32 - 1.
Proof.
  intros Hk. unfold spec_ue. rewrite spec_zeroes_code. unfold spec_read.
  destruct (_ || _); [discriminate|]. cbv zeta. intros E. injection E as _ <-.
  set (l := firstn _ r). pose proof (bval_range l) as B.
  assert (L : zlen l <= Z.of_nat k) by (unfold l, zlen; rewrite firstn_length; lia).
  assert (0 <= acc_width (skipn (Z.to_nat (Z.of_nat k)) r)).
  { unfold acc_width. pose proof (Z.mod_pos_bound (zlen (skipn (Z.to_nat (Z.of_nat k)) r)) 8). lia. }
  set (w := acc_width _) in *. assert (0 < 2 ^ w) by (apply Z.pow_pos_nonneg; lia).
  pose proof (Z.mod_pos_bound (bval l) (2 ^ w) ltac:(lia)). pose proof (Z.mod_le (bval l) (2 ^ w) ltac:(lia) ltac:(lia)).
  assert (2 ^ zlen l <= 2 ^ Z.of_nat k) by (apply Z.pow_le_mono_r; lia).
  assert (2 ^ Z.of_nat k <= 2 ^ 30) by (apply Z.pow_le_mono_r; lia).
  assert (2 ^ 1 <= 2 ^ Z.of_nat k) by (apply Z.pow_le_mono_r; lia).
  rewrite Z.mod_small; lia.
Qed.
Lemma se_not_zero k r u' v : (1 <= k <= 30)%nat -> spec_se (repeat false k ++ true :: r) = (u', Ok v) -> v <> 0.
Proof.
  intros Hk. unfold spec_se. destruct (spec_ue _) as [w [n| | |]] eqn:E; try discriminate.
  apply ue_not_zero in E; [|exact Hk]. intros X. injection X as _ <-. replace (n =? 4294967295) with false by lia.
  unfold signed_of. destruct (Z.even n) eqn:V.
  - assert (n mod 2 = 0) by (rewrite Zmod_even, V; reflexivity). pose proof (Z.div_mod n 2 ltac:(lia)). lia.
  - pose proof (Z.div_str_pos (n + 1) 2). lia.
Qed.
Lemma small_code v : small v -> exists k t, ue_code v = repeat false k ++ true :: t /\ (k <= 20)%nat /\ length t = k /\ (k = O <-> v = 0).
Proof.
  unfold small. intros H. rewrite ue_code_shape by lia.
  assert (0 <= Z.log2 (v + 1)) by apply Z.log2_nonneg.
  assert (Z.log2 (v + 1) < 21) by (apply Z.log2_lt_pow2; lia).
  do 2 eexists. split; [reflexivity|]. split; [lia|]. split; [rewrite bin_length; reflexivity|].
  destruct (Z.eq_dec v 0) as [->|N]; [cbn; tauto|]. assert (0 < Z.log2 (v + 1)) by (apply Z.log2_pos; lia). lia.
Qed.

(* what is read after the part on picture order counts *)
Definition after_poc (y : sps_syn) (t lpoc : Z) (a0 : bool) (onr otb ncyc : Z) : rd sps_info :=
  mnrf <- RUe ;;
  gaps <- RFlag ;;
  wmbs <- RUe ;;
  hmap <- RUe ;;
  fmo <- RUe ;;
  let fmo := if negb (Z.land (y_constraints y) 2 =? 0) && ((y_profile y =? 77) || (y_profile y =? 88) || (y_profile y =? 100)) then 1 else fmo in
  mbaff <- rwhen (negb (fmo =? 0)) false RFlag ;;
  d8 <- RFlag ;;
  crop <- RFlag ;;
  '(cl, cr, ct, cb) <- parse_sps_crop crop ;;
  vui <- RFlag ;;
  let '(chroma, sep, bdl, bdc, bypass, mp, m) := parsed_chroma y in
  let '(w, h) := sps_dims chroma sep wmbs hmap fmo cl cr ct cb in
  rret (mkSps (y_profile y) (y_constraints y) (y_level y) (y_id y) chroma sep bdl bdc bypass mp m (y_log2_frame_num y)
        t lpoc a0 onr otb ncyc mnrf gaps wmbs hmap fmo mbaff d8 crop cl cr ct cb vui w h).

Definition read_poc (y : sps_syn) (t : Z) : rd sps_info :=
  '(lpoc, a0, onr, otb, ncyc) <- parse_sps_poc t ;; after_poc y t lpoc a0 onr otb ncyc.

Definition lead_bits (y : sps_syn) : list bool :=
  u_code 8 (y_profile y) ++ u_code 8 (y_constraints y) ++ u_code 8 (y_level y) ++ ue_code (y_id y) ++
  match y_chroma y with Some c => chroma_bits c | None => [] end ++
  ue_code (y_log2_frame_num y).

Lemma run_lead y more u' o : sps_legal y -> profile_known (y_profile y) ->
  run (read_poc y 2) more u' o -> run parse_sps_body (lead_bits y ++ ue_code 2 ++ more) u' o.
Proof.
  intros HL HP R. pose proof HL as (Bp & Bc & _ & Bl & Bi & _ & Blf & _).
  unfold lead_bits, parse_sps_body. rewrite <- !app_assoc.
  change 8 with (Z.of_nat 8). do 3 (apply step_byte; [lia | cbn; lia|]). apply step_ue; [lia|].
  eapply run_bind; [apply run_chroma; assumption|]. unfold read_poc, after_poc in R.
  destruct (parsed_chroma y) as [[[[[[chroma sep] bdl] bdc] bypass] mp] m] eqn:EC.
  apply step_ue; [lia|]. apply step_ue; [lia|]. exact R.
Qed.

Definition other_than (y : sps_syn) (i : sps_info) : Prop :=
  sps_id i = y_id y /\
  (sps_delta_pic_order_always0 i = true \/ sps_offset_for_non_ref_pic i <> 0 \/ sps_offset_for_top_to_bottom i <> 0 \/
   sps_num_ref_frames_in_cycle i <> 0 \/ sps_max_num_ref_frames i <> y_ref_frames y \/ sps_gaps_allowed i <> y_gaps y \/
   sps_pic_width_in_mbs_minus1 i <> y_width_mbs y).
Lemma tot_rest y t lpoc a0 onr otb ncyc mnrf gaps wmbs :
  tot (fun i => sps_id i = y_id y /\ sps_delta_pic_order_always0 i = a0 /\ sps_offset_for_non_ref_pic i = onr /\
       sps_offset_for_top_to_bottom i = otb /\ sps_num_ref_frames_in_cycle i = ncyc /\ sps_max_num_ref_frames i = mnrf /\
       sps_gaps_allowed i = gaps /\ sps_pic_width_in_mbs_minus1 i = wmbs)
  (hmap <- RUe ;;
  fmo <- RUe ;;
  let fmo := if negb (Z.land (y_constraints y) 2 =? 0) && ((y_profile y =? 77) || (y_profile y =? 88) || (y_profile y =? 100)) then 1 else fmo in
  mbaff <- rwhen (negb (fmo =? 0)) false RFlag ;;
  d8 <- RFlag ;;
  crop <- RFlag ;;
  '(cl, cr, ct, cb) <- parse_sps_crop crop ;;
  vui <- RFlag ;;
  let '(chroma, sep, bdl, bdc, bypass, mp, m) := parsed_chroma y in
  let '(w, h) := sps_dims chroma sep wmbs hmap fmo cl cr ct cb in
  rret (mkSps (y_profile y) (y_constraints y) (y_level y) (y_id y) chroma sep bdl bdc bypass mp m (y_log2_frame_num y)
        t lpoc a0 onr otb ncyc mnrf gaps wmbs hmap fmo mbaff d8 crop cl cr ct cb vui w h)).
Proof.
  do 2 (eapply tot_bind; [apply tot_ue|]; intros ? _). cbv zeta.
  eapply tot_bind; [apply (tot_when any); [exact I | apply tot_flag]|]. intros ? _.
  do 2 (eapply tot_bind; [apply tot_flag|]; intros ? _).
  eapply tot_bind; [apply tot_sps_crop|]. intros [[[? ?] ?] ?] _. eapply tot_bind; [apply tot_flag|]. intros ? _.
  destruct (parsed_chroma y) as [[[[[[? ?] ?] ?] ?] ?] ?].
  match goal with |- context [sps_dims ?a ?b ?c ?d ?e ?f ?g ?h ?i] => destruct (sps_dims a b c d e f g h i) as [w hh] end.
  apply tot_ret. splits; reflexivity.
Qed.
Lemma tot_after_poc y t lpoc a0 onr otb ncyc :
  a0 = true \/ onr <> 0 \/ otb <> 0 \/ ncyc <> 0 -> tot (other_than y) (after_poc y t lpoc a0 onr otb ncyc).
Proof.
  intros H. unfold after_poc. eapply tot_bind; [apply tot_ue|]. intros mnrf _. eapply tot_bind; [apply tot_flag|]. intros gaps _.
  eapply tot_bind; [apply tot_ue|]. intros wmbs _.
  intros u. destruct (tot_rest y t lpoc a0 onr otb ncyc mnrf gaps wmbs u) as (u' & o & R & L & [(i & -> & A)| ->]).
  - exists u', (Ok i). splits; [exact R|exact L|]. left. exists i. split; [reflexivity|]. unfold other_than. intuition congruence.
  - exists u', (Err ErrUnexpectedEOF). splits; [exact R|exact L|]. right. reflexivity.
Qed.
(* any first read, then the rest *)
Lemma some_bind {A B} (m : rd A) sp (f : A -> rd B) (Q : B -> Prop) u :
  run m u (fst (sp u)) (snd (sp u)) -> ((exists u' v, sp u = (u', Ok v)) \/ (exists u', sp u = (u', Err ErrUnexpectedEOF))) ->
  (forall u' v, sp u = (u', Ok v) -> exists u2 o, run (f v) u' u2 o /\ ok_or_eof Q o) ->
  exists u2 o, run (rbind m f) u u2 o /\ ok_or_eof Q o.
Proof.
  intros R [(u' & v & E)|(u' & E)] K; rewrite E in R; cbn in R.
  - destruct (K _ _ E) as (u2 & o & R2 & O). exists u2, o. split; [eapply run_bind; eauto|exact O].
  - do 2 eexists. split; [eapply run_bind_err; eauto|right; reflexivity].
Qed.
Lemma of_tot {A} (Q : A -> Prop) (m : rd A) u : tot Q m -> exists u2 o, run m u u2 o /\ ok_or_eof Q o.
Proof. intros T. destruct (T u) as (u' & o & R & _ & O). eauto. Qed.
Lemma se_outcomes u : (exists u' v, spec_se u = (u', Ok v)) \/ (exists u', spec_se u = (u', Err ErrUnexpectedEOF)).
Proof. destruct (spec_se_outcomes u) as [(u' & v & E & _)|(u' & E)]; eauto. Qed.

Lemma ex_assoc {A B C} (m : rd A) (f : A -> rd B) (g : B -> rd C) (Q : C -> Prop) u :
  (exists u2 o, run (rbind m (fun a => rbind (f a) g)) u u2 o /\ ok_or_eof Q o) ->
  exists u2 o, run (rbind (rbind m f) g) u u2 o /\ ok_or_eof Q o.
Proof.
  intros (u2 & o & R & O). exists u2, o. split; [|exact O]. intros r G E. destruct (R r G E) as (r' & X & Y). exists r'. split; [|exact Y].
  rewrite <- X. unfold rbind. destruct (m r) as [r1 [a| | |]]; reflexivity.
Qed.
Lemma ex_ret {A B} (a : A) (f : A -> rd B) (Q : B -> Prop) u :
  (exists u2 o, run (f a) u u2 o /\ ok_or_eof Q o) -> exists u2 o, run (rbind (rret a) f) u u2 o /\ ok_or_eof Q o.
Proof. intros (u2 & o & R & O). exists u2, o. split; [eapply run_bind; [apply run_ret|exact R]|exact O]. Qed.
Lemma ex_flag {B} b (f : bool -> rd B) (Q : B -> Prop) u :
  (exists u2 o, run (f b) u u2 o /\ ok_or_eof Q o) -> exists u2 o, run (rbind RFlag f) (b :: u) u2 o /\ ok_or_eof Q o.
Proof. intros (u2 & o & R & O). exists u2, o. split; [apply step_flag, R|exact O]. Qed.
Lemma ex_ue {B} (f : Z -> rd B) (Q : B -> Prop) u :
  (forall u' v, spec_ue u = (u', Ok v) -> exists u2 o, run (f v) u' u2 o /\ ok_or_eof Q o) ->
  exists u2 o, run (rbind RUe f) u u2 o /\ ok_or_eof Q o.
Proof. intros K. apply (some_bind RUe spec_ue); [apply run_ue|apply spec_ue_outcomes|exact K]. Qed.
Lemma ex_se {B} (f : Z -> rd B) (Q : B -> Prop) u :
  (forall u' v, spec_se u = (u', Ok v) -> exists u2 o, run (f v) u' u2 o /\ ok_or_eof Q o) ->
  exists u2 o, run (rbind RSe f) u u2 o /\ ok_or_eof Q o.
Proof. intros K. apply (some_bind RSe spec_se); [apply run_se|apply se_outcomes|exact K]. Qed.
Lemma se_zero u : spec_se (true :: u) = (u, Ok 0).
Proof. exact (spec_se_code_small 0 u ltac:(lia)). Qed.
Lemma ue_zero u : spec_ue (true :: u) = (u, Ok 0).
Proof. exact (spec_ue_code_small 0 u ltac:(lia)). Qed.

Lemma poc2_other y t : sps_legal y ->
  exists u' o, run (read_poc y 2) (ue_code (y_ref_frames y) ++ y_gaps y :: ue_code (y_width_mbs y) ++ ue_code (y_height_units y) ++ true :: t) u' o /\
    ok_or_eof (other_than y) o.
Proof.
  intros HL. destruct HL as (_ & _ & _ & _ & _ & _ & _ & _ & Br & Bw & Bh & _).
  unfold read_poc, parse_sps_poc. cbn [Z.eqb].
  destruct (small_code _ Br) as (k & r & Er & Hk & Hr & Zr). destruct (small_code _ Bw) as (kw & w & Ew & Hkw & Hw & Zw).
  destruct (small_code _ Bh) as (kh & h & Eh & Hkh & Hh & Zh).
  assert (after : forall lpoc a0 onr otb ncyc, a0 = true \/ onr <> 0 \/ otb <> 0 \/ ncyc <> 0 ->
    tot (other_than y) (after_poc y 2 lpoc a0 onr otb ncyc)) by (intros; apply tot_after_poc; assumption).
  apply ex_assoc. rewrite Er. destruct k as [|k].
  { (* no reference frames: the bit is taken for the flag *)
    cbn [repeat app]. apply ex_flag. apply ex_assoc. apply ex_se. intros u1 x _. apply ex_assoc. apply ex_se. intros u2 x2 _.
    apply ex_assoc. apply ex_ue. intros u3 n _. apply ex_assoc. apply of_tot. eapply tot_bind; [apply tot_skip_se|]. intros ? _.
    eapply tot_bind; [apply (tot_ret (fun p => p = (0, true, x, x2, n))); reflexivity|]. intros ? ->. apply after. tauto. }
  cbn [repeat app]. apply ex_flag. apply ex_assoc. apply ex_se. intros u1 x Ex. apply ex_assoc. apply ex_se. intros u2 x2 Ex2.
  apply ex_assoc. apply ex_ue. intros u3 n En. apply ex_assoc.
  destruct (Z.eq_dec x 0) as [->|N1]; [|apply of_tot; eapply tot_bind; [apply tot_skip_se|]; intros ? _;
    eapply tot_bind; [apply (tot_ret (fun p => p = (0, false, x, x2, n))); reflexivity|]; intros ? ->; apply after; tauto].
  destruct (Z.eq_dec x2 0) as [->|N2]; [|apply of_tot; eapply tot_bind; [apply tot_skip_se|]; intros ? _;
    eapply tot_bind; [apply (tot_ret (fun p => p = (0, false, 0, x2, n))); reflexivity|]; intros ? ->; apply after; tauto].
  destruct (Z.eq_dec n 0) as [->|N3]; [|apply of_tot; eapply tot_bind; [apply tot_skip_se|]; intros ? _;
    eapply tot_bind; [apply (tot_ret (fun p => p = (0, false, 0, 0, n))); reflexivity|]; intros ? ->; apply after; tauto].
  (* the three are zero: so two reference frames, and gaps *)
  destruct k as [|k].
  2:{ exfalso. rewrite <- app_assoc in Ex. cbn [app] in Ex. apply (se_not_zero (S k)) in Ex; [tauto|lia]. }
  cbn [repeat app] in Ex. rewrite se_zero in Ex. injection Ex as <-. destruct r as [|b [|]]; try discriminate. cbn [app] in Ex2.
  destruct b.
  2:{ exfalso. destruct (y_gaps y).
      - apply (se_not_zero 1) in Ex2; [tauto|lia].
      - rewrite Ew, <- app_assoc in Ex2. cbn [app] in Ex2. apply (se_not_zero (2 + kw)) in Ex2; [tauto|lia]. }
  rewrite se_zero in Ex2. injection Ex2 as <-.
  assert (R2 : y_ref_frames y = 2).
  { pose proof (spec_ue_code_small (y_ref_frames y) [] ltac:(unfold small in *; lia)) as V.
    pose proof (spec_ue_code_small 2 [] ltac:(lia)) as V2. rewrite Er in V. change (ue_code 2 ++ []) with [false; true; true] in V2.
    change ((repeat false 1 ++ [true; true]) ++ []) with [false; true; true] in V. rewrite V2 in V. congruence. }
  destruct (y_gaps y) eqn:EG.
  2:{ exfalso. rewrite Ew, <- app_assoc in En. cbn [app] in En. apply (ue_not_zero (1 + kw)) in En; [lia|lia]. }
  rewrite ue_zero in En. injection En as <-.
  (* no offsets follow *)
  assert (SK : run (skip_se 0) (ue_code (y_width_mbs y) ++ ue_code (y_height_units y) ++ true :: t) (ue_code (y_width_mbs y) ++ ue_code (y_height_units y) ++ true :: t) (Ok tt)).
  { unfold skip_se. apply (run_bits_fuel (fun f => skip_se_loop f 0)). apply (run_skip_se [] _ (ue_code (y_width_mbs y) ++ ue_code (y_height_units y) ++ true :: t)); [constructor|cbn; lia]. }
  cut (exists u' o, run (after_poc y 2 0 false 0 0 0) (ue_code (y_width_mbs y) ++ ue_code (y_height_units y) ++ true :: t) u' o /\ ok_or_eof (other_than y) o).
  { intros (u' & o & R & O). exists u', o. split; [|exact O]. eapply run_bind; [exact SK|]. eapply run_bind; [apply run_ret|]. exact R. }
  unfold after_poc. apply ex_ue. intros u' v Ev. rewrite spec_ue_code_small in Ev by (unfold small in *; lia). injection Ev as <- <-.
  destruct (Z.eq_dec (y_width_mbs y) 2) as [W|W].
  2:{ apply of_tot. eapply tot_bind; [apply tot_flag|]. intros g _. eapply tot_bind; [apply tot_ue|]. intros wm _.
      intros u. destruct (tot_rest y 2 0 false 0 0 0 (y_width_mbs y) g wm u) as (u' & o & R & L & O). exists u', o. splits; [exact R|exact L|].
      destruct O as [(i & -> & A)| ->]; [left; exists i; split; [reflexivity|]; unfold other_than; split; [tauto|]; right; right; right; right; left; lia|right; reflexivity]. }
  rewrite Eh. destruct kh as [|kh]; cbn [repeat app].
  2:{ apply ex_flag. apply of_tot. eapply tot_bind; [apply tot_ue|]. intros wm _.
      intros u. destruct (tot_rest y 2 0 false 0 0 0 (y_width_mbs y) false wm u) as (u' & o & R & L & O). exists u', o. splits; [exact R|exact L|].
      destruct O as [(i & -> & A)| ->]; [left; exists i; split; [reflexivity|]; unfold other_than; split; [tauto|]; do 5 right; left; intuition congruence|right; reflexivity]. }
  destruct h; [|discriminate]. cbn [app]. apply ex_flag. apply ex_ue. intros u' v Ev. rewrite ue_zero in Ev. injection Ev as <- <-.
  apply of_tot.
  intros u. destruct (tot_rest y 2 0 false 0 0 0 (y_width_mbs y) true 0 u) as (u' & o & R & L & O). exists u', o. splits; [exact R|exact L|].
  destruct O as [(i & -> & A)| ->]; [left; exists i; split; [reflexivity|]; unfold other_than; split; [tauto|]; do 6 right; lia|right; reflexivity].
Qed.

Lemma poc2_wrong s y rest buf : sps_legal y -> profile_known (y_profile y) -> y_poc y = Poc2 -> y_field y = None ->
  buf_ok buf -> bits_of buf = sps_bits y ++ rest -> snd (parse_sps s buf) = Ok tt ->
  exists i, get_sps (fst (parse_sps s buf)) (y_id y) = Some i /\ ~ sps_matches y i.
Proof.
  intros HL HP H2 HF HB E OK.
  destruct (poc2_other y (y_direct8 y :: crop_bits (y_crop y) ++ y_vui y :: rest) HL) as (u' & o & R & O).
  assert (R' : run parse_sps_body (bits_of buf) u' o).
  { replace (bits_of buf) with (lead_bits y ++ ue_code 2 ++ ue_code (y_ref_frames y) ++ y_gaps y :: ue_code (y_width_mbs y) ++ ue_code (y_height_units y) ++ true :: y_direct8 y :: crop_bits (y_crop y) ++ y_vui y :: rest).
    - apply run_lead; assumption.
    - rewrite E. unfold sps_bits, lead_bits, poc_bits. rewrite H2, HF. cbn [poc_type]. rewrite <- !app_assoc. cbn [app]. reflexivity. }
  assert (Nb : buf <> []) by (intros ->; rewrite sps_bits_split, <- app_assoc in E; symmetry in E; exact (head_bits_ne _ _ E)).
  pose proof (stored s buf _ _ _ HB Nb eq_refl R') as P. rewrite P in OK |- *.
  destruct O as [(i & -> & Hi & A)| ->]; [|discriminate]. cbn [fst] in *. exists i. split.
  - unfold get_sps, map_set. cbn [st_sps]. rewrite Hi, Z.eqb_refl. reflexivity.
  - unfold sps_matches. rewrite H2. intuition congruence.
Qed.

(* slice group map types 3 and 4: neither direction nor rate is read *)
Lemma change_lost s z t n d rate rest buf : z_groups z = GChange t n d rate -> t = 3 \/ t = 4 -> pps_legal (pps_chroma s z) z ->
  buf_ok buf -> bits_of buf = pps_bits z ++ rest -> snd (parse_pps s buf) = Ok tt ->
  exists i, get_pps (fst (parse_pps s buf)) (z_id z) = Some i /\ pps_slice_group_map_type i = t /\
    pps_change_direction i = false /\ pps_change_rate_minus1 i = 0.
Proof.
  intros HG Ht HL HB E OK. destruct HL as (Hid & Hs & HG' & _). rewrite HG in HG'. cbn in HG'. destruct HG' as (_ & -> & _).
  assert (X : exists u' o, run (parse_pps_body (st_sps s)) (bits_of buf) u' o /\
     ok_or_eof (fun i => pps_id i = z_id z /\ pps_slice_group_map_type i = t /\ pps_change_direction i = false /\ pps_change_rate_minus1 i = 0) o).
  { rewrite E. unfold pps_bits, parse_pps_body, groups_bits. rewrite HG. cbn [groups_num]. rewrite <- !app_assoc.
    match goal with |- context [ue_code t ++ ?m] => set (more := m) end.
    assert (T : tot (fun i => pps_id i = z_id z /\ pps_slice_group_map_type i = t /\ pps_change_direction i = false /\ pps_change_rate_minus1 i = 0)
      (l0 <- RUe ;; l1 <- RUe ;; wp <- RFlag ;; wb <- RByte 2 ;; qp <- RSe ;; qs <- RSe ;; cq <- RSe ;; db <- RFlag ;; ci <- RFlag ;; rp <- RFlag ;;
    '(t8, mp, m, sc) <- pps_tail (match st_sps s (z_sps z) with Some s => sps_chroma_format_idc s | None => 3 end) ;;
    rret (mkPps (z_id z) (z_sps z) (z_entropy z) (z_bottom z) 1 t (repeat 0 8) (repeat 0 8) (repeat 0 8) false 0 0 [] l0 l1 wp wb qp qs cq db ci rp t8 mp m sc))).
    { tots. eapply tot_bind; [apply tot_pps_tail|]. intros [[[? ?] ?] ?] _. apply tot_ret. splits; reflexivity. }
    destruct (T more) as (u' & o & R & _ & O). exists u', o. split; [|exact O].
    do 2 (apply step_ue; [lia|]). cbn [app]. cbv zeta. do 2 apply step_flag. apply step_ue; [lia|].
    assert (G : run (slice_groups 1) (ue_code t ++ more) more (Ok (t, repeat 0 8, repeat 0 8, repeat 0 8, false, 0, 0, []))).
    { unfold slice_groups. cbn [Z.gtb Z.compare Pos.compare]. apply step_ue; [lia|]. destruct Ht as [-> | ->]; apply run_ret. }
    eapply run_bind; [exact G|]. exact R. }
  destruct X as (u' & o & R & O).
  assert (Nb : buf <> []).
  { intros ->. cbn in E. unfold pps_bits in E. destruct (ue_first (z_id z) [] ltac:(lia)) as [w Ew]. rewrite app_nil_r in Ew. rewrite Ew in E. discriminate. }
  apply run_new in R; [|exact HB|exact Nb]. unfold parse_pps in *.
  destruct (parse_pps_body (st_sps s) (new_reader buf)) as [r o']. cbn [snd] in R. subst o'.
  destruct O as [(i & -> & Hi & A)| ->]; [|discriminate]. cbn [fst] in *. exists i. split; [|exact A].
  unfold get_pps, map_set. cbn [st_pps]. rewrite Hi, Z.eqb_refl. reflexivity.
Qed.
