(* Properties C25-C30: sequence and picture parameter sets. *)
From Verif Require Import Base S_bits M_bits S_sps M_sps S_spsrel L_base L_bits L_sps L_spsdec.
From Coq Require Import ZifyBool ZifyNat.

(* ---- C25 ---- *)
Theorem C25_parse_sps_total_atomic : forall s buf, buf_ok buf ->
  (exists i, parse_sps s buf = (mkStore (st_sps (fst (parse_sps s buf))) (st_pps s), Ok tt) /\
     forall k, get_sps (fst (parse_sps s buf)) k = if k =? sps_id i then Some i else get_sps s k) \/
  parse_sps s buf = (s, Err ErrUnexpectedEOF).
Proof.
  intros s buf H. unfold parse_sps. destruct (sps_outcome buf H) as [(r & i & E)|(r & E)]; rewrite E.
  - left. exists i. split; reflexivity.
  - right. reflexivity.
Qed.
Print Assumptions C25_parse_sps_total_atomic.

Example C25_case : exists i, get_sps (fst (parse_sps new_store [100; 0; 40; 172; 217; 64; 120; 2; 39; 229; 64])) 0 = Some i /\
  sps_pic_width_in_mbs_minus1 i = 119 /\ snd (parse_sps new_store [100; 0; 40; 172]) = Err ErrUnexpectedEOF /\
  snd (parse_sps new_store []) = Err ErrUnexpectedEOF.
Proof. eexists. split; [vm_compute; reflexivity|]. splits; vm_compute; reflexivity. Qed.

(* ---- C26 ---- *)
(* Full statement: every legal SPS is stored with its values.  False for pic_order_cnt_type 2, for
   frame_mbs_only_flag = 0, and for the FrameMbsOnly field itself, which is stored as 0 where the bit is 1. *)
Theorem C26_sps_fields_partial : forall s y rest buf,
  sps_legal y -> profile_known (y_profile y) -> poc_readable (y_poc y) -> y_field y = None ->
  buf_ok buf -> bits_of buf = sps_bits y ++ rest ->
  snd (parse_sps s buf) = Ok tt /\
  exists i, get_sps (fst (parse_sps s buf)) (y_id y) = Some i /\ sps_matches y i /\ sps_frame_mbs_only i = 0.
Proof.
  intros s y rest buf HL HP HR HF HB E.
  assert (Hn : buf <> []) by (apply (bits_nonempty _ _ E); discriminate).
  pose proof (run_sps y rest HL HP HR HF) as R. rewrite <- E in R. apply run_new in R; [|exact HB|exact Hn].
  destruct (parsed_sps_matches y HF) as [M1 M2]. pose proof M1 as (_ & _ & _ & Mid & _).
  unfold parse_sps. destruct (parse_sps_body (new_reader buf)) as [r o]. cbn [snd] in R. subst o. split; [reflexivity|].
  exists (parsed_sps y). split; [|auto]. unfold get_sps, map_set. cbn [fst st_sps]. rewrite Mid, Z.eqb_refl. reflexivity.
Qed.
Print Assumptions C26_sps_fields_partial.

Example C26_case :
  let y := mkSpsSyn 244 0 40 1 (Some (mkChroma 3 false 2 2 true (Some [None; None; None; Some [8; -16]; None; None; None; Some [-8]; None; None; None; None])))
             0 (Poc1 true (-3) 5 [1; -1]) 4 false 79 44 None true None false in
  sps_legal y /\ profile_known (y_profile y) /\ poc_readable (y_poc y) /\
  bits_of [244; 0; 40; 68; 55; 136; 64; 16; 136; 68; 42; 113; 77; 50; 128; 160; 11; 114] = sps_bits y ++ trailing 1 /\
  exists i, get_sps (fst (parse_sps new_store [244; 0; 40; 68; 55; 136; 64; 16; 136; 68; 42; 113; 77; 50; 128; 160; 11; 114])) 1 = Some i /\
    mx_present (sps_matrix i) = 136 /\ sps_offset_for_non_ref_pic i = -3 /\ firstn 18 (skipn 47 (mx_list (sps_matrix i))) = [0] ++ repeat 16 16 ++ [0].
Proof.
  cbv zeta. splits.
  - unfold sps_legal, std_width, std_height, small, std_high_profiles; cbn -[Z.pow]. splits; try lia; try tauto.
    + repeat constructor; lia.
    + do 2 eexists. vm_compute. reflexivity.
    + repeat constructor; lia.
    + do 2 eexists. vm_compute. reflexivity.
    + repeat constructor; lia.
  - unfold profile_known; cbn; lia.
  - cbn -[Z.pow]. repeat constructor; lia.
  - vm_compute. reflexivity.
  - eexists. split; [vm_compute; reflexivity|]. splits; vm_compute; reflexivity.
Qed.

(* pic_order_cnt_type 2: a complete legal SPS is rejected. *)
Theorem C26_poc2_refuted : exists y buf, sps_legal y /\ y_field y = None /\ bits_of buf = sps_bits y ++ trailing 2 /\
  snd (parse_sps new_store buf) = Err ErrUnexpectedEOF.
Proof.
  exists (mkSpsSyn 66 192 30 0 None 0 Poc2 1 false 19 14 None true None false), [66; 192; 30; 218; 5; 7; 228].
  splits; try (vm_compute; reflexivity).
  unfold sps_legal, std_width, std_height, small, std_high_profiles; cbn -[Z.pow]; splits; try lia; tauto.
Qed.
Print Assumptions C26_poc2_refuted.

(* frame_mbs_only_flag = 0 (interlaced tools): accepted, with wrong fields and a height of 2147483504. *)
Theorem C26_interlaced_refuted : exists y buf i, sps_legal y /\ poc_readable (y_poc y) /\ bits_of buf = sps_bits y ++ trailing 4 /\
  get_sps (fst (parse_sps new_store buf)) (y_id y) = Some i /\
  sps_mb_adaptive i = true /\ y_field y = Some false /\ sps_direct_8x8 i = false /\ y_direct8 y = true /\
  sps_frame_mbs_only i = 3 /\ std_height y = 576 /\ sps_height i = 2147483504.
Proof.
  exists (mkSpsSyn 77 64 30 0 None 0 (Poc0 2) 1 false 44 17 (Some false) true None false), [77; 64; 30; 237; 1; 104; 72; 144].
  eexists. splits; try (vm_compute; reflexivity).
  unfold sps_legal, std_width, std_height, small, std_high_profiles; cbn -[Z.pow]; splits; try lia; tauto.
Qed.
Print Assumptions C26_interlaced_refuted.

(* ---- C27 ---- *)
(* Full statement: Width and Height are the standard's.  Width is; Height is exactly as follows (progressive SPS). *)
Theorem C27_dimensions_partial : forall s y rest buf,
  sps_legal y -> profile_known (y_profile y) -> poc_readable (y_poc y) -> y_field y = None ->
  buf_ok buf -> bits_of buf = sps_bits y ++ rest ->
  exists i, get_sps (fst (parse_sps s buf)) (y_id y) = Some i /\ sps_width i = std_width y /\
    sps_height i = (if y_idc y =? 1 then (let '(_, _, t, b) := y_crops y in std_height y - 2 * (t + b)) mod 2 ^ 32
                    else 2 * std_height y).
Proof.
  intros s y rest buf HL HP HR HF HB E.
  assert (Hn : buf <> []) by (apply (bits_nonempty _ _ E); discriminate).
  pose proof (run_sps y rest HL HP HR HF) as R. rewrite <- E in R. apply run_new in R; [|exact HB|exact Hn].
  destruct (parsed_sps_matches y HF) as [(_ & _ & _ & Mid & _) _].
  unfold parse_sps. destruct (parse_sps_body (new_reader buf)) as [r o]. cbn [snd] in R. subst o.
  exists (parsed_sps y). split; [|apply sps_dims_frame; assumption].
  unfold get_sps, map_set. cbn [fst st_sps]. rewrite Mid, Z.eqb_refl. reflexivity.
Qed.
Print Assumptions C27_dimensions_partial.

(* The whole property, for progressive 4:2:0 without vertical cropping. *)
Theorem C27_dimensions_uncropped_partial : forall s y rest buf,
  sps_legal y -> profile_known (y_profile y) -> poc_readable (y_poc y) -> y_field y = None ->
  buf_ok buf -> bits_of buf = sps_bits y ++ rest -> y_idc y = 1 -> (let '(_, _, t, b) := y_crops y in t + b = 0) ->
  exists i, get_sps (fst (parse_sps s buf)) (y_id y) = Some i /\ sps_width i = std_width y /\ sps_height i = std_height y.
Proof.
  intros s y rest buf HL HP HR HF HB E Hc H0.
  destruct (C27_dimensions_partial s y rest buf HL HP HR HF HB E) as (i & G & W & H).
  exists i. splits; auto. rewrite H, Hc. change (1 =? 1) with true. cbn match.
  destruct HL as (_ & _ & _ & _ & _ & _ & _ & _ & _ & _ & Bh & _ & _ & Ph). unfold small in Bh.
  revert Ph H0. unfold std_height, fmo. rewrite HF. destruct (y_crops y) as [[[l r] t] b]. intros Ph H0.
  rewrite H0 in *. rewrite Z.mod_small; lia.
Qed.
Print Assumptions C27_dimensions_uncropped_partial.

(* 1920x1080 (the usual crop of 8 rows) is reported as 1920x1072, and 1280x720 4:4:4 as 1280x1440. *)
Theorem C27_dimensions_refuted : exists y buf i,
  sps_legal y /\ profile_known (y_profile y) /\ poc_readable (y_poc y) /\ y_field y = None /\
  bits_of buf = sps_bits y ++ trailing 6 /\ get_sps (fst (parse_sps new_store buf)) (y_id y) = Some i /\
  std_height y = 1080 /\ sps_height i = 1072.
Proof.
  exists (mkSpsSyn 100 0 40 0 (Some (mkChroma 1 false 0 0 false None)) 0 (Poc0 2) 4 false 119 67 None true (Some (0, 0, 0, 4)) false),
         [100; 0; 40; 172; 217; 64; 120; 2; 39; 229; 64].
  eexists. splits; try (vm_compute; reflexivity).
  - unfold sps_legal, std_width, std_height, small, std_high_profiles; cbn -[Z.pow]; splits; try lia; tauto.
  - unfold profile_known; cbn; lia.
Qed.
Print Assumptions C27_dimensions_refuted.
Example C27_case : exists i, get_sps (fst (parse_sps new_store [244; 0; 40; 68; 55; 136; 64; 16; 136; 68; 42; 113; 77; 50; 128; 160; 11; 114])) 1 = Some i /\
  sps_width i = 1280 /\ sps_height i = 1440.
Proof. eexists. split; [vm_compute; reflexivity|]. split; vm_compute; reflexivity. Qed.

(* ---- C28 ---- *)
(* Full statement: ParsePPS returns on every input.  False; the inputs on which it panics are exactly [pps_crash]. *)
Theorem C28_parse_pps_exact : forall s buf, buf_ok buf ->
  (snd (parse_pps s buf) = Panic <-> pps_crash (bits_of buf)) /\
  (~ pps_crash (bits_of buf) ->
   (exists i, parse_pps s buf = (mkStore (st_sps s) (st_pps (fst (parse_pps s buf))), Ok tt) /\
      forall k, get_pps (fst (parse_pps s buf)) k = if k =? pps_id i then Some i else get_pps s k) \/
   parse_pps s buf = (s, Err ErrUnexpectedEOF)).
Proof.
  intros s buf H. unfold parse_pps. destruct (pps_outcome (st_sps s) buf H) as (r & o & E & O & P). rewrite E.
  destruct O as [(i & ->)|[-> | ->]]; cbn [snd]; rewrite <- P; splits; try discriminate; try tauto; try (split; discriminate); intros N.
  left. exists i. split; reflexivity.
Qed.
Print Assumptions C28_parse_pps_exact.

(* Hence it returns on every input outside that set. *)
Theorem C28_parse_pps_total_partial : forall s buf, buf_ok buf -> ~ pps_crash (bits_of buf) ->
  snd (parse_pps s buf) = Ok tt \/ snd (parse_pps s buf) = Err ErrUnexpectedEOF.
Proof.
  intros s buf H N. destruct (C28_parse_pps_exact s buf H) as [_ C]. destruct (C N) as [(i & E & _)|E]; rewrite E; auto.
Qed.
Print Assumptions C28_parse_pps_total_partial.

Theorem C28_parse_pps_refuted : bytes_ok [193; 63; 248] /\ pps_crash (bits_of [193; 63; 248]) /\ snd (parse_pps new_store [193; 63; 248]) = Panic.
Proof.
  splits; [repeat constructor; cbn; lia | | vm_compute; reflexivity].
  assert (B : buf_ok [193; 63; 248]) by (split; [repeat constructor; cbn; lia | cbn; lia]).
  apply (proj1 (C28_parse_pps_exact new_store _ B)). vm_compute. reflexivity.
Qed.
Print Assumptions C28_parse_pps_refuted.
Example C28_case : exists i, get_pps (fst (parse_pps new_store [34; 153; 200; 51; 225; 178; 222; 17; 0; 7; 128])) 3 = Some i /\
  pps_slice_group_id i = [0; 1; 2; 1] /\ snd (parse_pps new_store [34; 153; 200]) = Err ErrUnexpectedEOF.
Proof. eexists. split; [vm_compute; reflexivity|]. split; vm_compute; reflexivity. Qed.

(* ---- C29 ---- *)
(* Full statement: every legal PPS followed by its trailing bits is stored with its values.  True when the
   optional tail is present (slice group map types 3 and 4 excepted), false for every PPS without it. *)
Theorem C29_pps_fields_partial : forall s z t rest buf,
  z_tail z = Some t -> pps_legal (pps_chroma s z) z -> groups_readable (z_groups z) ->
  buf_ok buf -> bits_of buf = pps_bits z ++ rest ->
  snd (parse_pps s buf) = Ok tt /\ exists i, get_pps (fst (parse_pps s buf)) (z_id z) = Some i /\ pps_matches z i.
Proof.
  intros s z t rest buf Ht HL HR HB E.
  pose proof (run_pps_tail s z t rest Ht HL HR) as R. rewrite <- E in R.
  assert (Hn : buf <> []). { intros ->. apply (f_equal (@length bool)) in E. unfold pps_bits, ue_code in E. rewrite !app_length in E. cbn [bits_of flat_map bin length] in E. lia. }
  apply run_new in R; [|exact HB|exact Hn].
  pose proof (parsed_pps_matches z) as M. pose proof M as (Mid & _).
  unfold parse_pps. destruct (parse_pps_body (st_sps s) (new_reader buf)) as [r o]. cbn [snd] in R. subst o. split; [reflexivity|].
  exists (parsed_pps z). split; [|exact M]. unfold get_pps, map_set. cbn [fst st_pps]. rewrite Mid, Z.eqb_refl. reflexivity.
Qed.
Print Assumptions C29_pps_fields_partial.

(* Without the optional tail: rejected whenever trailing bits follow, as the standard requires them to ... *)
Theorem C29_pps_trailing_refuted : forall s z k buf,
  z_tail z = None -> pps_legal (pps_chroma s z) z -> groups_readable (z_groups z) ->
  buf_ok buf -> bits_of buf = pps_bits z ++ trailing k ->
  parse_pps s buf = (s, Err ErrUnexpectedEOF).
Proof.
  intros s z k buf Ht HL HR HB E. pose proof (run_pps_trailing s z k Ht HL HR) as R. rewrite <- E in R.
  assert (Hn : buf <> []). { intros ->. apply (f_equal (@length bool)) in E. unfold pps_bits, ue_code in E. rewrite !app_length in E. cbn [bits_of flat_map bin length] in E. lia. }
  apply run_new in R; [|exact HB|exact Hn].
  unfold parse_pps. destruct (parse_pps_body (st_sps s) (new_reader buf)) as [r o]. cbn [snd] in R. subst o. reflexivity.
Qed.
Print Assumptions C29_pps_trailing_refuted.

(* ... and stored when they are missing and the syntax happens to end on a byte boundary. *)
Theorem C29_pps_untrailed_partial : forall s z buf,
  z_tail z = None -> pps_legal (pps_chroma s z) z -> groups_readable (z_groups z) ->
  buf_ok buf -> bits_of buf = pps_bits z ->
  snd (parse_pps s buf) = Ok tt /\ exists i, get_pps (fst (parse_pps s buf)) (z_id z) = Some i /\ pps_matches z i.
Proof.
  intros s z buf Ht HL HR HB E. pose proof (run_pps_no_tail s z Ht HL HR) as R. rewrite <- E in R.
  assert (Hn : buf <> []). { intros ->. apply (f_equal (@length bool)) in E. unfold pps_bits, ue_code in E. rewrite !app_length in E. cbn [bits_of flat_map bin length] in E. lia. }
  apply run_new in R; [|exact HB|exact Hn].
  pose proof (parsed_pps_matches z) as M. pose proof M as (Mid & _).
  unfold parse_pps. destruct (parse_pps_body (st_sps s) (new_reader buf)) as [r o]. cbn [snd] in R. subst o. split; [reflexivity|].
  exists (parsed_pps z). split; [|exact M]. unfold get_pps, map_set. cbn [fst st_pps]. rewrite Mid, Z.eqb_refl. reflexivity.
Qed.
Print Assumptions C29_pps_untrailed_partial.

Example C29_case :
  let z := mkPpsSyn 3 1 true false (GExplicit 2 [0; 1; 2; 1]) 0 0 true 2 (-6) 0 (-2) true false true
             (Some (mkTail true (Some [Some [-8]; None; None; None; None; None; None; None; None; None; None; None]) (-3))) in
  pps_legal (pps_chroma new_store z) z /\ groups_readable (z_groups z) /\
  bits_of [34; 153; 200; 51; 225; 178; 222; 17; 0; 7; 128] = pps_bits z ++ trailing 7.
Proof.
  cbv zeta. splits; [|exact I|vm_compute; reflexivity].
  unfold pps_legal, matrix_legal, tail_lists; cbn -[Z.pow]. splits; try lia; try reflexivity; try exact I.
  - repeat constructor; lia.
  - repeat constructor; lia.
  - do 2 eexists. vm_compute. reflexivity.
Qed.
(* The PPS of an ordinary x264 stream. *)
Example C29_trailing_case :
  let z := mkPpsSyn 0 0 true false G1 0 0 false 0 0 0 0 true false false None in
  pps_legal (pps_chroma new_store z) z /\ bits_of [238; 60; 128] = pps_bits z ++ trailing 7 /\
  parse_pps new_store [238; 60; 128] = (new_store, Err ErrUnexpectedEOF).
Proof. cbv zeta. splits; [|vm_compute; reflexivity|vm_compute; reflexivity]. unfold pps_legal; cbn; lia. Qed.

(* Slice group map types 3 and 4: direction and rate are not read, and what follows is misread. *)
Theorem C29_change_types_refuted : exists z buf i,
  pps_legal (pps_chroma new_store z) z /\ z_tail z <> None /\ bits_of buf = pps_bits z ++ trailing 3 /\
  get_pps (fst (parse_pps new_store buf)) (z_id z) = Some i /\ z_l1 z = 0 /\ pps_num_ref_idx_l1 i = 5.
Proof.
  exists (mkPpsSyn 3 1 true false (GChange 3 1 true 5) 0 0 true 2 (-6) 0 (-2) true false true (Some (mkTail true None (-3)))),
    [34; 145; 38; 240; 217; 108; 120].
  eexists. splits; try (vm_compute; reflexivity); [|discriminate].
  unfold pps_legal, matrix_legal, small; cbn -[Z.pow]; splits; try lia; try exact I; unfold small; lia.
Qed.
Print Assumptions C29_change_types_refuted.

(* ---- C30 ---- *)
Theorem C30_last_writer : forall s bufs id,
  get_sps (fst (sprops s bufs)) id = last_sps (get_sps s) bufs id /\
  get_pps (fst (sprops s bufs)) id = last_pps (get_sps s) (get_pps s) bufs id.
Proof. intros s bufs id. apply sprops_last. Qed.
Print Assumptions C30_last_writer.

Theorem C30_others_ignored : forall s buf,
  (match buf with [] => True | h :: _ => Z.land h 31 <> 7 /\ Z.land h 31 <> 8 end) -> parse_sprop s buf = (s, Ok tt).
Proof.
  intros s [|h r] H; [reflexivity|]. unfold parse_sprop. cbv zeta.
  replace (Z.land h 31 =? 7) with false by lia. replace (Z.land h 31 =? 8) with false by lia. reflexivity.
Qed.
Print Assumptions C30_others_ignored.

(* A set stored earlier survives a later failed parse with the same id. *)
Example C30_case : exists i,
  get_sps (fst (sprops new_store [[103; 100; 0; 40; 172; 217; 64; 120; 2; 39; 229; 64]; [103; 100; 0; 40; 172]; []; [101; 7]])) 0 = Some i /\
  sps_profile_idc i = 100 /\
  get_sps (fst (sprops new_store [[103; 100; 0; 40; 172; 217; 64; 120; 2; 39; 229; 64]])) 1 = None.
Proof. eexists. split; [vm_compute; reflexivity|]. split; vm_compute; reflexivity. Qed.
