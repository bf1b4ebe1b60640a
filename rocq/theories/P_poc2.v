(* C26 and C29: picture order count type 2, and slice group map types 3 and 4. *)
From Verif Require Import Base S_bits M_bits S_sps M_sps S_spsrel L_base L_spsdec L_poc2.

(* No sequence parameter set with pic_order_cnt_type 2 is ever stored with its values, whatever follows it: it is refused, or one of
   the values is wrong. *)
Theorem C26_poc2_all_refuted : forall s y rest buf, sps_legal y -> profile_known (y_profile y) -> y_poc y = Poc2 -> y_field y = None ->
  buf_ok buf -> bits_of buf = sps_bits y ++ rest -> snd (parse_sps s buf) = Ok tt ->
  exists i, get_sps (fst (parse_sps s buf)) (y_id y) = Some i /\ ~ sps_matches y i.
Proof. exact poc2_wrong. Qed.
Print Assumptions C26_poc2_all_refuted.

(* 320x240 of the constrained baseline profile, followed by ones *)
Example C26_poc2_all_case :
  let y := mkSpsSyn 66 192 30 0 None 0 Poc2 1 false 19 14 None true None false in
  sps_legal y /\ bits_of [66; 192; 30; 218; 5; 7; 231; 255; 255; 255; 255] = sps_bits y ++ repeat true 35 /\
  exists i, get_sps (fst (parse_sps new_store [66; 192; 30; 218; 5; 7; 231; 255; 255; 255; 255])) 0 = Some i /\
    sps_max_num_ref_frames i = 0 /\ sps_width i = 112 /\ sps_height i = 16.
Proof.
  cbv zeta. splits.
  - unfold sps_legal, std_width, std_height, small, std_high_profiles; cbn -[Z.pow]; splits; try lia; tauto.
  - vm_compute. reflexivity.
  - eexists. splits; vm_compute; reflexivity.
Qed.

(* Of every picture parameter set with slice group map type 3 or 4 the direction and the rate are lost. *)
Theorem C29_change_lost_refuted : forall s z t n d rate rest buf, z_groups z = GChange t n d rate -> t = 3 \/ t = 4 ->
  pps_legal (pps_chroma s z) z -> buf_ok buf -> bits_of buf = pps_bits z ++ rest -> snd (parse_pps s buf) = Ok tt ->
  exists i, get_pps (fst (parse_pps s buf)) (z_id z) = Some i /\ pps_slice_group_map_type i = t /\
    pps_change_direction i = false /\ pps_change_rate_minus1 i = 0.
Proof. exact change_lost. Qed.
Print Assumptions C29_change_lost_refuted.

Example C29_change_lost_case :
  let z := mkPpsSyn 3 1 true false (GChange 4 1 true 5) 0 0 true 2 (-6) 0 (-2) true false true (Some (mkTail true None (-3))) in
  pps_legal (pps_chroma new_store z) z /\ bits_of [34; 145; 102; 240; 217; 108; 120] = pps_bits z ++ trailing 3 /\
  exists i, get_pps (fst (parse_pps new_store [34; 145; 102; 240; 217; 108; 120])) 3 = Some i /\
    pps_slice_group_map_type i = 4 /\ pps_change_rate_minus1 i = 0.
Proof.
  cbv zeta. splits.
  - unfold pps_legal, matrix_legal, small; cbn -[Z.pow]; splits; try lia; try exact I; unfold small; lia.
  - vm_compute. reflexivity.
  - eexists. splits; vm_compute; reflexivity.
Qed.
