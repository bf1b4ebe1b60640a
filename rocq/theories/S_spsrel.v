(* What it means for a stored SPSInfo / PPSInfo to hold the values of a parameter set written in the standard's
   syntax.  One equation per field; values absent from the bit string take the Go zero value. *)
From Verif Require Import Base S_bits S_sps M_sps.

Definition matrix_matches (n : option scal) (flag : bool) (m : matrix) : Prop :=
  match n with
  | None => flag = false /\ m = mkMatrix 0 (repeat 0 480) (repeat false 12)
  | Some s => flag = true /\
      mx_present m = scal_mask_from 0 s /\
      mx_list m = pad 480 0 (scal_list_from 0 s) /\
      mx_default m = pad 12 false (scal_defaults_from 0 s)
  end.

(* every field except FrameMbsOnly, Width and Height *)
Definition sps_matches (y : sps_syn) (s : sps_info) : Prop :=
  sps_profile_idc s = y_profile y /\ sps_constraint_set s = y_constraints y /\ sps_level_idc s = y_level y /\ sps_id s = y_id y /\
  sps_chroma_format_idc s = y_idc y /\ sps_separate_color_plane s = y_sep y /\
  match y_chroma y with
  | Some c => sps_bit_depth_luma s = c_luma8 c /\ sps_bit_depth_chroma s = c_chroma8 c /\
              sps_zero_transform_bypass s = c_bypass c /\
              matrix_matches (c_matrix c) (sps_scaling_matrix_present s) (sps_matrix s)
  | None => sps_bit_depth_luma s = 0 /\ sps_bit_depth_chroma s = 0 /\ sps_zero_transform_bypass s = false /\
            matrix_matches None (sps_scaling_matrix_present s) (sps_matrix s)
  end /\
  sps_log2_max_frame_num s = y_log2_frame_num y /\
  sps_pic_order_cnt_type s = poc_type (y_poc y) /\
  match y_poc y with
  | Poc0 l => sps_log2_max_pic_order_cnt s = l /\ sps_delta_pic_order_always0 s = false /\ sps_offset_for_non_ref_pic s = 0 /\
              sps_offset_for_top_to_bottom s = 0 /\ sps_num_ref_frames_in_cycle s = 0
  | Poc1 a x z offs => sps_log2_max_pic_order_cnt s = 0 /\ sps_delta_pic_order_always0 s = a /\ sps_offset_for_non_ref_pic s = x /\
              sps_offset_for_top_to_bottom s = z /\ sps_num_ref_frames_in_cycle s = zlen offs
  | Poc2 => sps_log2_max_pic_order_cnt s = 0 /\ sps_delta_pic_order_always0 s = false /\ sps_offset_for_non_ref_pic s = 0 /\
              sps_offset_for_top_to_bottom s = 0 /\ sps_num_ref_frames_in_cycle s = 0
  end /\
  sps_max_num_ref_frames s = y_ref_frames y /\ sps_gaps_allowed s = y_gaps y /\
  sps_pic_width_in_mbs_minus1 s = y_width_mbs y /\ sps_pic_height_in_map_units_minus1 s = y_height_units y /\
  sps_mb_adaptive s = match y_field y with Some b => b | None => false end /\
  sps_direct_8x8 s = y_direct8 y /\
  sps_frame_cropping s = match y_crop y with Some _ => true | None => false end /\
  (sps_crop_left s, sps_crop_right s, sps_crop_top s, sps_crop_bottom s) = y_crops y /\
  sps_vui_present s = y_vui y.

Definition groups_match (g : groups_syn) (p : pps_info) : Prop :=
  pps_num_slice_groups_minus1 p = groups_num g /\ pps_slice_group_map_type p = groups_type g /\
  pps_run_length_minus1 p = pad 8 0 (match g with G0 runs => runs | _ => [] end) /\
  pps_top_left p = pad 8 0 (match g with GRect rs => map fst rs | _ => [] end) /\
  pps_bottom_right p = pad 8 0 (match g with GRect rs => map snd rs | _ => [] end) /\
  pps_change_direction p = match g with GChange _ _ d _ => d | _ => false end /\
  pps_change_rate_minus1 p = match g with GChange _ _ _ r => r | _ => 0 end /\
  pps_pic_size_in_map_units_minus1 p = match g with GExplicit _ ids => zlen ids - 1 | _ => 0 end /\
  pps_slice_group_id p = match g with GExplicit _ ids => ids | _ => [] end.

Definition pps_matches (z : pps_syn) (p : pps_info) : Prop :=
  pps_id p = z_id z /\ pps_sps_id p = z_sps z /\ pps_entropy_coding_mode p = z_entropy z /\
  pps_bottom_field_pic_order p = z_bottom z /\ groups_match (z_groups z) p /\
  pps_num_ref_idx_l0 p = z_l0 z /\ pps_num_ref_idx_l1 p = z_l1 z /\ pps_weighted_pred p = z_weighted z /\
  pps_weighted_bipred_idc p = z_bipred z /\ pps_init_qp p = z_qp z /\ pps_init_qs p = z_qs z /\
  pps_chroma_qp_offset p = z_chroma_qp z /\ pps_deblocking_control p = z_deblock z /\
  pps_constrained_intra p = z_intra z /\ pps_redundant_pic_cnt p = z_redundant z /\
  match z_tail z with
  | Some t => pps_transform_8x8 p = t_8x8 t /\ matrix_matches (t_matrix t) (pps_scaling_matrix_present p) (pps_matrix p) /\
              pps_second_chroma_qp_offset p = t_second t
  | None => pps_transform_8x8 p = false /\ matrix_matches None (pps_scaling_matrix_present p) (pps_matrix p) /\
            pps_second_chroma_qp_offset p = 0
  end.

(* chroma format used for a PPS: that of the stored SPS it names, 4:4:4 when there is none *)
Definition pps_chroma (s : store) (z : pps_syn) : Z :=
  match get_sps s (z_sps z) with Some i => sps_chroma_format_idc i | None => 3 end.

(* The set a fresh parser, knowing the same sequence parameter sets, would hold after this one buffer. *)
Definition fresh_sps (buf : bytes) (id : Z) : option sps_info := get_sps (fst (parse_sprop new_store buf)) id.
Definition fresh_pps (known : Z -> option sps_info) (buf : bytes) (id : Z) : option pps_info :=
  get_pps (fst (parse_sprop (mkStore known (fun _ => None)) buf)) id.
Definition or_else {A} (new old : option A) : option A := match new with Some a => Some a | None => old end.

(* Last writer per id over a history of buffers. *)
Fixpoint last_sps (init : Z -> option sps_info) (bufs : list bytes) : Z -> option sps_info :=
  match bufs with
  | [] => init
  | b :: r => last_sps (fun k => or_else (fresh_sps b k) (init k)) r
  end.
Fixpoint last_pps (known : Z -> option sps_info) (init : Z -> option pps_info) (bufs : list bytes) : Z -> option pps_info :=
  match bufs with
  | [] => init
  | b :: r => last_pps (fun k => or_else (fresh_sps b k) (known k)) (fun k => or_else (fresh_pps known b k) (init k)) r
  end.
