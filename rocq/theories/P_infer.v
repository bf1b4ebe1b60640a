(* C26: fields that a sequence parameter set leaves out. *)
From Verif Require Import Base S_bits M_bits S_sps M_sps S_spsrel L_base L_bits L_sps L_infer.

(* C26  Full statement: every legal SPS is stored with its values, those inferred when absent included.  Whatever is accepted, legal or not: *)
(* without the high profiles' part, the picture is 4:2:0 of 8 bits, and monochrome for profile 183; *)
(* and with the second bit of the constraint byte set, profiles 77, 88 and 100 have frames only, whatever the flag says. *)
Theorem C26_inferred_partial : forall s buf, snd (parse_sps s buf) = Ok tt -> exists i, get_sps (fst (parse_sps s buf)) (sps_id i) = Some i /\
  (~ In (sps_profile_idc i) std_high_profiles ->
     sps_chroma_format_idc i = (if sps_profile_idc i =? 183 then 0 else 1) /\ sps_separate_color_plane i = false /\ sps_bit_depth_luma i = 0 /\ sps_bit_depth_chroma i = 0 /\
     sps_zero_transform_bypass i = false /\ sps_scaling_matrix_present i = false /\ matrix_matches None false (sps_matrix i)) /\
  (Z.land (sps_constraint_set i) 2 <> 0 -> In (sps_profile_idc i) [77; 88; 100] -> sps_frame_mbs_only i = 1).
Proof.
  intros s buf E. destruct (infer_store s buf E) as (i & r & r' & B & G). exists i. split; [exact G|]. apply infer_body in B as (B1 & B2). split.
  - intros N. destruct (B1 (not_high _ N)) as (C1 & C2 & C3 & C4 & C5 & C6 & C7). splits; try assumption. rewrite C7. split; reflexivity.
  - intros N P. apply B2; [exact N|]. cbn in P. intuition.
Qed.
Print Assumptions C26_inferred_partial.

(* 183: the text of an SPS of 1280x720; 88: the same with the bit *)
Example C26_inferred_case :
  (exists i, get_sps (fst (parse_sps new_store [183; 0; 31; 244; 2; 128; 45; 200])) 0 = Some i /\ sps_profile_idc i = 183 /\ sps_chroma_format_idc i = 0) /\
  (exists i, get_sps (fst (parse_sps new_store [88; 2; 31; 244; 2; 128; 45; 200])) 0 = Some i /\ sps_profile_idc i = 88 /\ sps_chroma_format_idc i = 1 /\ sps_frame_mbs_only i = 1).
Proof. split; eexists; splits; vm_compute; reflexivity. Qed.
