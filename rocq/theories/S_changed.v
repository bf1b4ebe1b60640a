(* Property C179: what a change of a sequence parameter set may consist in. *)
From Verif Require Import Base S_sps.

(* 7.3.2.1.1 without the scaling lists and without the offsets of the reference frames of a cycle *)
Definition bare_chroma (c : chroma_syn) : chroma_syn := mkChroma (c_idc c) (c_sep c) (c_luma8 c) (c_chroma8 c) (c_bypass c) None.
Definition set_offsets (o : list Z) (p : poc_syn) : poc_syn := match p with Poc1 a x z _ => Poc1 a x z o | _ => p end.
Definition with_offsets (o : list Z) (y : sps_syn) : sps_syn :=
  mkSpsSyn (y_profile y) (y_constraints y) (y_level y) (y_id y) (y_chroma y) (y_log2_frame_num y) (set_offsets o (y_poc y)) (y_ref_frames y) (y_gaps y)
           (y_width_mbs y) (y_height_units y) (y_field y) (y_direct8 y) (y_crop y) (y_vui y).
Definition bare (y : sps_syn) : sps_syn :=
  mkSpsSyn (y_profile y) (y_constraints y) (y_level y) (y_id y) (option_map bare_chroma (y_chroma y)) (y_log2_frame_num y) (set_offsets [] (y_poc y)) (y_ref_frames y)
           (y_gaps y) (y_width_mbs y) (y_height_units y) (y_field y) (y_direct8 y) (y_crop y) (y_vui y).
(* how many offsets there are *)
Definition cycle (y : sps_syn) : Z := match y_poc y with Poc1 _ _ _ o => zlen o | _ => 0 end.
(* what the scaling lists say: which are there, their values, and which are the default ones; different codes may say the same *)
Definition lists (y : sps_syn) : option (Z * list Z * list bool) :=
  match y_chroma y with
  | Some c => option_map (fun s => (scal_mask_from 0 s, pad 480 0 (scal_list_from 0 s), pad 12 false (scal_defaults_from 0 s))) (c_matrix c)
  | None => None
  end.
