(* Specification: parameter sets that can be written in the syntax of H.264 7.3.2.1, whether or not the values are allowed. *)
From Verif Require Import Base S_sps.

(* every number small enough to be written, and no more: the number of the set, the chroma format, the depths and the rest need not be in range *)
Definition sps_written (y : sps_syn) : Prop :=
  0 <= y_profile y < 256 /\ 0 <= y_constraints y < 256 /\ y_constraints y mod 4 = 0 /\ 0 <= y_level y < 256 /\ small (y_id y) /\
  match y_chroma y with
  | Some c => In (y_profile y) std_high_profiles /\ small (c_idc c) /\ small (c_luma8 c) /\ small (c_chroma8 c) /\ matrix_legal (if c_idc c =? 3 then 12 else 8) (c_matrix c)
  | None => ~ In (y_profile y) std_high_profiles
  end /\
  small (y_log2_frame_num y) /\
  match y_poc y with
  | Poc0 l => small l
  | Poc1 _ x z offs => zlen offs < 2 ^ 20
  | Poc2 => True
  end /\
  small (y_ref_frames y) /\ small (y_width_mbs y) /\ small (y_height_units y) /\
  match y_crop y with Some (l, r, t, b) => small l /\ small r /\ small t /\ small b | None => True end.

Definition pps_written (chroma : Z) (z : pps_syn) : Prop :=
  small (z_id z) /\ small (z_sps z) /\ groups_legal (z_groups z) /\ small (z_l0 z) /\ small (z_l1 z) /\ 0 <= z_bipred z <= 3 /\
  - 2 ^ 20 < z_qp z < 2 ^ 20 /\ - 2 ^ 20 < z_qs z < 2 ^ 20 /\ - 2 ^ 20 < z_chroma_qp z < 2 ^ 20 /\
  match z_tail z with
  | None => True
  | Some t => - 2 ^ 20 < t_second t < 2 ^ 20 /\ matrix_legal (tail_lists chroma (t_8x8 t)) (t_matrix t)
  end.
