(* Sequence parameter sets of interlaced video, and with the reserved bits of the constraint byte set. *)
From Verif Require Import Base S_bits S_sps.

(* the same set with another constraint byte (7.4.2.1.1: decoders ignore reserved_zero_2bits) *)
Definition with_constraints (c : Z) (y : sps_syn) : sps_syn :=
  mkSpsSyn (y_profile y) c (y_level y) (y_id y) (y_chroma y) (y_log2_frame_num y) (y_poc y) (y_ref_frames y) (y_gaps y)
           (y_width_mbs y) (y_height_units y) (y_field y) (y_direct8 y) (y_crop y) (y_vui y).

Definition bitval (b : bool) : Z := if b then 1 else 0.
(* frame_mbs_only_flag, mb_adaptive_frame_field_flag and the bits that follow, read as one Exp-Golomb number *)
Definition flag_as_number (y : sps_syn) : Z :=
  match y_field y with
  | None => 0
  | Some true => 2
  | Some false => match y_crop y with None => 3 + bitval (y_vui y) | Some (l, _, _, _) => 5 + bitval (l =? 0) end
  end.
