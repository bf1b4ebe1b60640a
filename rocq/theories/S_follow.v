(* Specification: the optional last part of a picture parameter set, H.264 7.3.2.2. *)
From Verif Require Import Base M_sps.

(* that it was there can be seen in what was read *)
Definition told (i : pps_info) : Prop := pps_transform_8x8 i = true \/ pps_scaling_matrix_present i = true \/ pps_second_chroma_qp_offset i <> 0.
