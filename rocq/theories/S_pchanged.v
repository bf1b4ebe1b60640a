(* Property C180: what a change of a picture parameter set may consist in. *)
From Verif Require Import Base S_sps.

(* 7.3.2.2 without the scaling lists *)
Definition bare_tail (t : tail_syn) : tail_syn := mkTail (t_8x8 t) None (t_second t).
Definition bare_pps (z : pps_syn) : pps_syn :=
  mkPpsSyn (z_id z) (z_sps z) (z_entropy z) (z_bottom z) (z_groups z) (z_l0 z) (z_l1 z) (z_weighted z) (z_bipred z) (z_qp z) (z_qs z) (z_chroma_qp z)
           (z_deblock z) (z_intra z) (z_redundant z) (option_map bare_tail (z_tail z)).
(* what the scaling lists say: which are there, their values, and which are the default ones; different codes may say the same *)
Definition pps_lists (z : pps_syn) : option (Z * list Z * list bool) :=
  match z_tail z with
  | Some t => option_map (fun s => (scal_mask_from 0 s, pad 480 0 (scal_list_from 0 s), pad 12 false (scal_defaults_from 0 s))) (t_matrix t)
  | None => None
  end.
