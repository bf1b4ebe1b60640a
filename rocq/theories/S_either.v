(* Specification: parameter sets in either order. *)
From Verif Require Import Base M_sps.

(* what is known: the sets under each number *)
Definition same_sets (a b : store) : Prop := (forall id, get_sps a id = get_sps b id) /\ (forall id, get_pps a id = get_pps b id).

(* a picture parameter set that names this number is read as one of a 4:4:4 stream *)
Definition read_as_444 (s : store) (id : Z) : Prop := match get_sps s id with Some i => sps_chroma_format_idc i = 3 | None => True end.

(* what a parameter set says: what is known after it alone *)
Definition alone (b : bytes) : store := fst (parse_sprop new_store b).
(* it is understood, and is no picture parameter set with a scaling matrix for the 8x8 transform *)
Definition without_8x8_matrix (b : bytes) : Prop :=
  snd (parse_sprop new_store b) = Ok tt /\ (forall id p, get_pps (alone b) id = Some p -> pps_transform_8x8 p = false \/ pps_scaling_matrix_present p = false).
(* no two sets of a kind with the same number *)
Definition own_numbers (a b : bytes) : Prop :=
  forall id, (get_sps (alone a) id = None \/ get_sps (alone b) id = None) /\ (get_pps (alone a) id = None \/ get_pps (alone b) id = None).
