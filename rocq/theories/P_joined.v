(* C176: byte streams one after the other. *)
From Verif Require Import Base S_annexb M_annexb S_joined L_base L_annexb L_joined.

(* C176  Full statement: of two byte streams with a start code between them SplitAnnexB makes the units of the one and then the units of the other. *)
(* So it is if the first ends in neither a zero byte nor a start code, whatever else is in them. *)
Theorem C176_partial : forall a b long, whole a -> b <> [] ->
  exists us vs, split_annexb a = Ok us /\ split_annexb b = Ok vs /\ split_annexb (a ++ start_code long ++ b) = Ok (us ++ vs).
Proof. exact split_joined. Qed.
Print Assumptions C176_partial.

(* But a zero byte at the end of a stream is part of its last unit only as long as nothing comes after it. *)
Theorem C176_zero_refuted : exists a b us vs ws, a <> [] /\ b <> [] /\ split_annexb a = Ok us /\ split_annexb b = Ok vs /\
  split_annexb (a ++ start_code false ++ b) = Ok ws /\ ws <> us ++ vs.
Proof. exists [101; 9; 0], [65; 7]. do 3 eexists. splits; try (vm_compute; reflexivity); discriminate. Qed.
Print Assumptions C176_zero_refuted.
(* And a start code at the end is a unit as long as nothing comes after it. *)
Theorem C176_code_refuted : exists a b us vs ws, last a 1 <> 0 /\ b <> [] /\ split_annexb a = Ok us /\ split_annexb b = Ok vs /\
  split_annexb (a ++ start_code true ++ b) = Ok ws /\ ws <> us ++ vs.
Proof. exists [101; 9; 0; 0; 1], [65; 7]. do 3 eexists. splits; try (vm_compute; reflexivity); discriminate. Qed.
Print Assumptions C176_code_refuted.

Example C176_case :
  whole [0; 0; 1; 103; 66; 0; 0; 0; 1; 104] /\
  split_annexb [0; 0; 1; 103; 66; 0; 0; 0; 1; 104] = Ok [[103; 66]; [104]] /\ split_annexb [101; 0; 0; 1; 65] = Ok [[101]; [65]] /\
  split_annexb ([0; 0; 1; 103; 66; 0; 0; 0; 1; 104] ++ start_code false ++ [101; 0; 0; 1; 65]) = Ok [[103; 66]; [104]; [101]; [65]].
Proof.
  splits; try (vm_compute; reflexivity). split; [discriminate|split; [discriminate|]]. intros (p & E).
  apply (f_equal (fun l => last l 0)) in E. change [0; 0; 1] with ([0; 0] ++ [1]) in E. rewrite app_assoc, last_last in E. discriminate.
Qed.
