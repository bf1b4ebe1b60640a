(* Property C179: a change of the sequence parameter set can be seen. *)
From Verif Require Import Base S_bits M_bits S_sps M_sps S_spsrel S_changed L_base L_bits L_sps L_spsdec L_changed.

(* Missing: the offsets of the reference frames are not kept, and what follows the flag for VUI parameters is not read; field pictures and
   picture order count type 2, which are misread (C26).
   In everything else parameter sets that are kept alike are alike: the same bits, as many offsets, scaling lists of the same values. *)
Theorem C179_partial : forall s t y z b c u v i,
  sps_legal y -> profile_known (y_profile y) -> poc_readable (y_poc y) -> y_field y = None ->
  sps_legal z -> profile_known (y_profile z) -> poc_readable (y_poc z) -> y_field z = None ->
  buf_ok b -> buf_ok c -> bits_of b = sps_bits y ++ u -> bits_of c = sps_bits z ++ v ->
  get_sps (fst (parse_sps s b)) (y_id y) = Some i -> get_sps (fst (parse_sps t c)) (y_id z) = Some i ->
  sps_bits (bare y) = sps_bits (bare z) /\ cycle y = cycle z /\ lists y = lists z.
Proof.
  intros s t y z b c u v i Ly Ky Py Fy Lz Kz Pz Fz Hb Hc Eb Ec Gb Gc.
  destruct (sps_stored s y u b Ly Ky Py Fy Hb Eb) as [_ Sb]. destruct (sps_stored t z v c Lz Kz Pz Fz Hc Ec) as [_ Sc].
  rewrite Sb in Gb. rewrite Sc in Gc. injection Gb as Gb. injection Gc as Gc.
  apply (matches_bare y z i Ly Lz Fy Fz); [rewrite <- Gb; apply parsed_sps_matches, Fy|rewrite <- Gc; apply parsed_sps_matches, Fz].
Qed.
Print Assumptions C179_partial.

(* Other offsets: the picture order counts of all pictures change, and the parameter set that is kept does not. *)
Theorem C179_offsets_refuted : forall s t y a x w o o' b c u v,
  y_poc y = Poc1 a x w o -> zlen o' = zlen o -> sps_legal y -> sps_legal (with_offsets o' y) -> profile_known (y_profile y) ->
  poc_readable (y_poc y) -> poc_readable (Poc1 a x w o') -> y_field y = None ->
  buf_ok b -> buf_ok c -> bits_of b = sps_bits y ++ u -> bits_of c = sps_bits (with_offsets o' y) ++ v ->
  exists i, snd (parse_sps s b) = Ok tt /\ get_sps (fst (parse_sps s b)) (y_id y) = Some i /\ snd (parse_sps t c) = Ok tt /\ get_sps (fst (parse_sps t c)) (y_id y) = Some i.
Proof.
  intros s t y a x w o o' b c u v P L Ly Lz K Ry Rz F Hb Hc Eb Ec.
  destruct (sps_stored s y u b Ly K Ry F Hb Eb) as [Ob Sb].
  destruct (sps_stored t (with_offsets o' y) v c Lz K ltac:(cbn [with_offsets y_poc]; rewrite P; exact Rz) F Hc Ec) as [Oc Sc].
  rewrite parsed_offsets in Sc by (intros a0 x0 w0 p E; rewrite P in E; injection E as _ _ _ <-; symmetry; exact L).
  exists (parsed_sps y). splits; assumption.
Qed.
Print Assumptions C179_offsets_refuted.

(* Other VUI parameters (the shape of a pixel, the frame rate, the bit rate): the parameter set that is kept is the same. *)
Theorem C179_vui_refuted : forall s t y b c u v,
  y_vui y = true -> sps_legal y -> profile_known (y_profile y) -> poc_readable (y_poc y) -> y_field y = None ->
  buf_ok b -> buf_ok c -> bits_of b = sps_bits y ++ u -> bits_of c = sps_bits y ++ v ->
  exists i, get_sps (fst (parse_sps s b)) (y_id y) = Some i /\ get_sps (fst (parse_sps t c)) (y_id y) = Some i /\ sps_vui_present i = true.
Proof.
  intros s t y b c u v V L K R F Hb Hc Eb Ec. destruct (sps_stored s y u b L K R F Hb Eb) as [_ Sb]. destruct (sps_stored t y v c L K R F Hc Ec) as [_ Sc].
  exists (parsed_sps y). splits; [exact Sb|exact Sc|]. destruct (parsed_sps_matches y F) as [M _]. rewrite <- V. apply M.
Qed.
Print Assumptions C179_vui_refuted.

(* Field pictures: the elements after the flag are read from the wrong places, and pictures of 1080 and of 1072 lines are kept alike. *)
Theorem C179_interlaced_refuted : exists y z b c i,
  sps_legal y /\ sps_legal z /\ y_field y = Some true /\ y_field z = Some true /\ bits_of b = sps_bits y ++ trailing 2 /\ bits_of c = sps_bits z ++ trailing 0 /\
  std_height y = 1080 /\ std_height z = 1072 /\
  snd (parse_sps new_store b) = Ok tt /\ get_sps (fst (parse_sps new_store b)) 0 = Some i /\
  snd (parse_sps new_store c) = Ok tt /\ get_sps (fst (parse_sps new_store c)) 0 = Some i.
Proof.
  exists (mkSpsSyn 77 64 40 0 None 4 (Poc0 2) 4 false 119 33 (Some true) true (Some (0, 1, 0, 2)) false),
         (mkSpsSyn 77 64 40 0 None 4 (Poc0 2) 4 false 119 33 (Some true) true (Some (0, 1, 0, 4)) false),
         [77; 64; 40; 150; 202; 3; 192; 34; 122; 180], [77; 64; 40; 150; 202; 3; 192; 34; 122; 149].
  eexists. split; [|split].
  - unfold sps_legal, std_width, std_height, small, std_high_profiles; cbn -[Z.pow]; splits; try lia; tauto.
  - unfold sps_legal, std_width, std_height, small, std_high_profiles; cbn -[Z.pow]; splits; try lia; tauto.
  - splits; vm_compute; reflexivity.
Qed.
Print Assumptions C179_interlaced_refuted.

(* Offsets 1, -1 and 2, -2; two VUI parameter structures; levels 3.0 and 3.1. *)
Example C179_case :
  let y v l o := mkSpsSyn 66 192 l 0 None 0 (Poc1 true (-3) 5 o) 1 false 19 14 None true None v in
  let kept b := get_sps (fst (parse_sps new_store b)) 0 in
  let p := [66; 192; 30; 212; 226; 154; 104; 20; 31; 144] in let q := [66; 192; 30; 212; 226; 153; 10; 129; 65; 249] in
  let m := [66; 192; 30; 212; 226; 154; 104; 20; 31; 182] in let n := [66; 192; 30; 212; 226; 154; 104; 20; 31; 190] in
  let l := [66; 192; 31; 212; 226; 154; 104; 20; 31; 144] in
  sps_legal (y false 30 [1; -1]) /\ poc_readable (y_poc (y false 30 [2; -2])) /\ profile_known 66 /\ cycle (y false 30 [1; -1]) = 2 /\
  bits_of p = sps_bits (y false 30 [1; -1]) ++ trailing 4 /\ bits_of q = sps_bits (y false 30 [2; -2]) ++ trailing 0 /\
  bits_of l = sps_bits (y false 31 [1; -1]) ++ trailing 4 /\
  bits_of m = sps_bits (y true 30 [1; -1]) ++ [true; false; true; true; false] /\ bits_of n = sps_bits (y true 30 [1; -1]) ++ [true; true; true; true; false] /\
  kept p <> None /\ kept q = kept p /\ kept m <> None /\ kept n = kept m /\ kept m <> kept p /\ kept l <> kept p.
Proof.
  intros y kept p q m n l. split; [|split; [|split]].
  - unfold y, sps_legal, std_width, std_height, small, std_high_profiles; cbn -[Z.pow]. splits; try lia.
    repeat apply Forall_cons; try apply Forall_nil; lia.
  - unfold y, poc_readable. cbn [y_poc]. repeat apply Forall_cons; try apply Forall_nil; lia.
  - unfold profile_known. cbn. lia.
  - splits; try (vm_compute; reflexivity); vm_compute; discriminate.
Qed.
