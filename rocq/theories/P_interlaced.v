(* C26 and C27: interlaced video, and the reserved bits of the constraint byte. *)
From Verif Require Import Base S_bits M_bits S_sps M_sps S_spsrel S_interlaced L_base L_spsdec L_interlaced.

(* The FrameMbsOnly of a legal sequence parameter set is never frame_mbs_only_flag: it is 0 where the flag is 1, and at least 2
   where the flag is 0 (then direct_8x8_inference_flag is 1, 7.4.2.1.1). *)
Theorem C26_flag_refuted : forall s y rest buf, sps_legal y -> profile_known (y_profile y) -> poc_readable (y_poc y) ->
  (y_field y <> None -> y_direct8 y = true) -> buf_ok buf -> bits_of buf = sps_bits y ++ rest ->
  snd (parse_sps s buf) = Ok tt ->
  exists i, get_sps (fst (parse_sps s buf)) (y_id y) = Some i /\ sps_frame_mbs_only i = flag_as_number y /\
            sps_frame_mbs_only i <> fmo y.
Proof.
  intros s y rest buf HL HP HR HD HB E OK. destruct (flag_stored s y rest buf HL HP HR HD HB E OK) as (i & G & F).
  exists i. splits; [exact G|exact F|]. rewrite F. unfold flag_as_number, fmo, bitval.
  destruct (y_field y) as [[|]|]; try lia. destruct (y_crop y) as [[[[l r] t] b]|]; [destruct (l =? 0)|destruct (y_vui y)]; lia.
Qed.
Print Assumptions C26_flag_refuted.

Example C26_flag_case : exists i,
  get_sps (fst (parse_sps new_store [77; 64; 40; 150; 202; 3; 192; 34; 126; 240])) 0 = Some i /\
  sps_frame_mbs_only i = 2 /\ sps_mb_adaptive i = true /\ sps_width i = 1916 /\ sps_height i = 0 /\
  let y := mkSpsSyn 77 64 40 0 None 4 (Poc0 2) 4 false 119 33 (Some true) true (Some (0, 0, 0, 2)) true in
  sps_legal y /\ bits_of [77; 64; 40; 150; 202; 3; 192; 34; 126; 240] = sps_bits y ++ [true; false; false; false; false] /\
  std_width y = 1920 /\ std_height y = 1080.
Proof.
  eexists. cbv zeta. splits; try (vm_compute; reflexivity).
  unfold sps_legal, std_width, std_height, small, std_high_profiles; cbn -[Z.pow]; splits; try lia; tauto.
Qed.

(* Every set with macroblock-adaptive frame/field coding that is stored has height 0. *)
Theorem C27_mbaff_refuted : forall s y rest buf, sps_legal y -> profile_known (y_profile y) -> poc_readable (y_poc y) ->
  y_field y = Some true -> y_direct8 y = true -> buf_ok buf -> bits_of buf = sps_bits y ++ rest ->
  snd (parse_sps s buf) = Ok tt ->
  exists i, get_sps (fst (parse_sps s buf)) (y_id y) = Some i /\ sps_frame_mbs_only i = 2 /\ sps_height i = 0 /\
    sps_mb_adaptive i = (match y_crop y with Some _ => true | None => false end).
Proof. exact mbaff_stored. Qed.
Print Assumptions C27_mbaff_refuted.

Example C27_mbaff_case : exists i,
  get_sps (fst (parse_sps new_store [77; 64; 40; 150; 202; 3; 192; 34; 126; 240])) 0 = Some i /\ sps_height i = 0.
Proof. eexists. split; vm_compute; reflexivity. Qed.

(* And every one of those with neither cropping nor VUI is refused. *)
Theorem C26_mbaff_refuted : forall s y k buf, sps_legal y -> profile_known (y_profile y) -> poc_readable (y_poc y) ->
  y_field y = Some true -> y_direct8 y = true -> y_crop y = None -> y_vui y = false ->
  buf_ok buf -> bits_of buf = sps_bits y ++ trailing k -> parse_sps s buf = (s, Err ErrUnexpectedEOF).
Proof. exact mbaff_refused. Qed.
Print Assumptions C26_mbaff_refuted.

Example C26_mbaff_case : parse_sps new_store [77; 64; 40; 150; 202; 3; 192; 34; 100] = (new_store, Err ErrUnexpectedEOF) /\
  bits_of [77; 64; 40; 150; 202; 3; 192; 34; 100] =
  sps_bits (mkSpsSyn 77 64 40 0 None 4 (Poc0 2) 4 false 119 33 (Some true) true None false) ++ trailing 2.
Proof. split; vm_compute; reflexivity. Qed.

(* Decoders ignore the reserved bits of the constraint byte: so does this one, but for three profiles. *)
Theorem C26_reserved_partial : forall s y c rest buf, sps_legal y -> profile_known (y_profile y) -> poc_readable (y_poc y) -> y_field y = None ->
  0 <= c < 256 -> Z.testbit c 1 = false \/ ~ In (y_profile y) [77; 88; 100] ->
  buf_ok buf -> bits_of buf = sps_bits (with_constraints c y) ++ rest ->
  snd (parse_sps s buf) = Ok tt /\
  exists i, get_sps (fst (parse_sps s buf)) (y_id y) = Some i /\ sps_matches (with_constraints c y) i /\ sps_frame_mbs_only i = 0.
Proof. exact reserved_ok. Qed.
Print Assumptions C26_reserved_partial.

(* With those, and the second lowest bit set, one flag is read that is not there, so the next ones are taken from the wrong bits. *)
Theorem C26_reserved_refuted : forall s y c rest buf, sps_legal y -> profile_known (y_profile y) -> poc_readable (y_poc y) -> y_field y = None ->
  0 <= c < 256 -> Z.testbit c 1 = true -> In (y_profile y) [77; 88; 100] ->
  buf_ok buf -> bits_of buf = sps_bits (with_constraints c y) ++ rest -> snd (parse_sps s buf) = Ok tt ->
  exists i, get_sps (fst (parse_sps s buf)) (y_id y) = Some i /\ sps_frame_mbs_only i = 1 /\
    sps_mb_adaptive i = y_direct8 y /\ sps_direct_8x8 i = (match y_crop y with Some _ => true | None => false end).
Proof. exact reserved_wrong. Qed.
Print Assumptions C26_reserved_refuted.

Example C26_reserved_case :
  let y := mkSpsSyn 77 64 40 0 None 4 (Poc0 2) 4 false 119 33 None true None true in
  bits_of [77; 2; 40; 150; 202; 3; 192; 34; 216] = sps_bits (with_constraints 2 y) ++ trailing 3 /\ sps_legal y /\
  parse_sps new_store [77; 2; 40; 150; 202; 3; 192; 34; 216] = (new_store, Err ErrUnexpectedEOF) /\
  (exists i, get_sps (fst (parse_sps new_store [77; 2; 40; 150; 202; 3; 192; 34; 223; 255])) 0 = Some i /\ sps_mb_adaptive i = true /\
             sps_direct_8x8 i = false) /\
  exists i, get_sps (fst (parse_sps new_store [77; 1; 40; 150; 202; 3; 192; 34; 223; 255])) 0 = Some i /\ sps_mb_adaptive i = false /\
             sps_direct_8x8 i = true /\ sps_height i = 544.
Proof.
  cbv zeta. splits; try (vm_compute; reflexivity).
  - unfold sps_legal, std_width, std_height, small, std_high_profiles; cbn -[Z.pow]; splits; try lia; tauto.
  - eexists. splits; vm_compute; reflexivity.
  - eexists. splits; vm_compute; reflexivity.
Qed.

(* Of the profiles 134, 135 and 139 the part on colours is not read as such, so what follows is read from the wrong place. *)
Theorem C26_profiles_refuted : forall s y c rest buf, sps_legal y -> In (y_profile y) [134; 135; 139] -> y_chroma y = Some c ->
  buf_ok buf -> bits_of buf = sps_bits y ++ rest -> snd (parse_sps s buf) = Ok tt ->
  exists i, get_sps (fst (parse_sps s buf)) (y_id y) = Some i /\ sps_chroma_format_idc i = 1 /\ sps_bit_depth_luma i = 0 /\
    sps_bit_depth_chroma i = 0 /\ sps_log2_max_frame_num i = c_idc c.
Proof. exact unknown_profile. Qed.
Print Assumptions C26_profiles_refuted.

Example C26_profiles_case :
  let y := mkSpsSyn 134 0 40 0 (Some (mkChroma 2 false 0 0 true None)) 0 (Poc0 2) 4 false 119 33 None true None true in
  sps_legal y /\ bits_of [134; 0; 40; 190; 217; 64; 120; 4; 91] = sps_bits y ++ trailing 0 /\ std_width y = 1920 /\ std_height y = 544 /\
  exists i, get_sps (fst (parse_sps new_store [134; 0; 40; 190; 217; 64; 120; 4; 91])) 0 = Some i /\
    sps_chroma_format_idc i = 1 /\ sps_log2_max_frame_num i = 2 /\ sps_width i = 4294967072 /\ sps_height i = 0.
Proof.
  cbv zeta. splits; try (vm_compute; reflexivity).
  - unfold sps_legal, std_width, std_height, small, std_high_profiles; cbn -[Z.pow]; splits; try lia; tauto.
  - eexists. splits; vm_compute; reflexivity.
Qed.
