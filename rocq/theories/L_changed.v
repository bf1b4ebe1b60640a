(* Lemmas for C179. *)
From Verif Require Import Base S_bits M_bits S_sps M_sps S_spsrel S_changed L_base L_bits L_sps L_spsdec.

Lemma sps_stored s y rest buf : sps_legal y -> profile_known (y_profile y) -> poc_readable (y_poc y) -> y_field y = None -> buf_ok buf ->
  bits_of buf = sps_bits y ++ rest -> snd (parse_sps s buf) = Ok tt /\ get_sps (fst (parse_sps s buf)) (y_id y) = Some (parsed_sps y).
Proof.
  intros HL HP HR HF HB E. assert (Hn : buf <> []) by (apply (bits_nonempty _ _ E); discriminate).
  pose proof (run_sps y rest HL HP HR HF) as R. rewrite <- E in R. apply run_new in R; [|exact HB|exact Hn].
  destruct (parsed_sps_matches y HF) as [M1 _]. pose proof M1 as (_ & _ & _ & Mid & _).
  unfold parse_sps. destruct (parse_sps_body (new_reader buf)) as [r o]. cbn [snd] in R. subst o. split; [reflexivity|].
  unfold get_sps, map_set. cbn [fst st_sps]. rewrite Mid, Z.eqb_refl. reflexivity.
Qed.

Lemma matrix_same m n f x : matrix_matches m f x -> matrix_matches n f x ->
  option_map (fun s => (scal_mask_from 0 s, pad 480 0 (scal_list_from 0 s), pad 12 false (scal_defaults_from 0 s))) m =
  option_map (fun s => (scal_mask_from 0 s, pad 480 0 (scal_list_from 0 s), pad 12 false (scal_defaults_from 0 s))) n.
Proof.
  destruct m as [s|], n as [t|]; cbn [matrix_matches option_map].
  - intros (_ & A & B & C) (_ & D & E & F). rewrite A in D. rewrite B in E. rewrite C in F. rewrite D, E, F. reflexivity.
  - intros (A & _) (B & _). congruence.
  - intros (A & _) (B & _). congruence.
  - reflexivity.
Qed.

Lemma matches_bare y z i : sps_legal y -> sps_legal z -> y_field y = None -> y_field z = None -> sps_matches y i -> sps_matches z i ->
  sps_bits (bare y) = sps_bits (bare z) /\ cycle y = cycle z /\ lists y = lists z.
Proof.
  intros Ly Lz Fy Fz
    (A1 & A2 & A3 & A4 & A5 & A6 & A7 & A8 & A9 & A10 & A11 & A12 & A13 & A14 & A15 & A16 & A17 & A18 & A19)
    (B1 & B2 & B3 & B4 & B5 & B6 & B7 & B8 & B9 & B10 & B11 & B12 & B13 & B14 & B15 & B16 & B17 & B18 & B19).
  destruct Ly as (_ & _ & _ & _ & _ & Ly & _), Lz as (_ & _ & _ & _ & _ & Lz & _).
  rewrite A1 in B1. rewrite A2 in B2. rewrite A3 in B3. rewrite A4 in B4. rewrite A8 in B8. rewrite A11 in B11. rewrite A12 in B12. rewrite A13 in B13.
  rewrite A14 in B14. rewrite A16 in B16. rewrite A19 in B19.
  assert (CH : match option_map bare_chroma (y_chroma y) with Some c => chroma_bits c | None => [] end =
               match option_map bare_chroma (y_chroma z) with Some c => chroma_bits c | None => [] end /\ lists y = lists z).
  { rewrite A5 in B5. rewrite A6 in B6. unfold y_idc, y_sep, lists in *. rewrite B1 in Ly.
    destruct (y_chroma y) as [c|], (y_chroma z) as [d|]; try (exfalso; tauto); cbn [option_map]; [|split; reflexivity].
    destruct A7 as (P1 & P2 & P3 & P4), B7 as (R1 & R2 & R3 & R4). rewrite P1 in R1. rewrite P2 in R2. rewrite P3 in R3.
    split; [|exact (matrix_same _ _ _ _ P4 R4)].
    unfold chroma_bits, bare_chroma. cbn [c_idc c_sep c_luma8 c_chroma8 c_bypass c_matrix]. rewrite B5 in *. rewrite R1, R2, R3.
    destruct (c_idc d =? 3); cbn [andb] in B6; [rewrite B6|]; reflexivity. }
  assert (PO : poc_bits (set_offsets [] (y_poc y)) = poc_bits (set_offsets [] (y_poc z)) /\ cycle y = cycle z).
  { unfold cycle. rewrite A9 in B9. destruct (y_poc y) as [l|a x w o|], (y_poc z) as [l'|a' x' w' o'|]; cbn [poc_type] in B9; try discriminate; cbn [set_offsets].
    - destruct A10 as (P & _), B10 as (R & _). rewrite P in R. rewrite R. split; reflexivity.
    - destruct A10 as (_ & P1 & P2 & P3 & P4), B10 as (_ & R1 & R2 & R3 & R4). rewrite P1 in R1. rewrite P2 in R2. rewrite P3 in R3. rewrite P4 in R4.
      rewrite R1, R2, R3, R4. split; reflexivity.
    - split; reflexivity. }
  assert (CR : y_crop y = y_crop z).
  { rewrite A17 in B17. rewrite A18 in B18. unfold y_crops in B18. destruct (y_crop y), (y_crop z); try discriminate; [|reflexivity]. rewrite B18. reflexivity. }
  destruct CH as [CH CL], PO as [PO PC]. splits; [|exact PC|exact CL].
  unfold sps_bits. cbn [bare y_profile y_constraints y_level y_id y_chroma y_log2_frame_num y_poc y_ref_frames y_gaps y_width_mbs y_height_units y_field y_direct8 y_crop y_vui].
  rewrite B1, B2, B3, B4, B8, B11, B12, B13, B14, B16, B19, CH, PO, CR, Fy, Fz. reflexivity.
Qed.

Lemma parsed_offsets o y : (forall a x z p, y_poc y = Poc1 a x z p -> zlen p = zlen o) -> parsed_sps (with_offsets o y) = parsed_sps y.
Proof.
  intros H. destruct y as [a b c d e f p g h i j k l m n]. unfold parsed_sps, parsed_chroma, y_crops, y_idc, y_sep, with_offsets in *.
  cbn [y_profile y_constraints y_level y_id y_chroma y_log2_frame_num y_poc y_ref_frames y_gaps y_width_mbs y_height_units y_field y_direct8 y_crop y_vui] in *.
  destruct p as [q|q r s t|]; cbn [set_offsets parsed_poc poc_type]; try reflexivity. rewrite (H q r s t eq_refl). reflexivity.
Qed.
