(* C141: parameter sets with values out of range. *)
From Verif Require Import Base S_bits M_bits S_sps M_sps S_spsrel S_illegal L_base L_bits L_sps L_spsdec L_illegal.
From Coq Require Import ZifyBool ZifyNat.

(* Full statement: a parameter set with a value that the standard does not allow is refused.  False: whatever number, chroma format, depth, number of
   frames, size and cropping a sequence parameter set has, it is stored, under its number and with its values... *)
Theorem C141_sps_refuted : forall s y rest buf,
  sps_written y -> profile_known (y_profile y) -> poc_readable (y_poc y) -> y_field y = None ->
  buf_ok buf -> bits_of buf = sps_bits y ++ rest ->
  snd (parse_sps s buf) = Ok tt /\
  exists i, get_sps (fst (parse_sps s buf)) (y_id y) = Some i /\ sps_matches y i.
Proof.
  intros s y rest buf HL HP HR HF HB E.
  assert (Hn : buf <> []) by (apply (bits_nonempty _ _ E); discriminate).
  pose proof (written_sps y rest HL HP HR HF) as R. rewrite <- E in R. apply run_new in R; [|exact HB|exact Hn].
  destruct (parsed_sps_matches y HF) as [M1 _]. pose proof M1 as (_ & _ & _ & Mid & _).
  unfold parse_sps. destruct (parse_sps_body (new_reader buf)) as [r o]. cbn [snd] in R. subst o. split; [reflexivity|].
  exists (parsed_sps y). split; [|exact M1]. unfold get_sps, map_set. cbn [fst st_sps]. rewrite Mid, Z.eqb_refl. reflexivity.
Qed.
Print Assumptions C141_sps_refuted.

(* ...and so is a picture parameter set, whether or not there is a sequence parameter set of the number it names. *)
Theorem C141_pps_refuted : forall s z t rest buf,
  z_tail z = Some t -> pps_written (pps_chroma s z) z -> groups_readable (z_groups z) ->
  buf_ok buf -> bits_of buf = pps_bits z ++ rest ->
  snd (parse_pps s buf) = Ok tt /\ exists i, get_pps (fst (parse_pps s buf)) (z_id z) = Some i /\ pps_matches z i.
Proof.
  intros s z t rest buf Ht HL HR HB E.
  pose proof (written_pps_tail s z t rest Ht HL HR) as R. rewrite <- E in R.
  assert (Hn : buf <> []). { intros ->. apply (f_equal (@length bool)) in E. unfold pps_bits, ue_code in E. rewrite !app_length in E. cbn [bits_of flat_map bin length] in E. lia. }
  apply run_new in R; [|exact HB|exact Hn].
  pose proof (parsed_pps_matches z) as M. pose proof M as (Mid & _).
  unfold parse_pps. destruct (parse_pps_body (st_sps s) (new_reader buf)) as [r o]. cbn [snd] in R. subst o. split; [reflexivity|].
  exists (parsed_pps z). split; [|exact M]. unfold get_pps, map_set. cbn [fst st_pps]. rewrite Mid, Z.eqb_refl. reflexivity.
Qed.
Print Assumptions C141_pps_refuted.


(* A picture of 16 by 16 with twenty columns cut away, of a colour format and depths that do not exist, stored as number 40; and a picture parameter
   set for a sequence parameter set that is not there, with quantisers far out of range. *)
Example C141_case :
  let y := mkSpsSyn 100 0 40 40 (Some (mkChroma 5 false 20 20 false None)) 30 (Poc0 50) 1000 false 0 0 None true (Some (10, 10, 0, 0)) false in
  let b := [100; 0; 40; 5; 38; 10; 133; 64; 252; 25; 128; 62; 151; 197; 139; 208] in
  let z := mkPpsSyn 300 77 false false G1 100 100 false 3 (-100) 100 50 false false false (Some (mkTail false None (-50))) in
  let c := [0; 150; 129; 56; 129; 148; 12; 172; 6; 72; 12; 128; 50; 0; 12; 176] in
  sps_written y /\ ~ sps_legal y /\ bits_of b = sps_bits y ++ trailing 4 /\
  (exists i, get_sps (fst (parse_sps new_store b)) 40 = Some i /\ sps_chroma_format_idc i = 5 /\ std_width y = -4 /\ sps_width i = 4294967292) /\
  pps_written 0 z /\ bits_of c = pps_bits z ++ trailing 4 /\
  exists i, get_pps (fst (parse_pps new_store c)) 300 = Some i /\ pps_init_qp i = -100 /\ pps_weighted_bipred_idc i = 3.
Proof.
  cbv zeta. splits.
  - unfold sps_written, small, std_high_profiles; cbn -[Z.pow]; splits; try lia; tauto.
  - unfold sps_legal; cbn -[Z.pow]. intros (_ & _ & _ & _ & H & _). lia.
  - vm_compute. reflexivity.
  - eexists. splits; vm_compute; reflexivity.
  - unfold pps_written, small; cbn -[Z.pow]; splits; try lia; tauto.
  - vm_compute. reflexivity.
  - eexists. splits; vm_compute; reflexivity.
Qed.
