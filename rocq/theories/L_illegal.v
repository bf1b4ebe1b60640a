(* Lemmas: parameter sets with values out of range. *)
From Verif Require Import Base S_bits M_bits L_base L_bits S_sps M_sps S_spsrel S_illegal L_sps L_spsdec.
From Coq Require Import ZifyBool ZifyNat.

Lemma written_chroma y rest : sps_written y -> profile_known (y_profile y) ->
  run (parse_sps_chroma (y_profile y)) (match y_chroma y with Some c => chroma_bits c | None => [] end ++ rest) rest (Ok (parsed_chroma y)).
Proof.
  intros HL HP. destruct HL as (_ & _ & _ & _ & _ & HC & _). unfold parse_sps_chroma, parsed_chroma, y_sep.
  destruct (y_chroma y) as [c|].
  - destruct HC as (HI & Hc & Hl & Hb & HM). unfold small in *.
    replace (high_profile (y_profile y)) with true.
    2:{ symmetry. apply high_profile_in. unfold std_high_profiles, profile_known in *. cbn [In] in *. tauto. }
    unfold chroma_bits. rewrite <- !app_assoc. apply step_ue; [lia|].
    destruct (c_idc c =? 3) eqn:E3.
    + cbn [app rwhen]. apply step_flag. do 2 (apply step_ue; [lia|]). apply step_flag.
      apply (step_matrix 12 (c_matrix c) rest (fun mp mx => rret (c_idc c, c_sep c, c_luma8 c, c_chroma8 c, c_bypass c, mp, mx)));
        [lia | exact HM | apply run_ret].
    + cbn [app rwhen]. eapply run_bind; [apply run_ret|]. do 2 (apply step_ue; [lia|]). apply step_flag.
      apply (step_matrix 8 (c_matrix c) rest (fun mp mx => rret (c_idc c, false, c_luma8 c, c_chroma8 c, c_bypass c, mp, mx)));
        [lia | exact HM | apply run_ret].
  - replace (high_profile (y_profile y)) with false.
    2:{ symmetry. apply not_true_is_false. rewrite high_profile_in. intros H. apply HC. unfold std_high_profiles. cbn [In] in *. tauto. }
    replace (y_profile y =? 183) with false by (unfold profile_known in HP; cbn [In] in HP; lia).
    apply run_ret.
Qed.

Lemma written_poc y rest : sps_written y -> poc_readable (y_poc y) ->
  run (t <- RUe ;; r <- parse_sps_poc t ;; rret (t, r)) (poc_bits (y_poc y) ++ rest) rest (Ok (poc_type (y_poc y), parsed_poc (y_poc y))).
Proof.
  intros HL HR. destruct HL as (_ & _ & _ & _ & _ & _ & _ & HP & _). unfold poc_bits. rewrite <- app_assoc.
  apply step_ue; [destruct (y_poc y); cbn; lia|]. eapply run_bind; [|apply run_ret].
  unfold small in *. destruct (y_poc y) as [l|a x z offs|]; cbn [poc_type parsed_poc poc_readable] in *; [| |tauto].
  - unfold parse_sps_poc. cbn [Z.eqb]. apply step_ue; [lia|]. apply run_ret.
  - apply Forall_cons_iff in HR as [Hx HR]. apply Forall_cons_iff in HR as [Hz HR]. pose proof (zlen_nonneg offs).
    unfold parse_sps_poc. cbn [Z.eqb]. rewrite <- !app_assoc. cbn [app]. apply step_flag.
    apply step_se; [lia|]. apply step_se; [lia|]. apply step_ue; [lia|]. eapply run_bind; [|apply run_ret].
    unfold skip_se. apply (run_bits_fuel (fun f => skip_se_loop f (zlen offs))). apply run_skip_se; [exact HR|lia].
Qed.

Lemma written_crop y rest : sps_written y ->
  run (c <- RFlag ;; r <- parse_sps_crop c ;; rret (c, r)) (crop_bits (y_crop y) ++ rest) rest (Ok (is_some (y_crop y), y_crops y)).
Proof.
  intros HL. destruct HL as (_ & _ & _ & _ & _ & _ & _ & _ & _ & _ & _ & HC). unfold y_crops, crop_bits.
  destruct (y_crop y) as [[[[l r] t] b]|]; cbn [app is_some]; apply step_flag.
  - unfold small in HC. rewrite <- !app_assoc. eapply run_bind; [|apply run_ret]. unfold parse_sps_crop.
    do 4 (apply step_ue; [lia|]). apply run_ret.
  - eapply run_bind; [|apply run_ret]. apply run_ret.
Qed.

Lemma written_sps y rest : sps_written y -> profile_known (y_profile y) -> poc_readable (y_poc y) -> y_field y = None ->
  run parse_sps_body (sps_bits y ++ rest) rest (Ok (parsed_sps y)).
Proof.
  intros HL HP HR HF. pose proof HL as (Bp & Bc & Bm & Bl & Bi & _ & Blf & _ & Brf & Bw & Bh & _). unfold small in *.
  unfold sps_bits, parse_sps_body. rewrite HF. rewrite <- !app_assoc.
  change 8 with (Z.of_nat 8). do 3 (apply step_byte; [lia | cbn; lia|]). apply step_ue; [lia|].
  eapply run_bind; [apply written_chroma; assumption|].
  destruct (parsed_chroma y) as [[[[[[chroma sep] bdl] bdc] bypass] mp] m] eqn:EC.
  apply step_ue; [lia|].
  apply run_bind_assoc. eapply run_bind; [apply written_poc; assumption|]. cbn [fst snd].
  destruct (parsed_poc (y_poc y)) as [[[[lpoc a0] onr] otb] ncyc] eqn:EP.
  apply step_ue; [lia|]. cbn [app]. apply step_flag. do 2 (apply step_ue; [lia|]).
  change (true :: y_direct8 y :: crop_bits (y_crop y) ++ y_vui y :: rest) with (ue_code 0 ++ y_direct8 y :: crop_bits (y_crop y) ++ y_vui y :: rest).
  apply step_ue; [lia|]. cbv zeta. rewrite land2 by exact Bm. cbn [Z.eqb negb andb].
  eapply run_bind; [apply run_ret|]. apply step_flag.
  apply run_bind_assoc. eapply run_bind; [apply written_crop; assumption|]. cbn [fst snd].
  unfold parsed_sps. rewrite EC, EP. destruct (y_crops y) as [[[cl cr] ct] cb]. apply step_flag.
  destruct (sps_dims chroma sep (y_width_mbs y) (y_height_units y) 0 cl cr ct cb) as [w h]. apply run_ret.
Qed.

Lemma legal_written y : sps_legal y -> sps_written y.
Proof.
  intros (A & B & C & D & E & F & G & H & I & J & K & L & _). unfold sps_written. splits; try assumption; try (unfold small; lia); try lia.
  - destruct (y_chroma y) as [c|]; [|exact F]. destruct F as (F1 & F2 & F3 & F4 & F5). splits; try assumption; unfold small; lia.
  - destruct (y_poc y) as [l|a x z offs|]; [unfold small; lia| |exact H]. destruct H as (_ & _ & H & _). lia.
Qed.

Lemma written_pps_head s z rest u' o : pps_written (pps_chroma s z) z -> groups_readable (z_groups z) ->
  run ('(t8, mp, m, sc) <- pps_tail (pps_chroma s z) ;;
       let '(typ, rl, tl, br, dir, rate, ps, ids) := parsed_groups (z_groups z) in
       rret (mkPps (z_id z) (z_sps z) (z_entropy z) (z_bottom z) (groups_num (z_groups z)) typ rl tl br dir rate ps ids
        (z_l0 z) (z_l1 z) (z_weighted z) (z_bipred z) (z_qp z) (z_qs z) (z_chroma_qp z) (z_deblock z) (z_intra z) (z_redundant z) t8 mp m sc))
      (match z_tail z with Some t => tail_bits t | None => [] end ++ rest) u' o ->
  run (parse_pps_body (st_sps s)) (pps_bits z ++ rest) u' o.
Proof.
  intros HL HR R. destruct HL as (Hid & Hs & HG & H0 & H1 & Hb & Hqp & Hqs & Hcq & _). unfold small in *.
  unfold pps_bits, parse_pps_body. rewrite <- !app_assoc. do 2 (apply step_ue; [lia|]). cbn [app]. cbv zeta. do 2 apply step_flag.
  apply run_bind_assoc. eapply run_bind; [apply run_groups; assumption|]. cbn [fst snd].
  unfold pps_chroma, get_sps in R. unfold parsed_groups in *.
  do 2 (apply step_ue; [lia|]). apply step_flag. change 2 with (Z.of_nat 2) at 1. apply step_byte; [lia | cbn; lia |].
  do 3 (apply step_se; [lia|]). do 3 apply step_flag. exact R.
Qed.

Lemma written_pps_tail s z t rest : z_tail z = Some t -> pps_written (pps_chroma s z) z -> groups_readable (z_groups z) ->
  run (parse_pps_body (st_sps s)) (pps_bits z ++ rest) rest (Ok (parsed_pps z)).
Proof.
  intros Ht HL HR. apply written_pps_head; [exact HL | exact HR |]. rewrite Ht. unfold parsed_pps, parsed_tail. rewrite Ht.
  destruct HL as (_ & _ & _ & _ & _ & _ & _ & _ & _ & HT). rewrite Ht in HT. destruct HT as [H2 HM].
  apply run_bind with (u1 := rest) (a := (t_8x8 t, is_some (t_matrix t), mx_of (t_matrix t), t_second t)); [|unfold parsed_groups; apply run_ret].
  unfold pps_tail, tail_bits. rewrite <- !app_assoc. cbn [app].
  eapply run_bind; [apply run_avail|]. rewrite zlen_cons.
  match goal with |- context [zlen ?l + 1 >? 0] => pose proof (zlen_nonneg l); replace (zlen l + 1 >? 0) with true by lia end.
  apply step_flag.
  apply (step_matrix (tail_lists (pps_chroma s z) (t_8x8 t)) (t_matrix t) _
    (fun mp m => sc <- RSe ;; rret (t_8x8 t, mp, m, sc))).
  - unfold tail_lists; destruct (t_8x8 t); [destruct (_ =? _)|]; lia.
  - exact HM.
  - apply step_se; [lia|]. apply run_ret.
Qed.

