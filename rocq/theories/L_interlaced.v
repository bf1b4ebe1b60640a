From Verif Require Import Base S_bits M_bits S_sps M_sps S_spsrel S_interlaced L_base L_bits L_sps L_spsdec.
From Coq Require Import ZifyBool ZifyNat.

Definition head_bits (y : sps_syn) : list bool :=
  u_code 8 (y_profile y) ++ u_code 8 (y_constraints y) ++ u_code 8 (y_level y) ++ ue_code (y_id y) ++
  match y_chroma y with Some c => chroma_bits c | None => [] end ++
  ue_code (y_log2_frame_num y) ++ poc_bits (y_poc y) ++ ue_code (y_ref_frames y) ++ [y_gaps y] ++
  ue_code (y_width_mbs y) ++ ue_code (y_height_units y).
Definition tail_bits (y : sps_syn) : list bool :=
  match y_field y with None => [true] | Some b => [false; b] end ++ [y_direct8 y] ++ crop_bits (y_crop y) ++ [y_vui y].
Lemma sps_bits_split y : sps_bits y = head_bits y ++ tail_bits y.
Proof. unfold sps_bits, head_bits, tail_bits. rewrite <- ?app_assoc. reflexivity. Qed.
Lemma head_bits_ne y r : head_bits y ++ r <> [].
Proof. discriminate. Qed.

(* what follows the flag *)
Definition after_flag (y : sps_syn) (c f : Z) : rd sps_info :=
  mbaff <- rwhen (negb (f =? 0)) false RFlag ;;
  d8 <- RFlag ;;
  crop <- RFlag ;;
  '(cl, cr, ct, cb) <- parse_sps_crop crop ;;
  vui <- RFlag ;;
  let '(chroma, sep, bdl, bdc, bypass, mp, m) := parsed_chroma y in
  let '(lpoc, a0, onr, otb, ncyc) := parsed_poc (y_poc y) in
  let '(w, h) := sps_dims chroma sep (y_width_mbs y) (y_height_units y) f cl cr ct cb in
  rret (mkSps (y_profile y) c (y_level y) (y_id y) chroma sep bdl bdc bypass mp m (y_log2_frame_num y)
        (poc_type (y_poc y)) lpoc a0 onr otb ncyc (y_ref_frames y) (y_gaps y) (y_width_mbs y) (y_height_units y)
        f mbaff d8 crop cl cr ct cb vui w h).
Definition reserved (profile c : Z) : bool := negb (Z.land c 2 =? 0) && ((profile =? 77) || (profile =? 88) || (profile =? 100)).

Lemma run_head y c more u1 v u' o : sps_legal y -> profile_known (y_profile y) -> poc_readable (y_poc y) -> 0 <= c < 256 ->
  spec_ue more = (u1, Ok v) -> run (after_flag y c (if reserved (y_profile y) c then 1 else v)) u1 u' o ->
  run parse_sps_body (head_bits (with_constraints c y) ++ more) u' o.
Proof.
  intros HL HP HR Bc EV R. pose proof HL as (Bp & _ & Bm & Bl & Bi & _ & Blf & _ & Brf & Bw & Bh & _). unfold small in *.
  unfold head_bits, parse_sps_body, with_constraints.
  cbn [y_profile y_constraints y_level y_id y_chroma y_log2_frame_num y_poc y_ref_frames y_gaps y_width_mbs y_height_units].
  rewrite <- !app_assoc.
  change 8 with (Z.of_nat 8). do 3 (apply step_byte; [lia | cbn; lia|]). apply step_ue; [lia|].
  eapply run_bind; [apply run_chroma; assumption|].
  unfold after_flag in R.
  destruct (parsed_chroma y) as [[[[[[chroma sep] bdl] bdc] bypass] mp] m] eqn:EC.
  apply step_ue; [lia|].
  apply run_bind_assoc. eapply run_bind; [apply run_poc; assumption|]. cbn [fst snd].
  destruct (parsed_poc (y_poc y)) as [[[[lpoc a0] onr] otb] ncyc] eqn:EP.
  apply step_ue; [lia|]. cbn [app]. apply step_flag. do 2 (apply step_ue; [lia|]).
  eapply run_bind; [pose proof (run_ue more) as U; rewrite EV in U; exact U|]. cbv zeta. exact R.
Qed.

(* whatever follows, the flag is stored *)
Lemma tot_after y c f : tot (fun i => sps_id i = y_id y /\ sps_frame_mbs_only i = f) (after_flag y c f).
Proof.
  unfold after_flag. eapply tot_bind; [apply (tot_when any); [exact I | apply tot_flag]|]. intros mb _.
  do 2 (eapply tot_bind; [apply tot_flag|]; intros ? _).
  eapply tot_bind; [apply tot_sps_crop|]. intros [[[? ?] ?] ?] _. eapply tot_bind; [apply tot_flag|]. intros ? _.
  destruct (parsed_chroma y) as [[[[[[? ?] ?] ?] ?] ?] ?]. destruct (parsed_poc (y_poc y)) as [[[[? ?] ?] ?] ?].
  match goal with |- context [sps_dims ?a ?b ?c ?d ?e ?f ?g ?h ?i] => destruct (sps_dims a b c d e f g h i) as [w hh] end.
  apply tot_ret. split; reflexivity.
Qed.
(* with a flag other than 0, the next bits are taken for the next two flags *)
Lemma tot_after_mb y c f b1 b2 more : f <> 0 -> exists u' o, run (after_flag y c f) (b1 :: b2 :: more) u' o /\
  ok_or_eof (fun i => sps_id i = y_id y /\ sps_frame_mbs_only i = f /\ sps_mb_adaptive i = b1 /\ sps_direct_8x8 i = b2 /\
             (f = 2 -> sps_height i = 0)) o.
Proof.
  intros Hf. unfold after_flag.
  assert (T : tot (fun i => sps_id i = y_id y /\ sps_frame_mbs_only i = f /\ sps_mb_adaptive i = b1 /\ sps_direct_8x8 i = b2 /\
             (f = 2 -> sps_height i = 0)) (crop <- RFlag ;;
    '(cl, cr, ct, cb) <- parse_sps_crop crop ;;
    vui <- RFlag ;;
    let '(chroma, sep, bdl, bdc, bypass, mp, m) := parsed_chroma y in
    let '(lpoc, a0, onr, otb, ncyc) := parsed_poc (y_poc y) in
    let '(w, h) := sps_dims chroma sep (y_width_mbs y) (y_height_units y) f cl cr ct cb in
    rret (mkSps (y_profile y) c (y_level y) (y_id y) chroma sep bdl bdc bypass mp m (y_log2_frame_num y)
        (poc_type (y_poc y)) lpoc a0 onr otb ncyc (y_ref_frames y) (y_gaps y) (y_width_mbs y) (y_height_units y)
        f b1 b2 crop cl cr ct cb vui w h))).
  { eapply tot_bind; [apply tot_flag|]; intros ? _.
    eapply tot_bind; [apply tot_sps_crop|]. intros [[[? ?] ?] ?] _. eapply tot_bind; [apply tot_flag|]. intros ? _.
    destruct (parsed_chroma y) as [[[[[[ch sp] ?] ?] ?] ?] ?]. destruct (parsed_poc (y_poc y)) as [[[[? ?] ?] ?] ?].
    match goal with |- context [sps_dims ?a ?b ?c ?d ?e ?f ?g ?h ?i] => destruct (sps_dims a b c d e f g h i) as [w hh] eqn:ED end.
    apply tot_ret. cbn. splits; try reflexivity. intros ->. unfold sps_dims in ED. change (u32 (2 - 2)) with 0 in ED.
    injection ED as _ <-. do 3 (rewrite ?Z.mul_0_l, ?Z.mul_0_r; try change (u32 0) with 0).
    reflexivity. }
  destruct (T more) as (u' & o & R & _ & O). exists u', o. split; [|exact O].
  replace (negb (f =? 0)) with true by lia. cbn [rwhen]. apply step_flag. apply step_flag. exact R.
Qed.

Lemma ue_first l r : 0 <= l -> exists t, ue_code l ++ r = (l =? 0) :: t.
Proof.
  intros H. destruct (Z.eq_dec l 0) as [->|N]; [exists r; reflexivity|].
  rewrite ue_code_shape by exact H. replace (l =? 0) with false by lia.
  assert (0 < Z.log2 (l + 1)) by (apply Z.log2_pos; lia).
  destruct (Z.to_nat (Z.log2 (l + 1))) as [|k] eqn:E; [lia|]. cbn. eauto.
Qed.

(* the number read where the flag is *)
Lemma ue_tail y rest : sps_legal y -> (y_field y <> None -> y_direct8 y = true) ->
  exists u1, spec_ue (tail_bits y ++ rest) = (u1, Ok (flag_as_number y)) /\
  (y_field y = None -> u1 = y_direct8 y :: crop_bits (y_crop y) ++ [y_vui y] ++ rest) /\
  (y_field y = Some true -> u1 = crop_bits (y_crop y) ++ [y_vui y] ++ rest).
Proof.
  intros HL HD. destruct HL as (_ & _ & _ & _ & _ & _ & _ & _ & _ & _ & _ & HC & _).
  unfold tail_bits, flag_as_number. destruct (y_field y) as [[|]|].
  - rewrite HD by discriminate. rewrite <- !app_assoc. cbn [app].
    eexists. split; [exact (spec_ue_code_small 2 _ ltac:(lia))|]. split; [discriminate|reflexivity].
  - rewrite HD by discriminate. rewrite <- !app_assoc. cbn [app].
    destruct (y_crop y) as [[[[l r] t] b]|]; cbn [crop_bits app]; rewrite <- ?app_assoc; cbn [app].
    + unfold small in HC. destruct (ue_first l (ue_code r ++ ue_code t ++ ue_code b ++ y_vui y :: rest) ltac:(lia)) as [w ->].
      exists w. split; [|split; discriminate].
      destruct (l =? 0); [exact (spec_ue_code_small 6 _ ltac:(lia)) | exact (spec_ue_code_small 5 _ ltac:(lia))].
    + exists rest. split; [|split; discriminate].
      destruct (y_vui y); [exact (spec_ue_code_small 4 _ ltac:(lia)) | exact (spec_ue_code_small 3 _ ltac:(lia))].
  - rewrite <- !app_assoc. cbn [app]. eexists. split; [exact (spec_ue_code_small 0 _ ltac:(lia))|]. split; [reflexivity|discriminate].
Qed.

Lemma with_same y : with_constraints (y_constraints y) y = y.
Proof. destruct y. reflexivity. Qed.
Lemma legal_reserved y : sps_legal y -> reserved (y_profile y) (y_constraints y) = false.
Proof. intros (_ & _ & H & _). unfold reserved. rewrite land2 by exact H. reflexivity. Qed.
Lemma tail_with c y : tail_bits (with_constraints c y) = tail_bits y.
Proof. reflexivity. Qed.

(* from runs to the stored set *)
Lemma stored s buf u u' o : buf_ok buf -> buf <> [] -> bits_of buf = u -> run parse_sps_body u u' o ->
  parse_sps s buf = match o with Ok i => (mkStore (map_set (st_sps s) (sps_id i) i) (st_pps s), Ok tt) | Err e => (s, Err e)
                    | Panic => (s, Panic) | Fuel => (s, Fuel) end.
Proof.
  intros B N <- R. apply run_new in R; [|exact B|exact N]. unfold parse_sps.
  destruct (parse_sps_body (new_reader buf)) as [r o']. cbn [snd] in R. subst o'. destruct o; reflexivity.
Qed.

Lemma flag_stored s y rest buf : sps_legal y -> profile_known (y_profile y) -> poc_readable (y_poc y) ->
  (y_field y <> None -> y_direct8 y = true) -> buf_ok buf -> bits_of buf = sps_bits y ++ rest ->
  snd (parse_sps s buf) = Ok tt ->
  exists i, get_sps (fst (parse_sps s buf)) (y_id y) = Some i /\ sps_frame_mbs_only i = flag_as_number y.
Proof.
  intros HL HP HR HD HB E OK. destruct (ue_tail y rest HL HD) as (u1 & EU & _).
  destruct (tot_after y (y_constraints y) (flag_as_number y) u1) as (u' & o & R & _ & O).
  pose proof HL as (_ & Bc & _).
  assert (R' : run parse_sps_body (bits_of buf) u' o).
  { rewrite E, sps_bits_split, <- app_assoc. rewrite <- (with_same y) at 1. eapply run_head; eauto.
    rewrite legal_reserved by exact HL. exact R. }
  assert (Nb : buf <> []) by (intros ->; rewrite sps_bits_split, <- app_assoc in E; symmetry in E; exact (head_bits_ne _ _ E)).
  pose proof (stored s buf _ _ _ HB Nb eq_refl R') as P. rewrite P in OK |- *.
  destruct O as [(i & -> & Hi & Hf)| ->]; [|discriminate]. cbn [fst] in *. exists i. split; [|exact Hf].
  unfold get_sps, map_set. cbn [st_sps]. rewrite Hi, Z.eqb_refl. reflexivity.
Qed.

Lemma mbaff_stored s y rest buf : sps_legal y -> profile_known (y_profile y) -> poc_readable (y_poc y) ->
  y_field y = Some true -> y_direct8 y = true -> buf_ok buf -> bits_of buf = sps_bits y ++ rest ->
  snd (parse_sps s buf) = Ok tt ->
  exists i, get_sps (fst (parse_sps s buf)) (y_id y) = Some i /\ sps_frame_mbs_only i = 2 /\ sps_height i = 0 /\
    sps_mb_adaptive i = (match y_crop y with Some _ => true | None => false end).
Proof.
  intros HL HP HR HF HD HB E OK. destruct (ue_tail y rest HL (fun _ => HD)) as (u1 & EU & _ & U).
  specialize (U HF). unfold flag_as_number in EU. rewrite HF in EU.
  pose proof HL as (_ & Bc & _ & _ & _ & _ & _ & _ & _ & _ & _ & HC & _).
  assert (X : exists b2 more, u1 = (match y_crop y with Some _ => true | None => false end) :: b2 :: more).
  { rewrite U. destruct (y_crop y) as [[[[l r] t] b]|]; cbn [crop_bits app]; [|eauto].
    unfold small in HC. rewrite <- ?app_assoc. destruct (ue_first l (ue_code r ++ ue_code t ++ ue_code b ++ y_vui y :: rest) ltac:(lia)) as [w Ew].
    cbn [app]. rewrite Ew. eauto. }
  destruct X as (b2 & more & Eu).
  destruct (tot_after_mb y (y_constraints y) 2 (match y_crop y with Some _ => true | None => false end) b2 more ltac:(lia)) as (u' & o & R & O).
  assert (R' : run parse_sps_body (bits_of buf) u' o).
  { rewrite E, sps_bits_split, <- app_assoc. rewrite <- (with_same y) at 1. eapply run_head; eauto.
    rewrite legal_reserved by exact HL. rewrite Eu. exact R. }
  assert (Nb : buf <> []) by (intros ->; rewrite sps_bits_split, <- app_assoc in E; symmetry in E; exact (head_bits_ne _ _ E)).
  pose proof (stored s buf _ _ _ HB Nb eq_refl R') as P. rewrite P in OK |- *.
  destruct O as [(i & -> & Hi & Hf & Hm & _ & Hh)| ->]; [|discriminate]. cbn [fst] in *. exists i. splits; auto.
  unfold get_sps, map_set. cbn [st_sps]. rewrite Hi, Z.eqb_refl. reflexivity.
Qed.

(* without cropping and VUI the closing bits are read as cropping offsets, and run out *)
Lemma mbaff_refused s y k buf : sps_legal y -> profile_known (y_profile y) -> poc_readable (y_poc y) ->
  y_field y = Some true -> y_direct8 y = true -> y_crop y = None -> y_vui y = false ->
  buf_ok buf -> bits_of buf = sps_bits y ++ trailing k -> parse_sps s buf = (s, Err ErrUnexpectedEOF).
Proof.
  intros HL HP HR HF HD HN HV HB E. destruct (ue_tail y (trailing k) HL (fun _ => HD)) as (u1 & EU & _ & U).
  specialize (U HF). unfold flag_as_number in EU. rewrite HF in EU. rewrite HN, HV in U. cbn in U.
  pose proof HL as (_ & Bc & _).
  assert (R : run (after_flag y (y_constraints y) 2) u1 [] (Err ErrUnexpectedEOF)).
  { subst u1. unfold after_flag. cbn [negb Z.eqb rwhen]. do 3 apply step_flag. apply run_bind_err. cbn [parse_sps_crop].
    apply run_bind_err. pose proof (run_ue (repeat false k)) as X. rewrite spec_ue_zeros in X. exact X. }
  assert (R' : run parse_sps_body (bits_of buf) [] (Err ErrUnexpectedEOF)).
  { rewrite E, sps_bits_split, <- app_assoc. rewrite <- (with_same y) at 1. eapply run_head; eauto.
    rewrite legal_reserved by exact HL. exact R. }
  assert (Nb : buf <> []) by (intros ->; rewrite sps_bits_split, <- app_assoc in E; symmetry in E; exact (head_bits_ne _ _ E)).
  exact (stored s buf _ _ _ HB Nb eq_refl R').
Qed.

(* reserved bits *)
Lemma land_bit1 c : (Z.land c 2 =? 0) = negb (Z.testbit c 1).
Proof.
  replace 2 with (2 ^ 1) by reflexivity.
  assert (X : Z.land c (2 ^ 1) = if Z.testbit c 1 then 2 ^ 1 else 0).
  { apply Z.bits_inj'. intros k Hk. rewrite Z.land_spec, Z.pow2_bits_eqb by lia. destruct (Z.eqb_spec 1 k) as [<-|N].
    - rewrite andb_true_r. destruct (Z.testbit c 1); [reflexivity|rewrite Z.bits_0; reflexivity].
    - rewrite andb_false_r. destruct (Z.testbit c 1); [|rewrite Z.bits_0; reflexivity].
      rewrite Z.pow2_bits_eqb by lia. symmetry. lia. }
  rewrite X. destruct (Z.testbit c 1); reflexivity.
Qed.

Lemma reserved_ok s y c rest buf : sps_legal y -> profile_known (y_profile y) -> poc_readable (y_poc y) -> y_field y = None ->
  0 <= c < 256 -> Z.testbit c 1 = false \/ ~ In (y_profile y) [77; 88; 100] ->
  buf_ok buf -> bits_of buf = sps_bits (with_constraints c y) ++ rest ->
  snd (parse_sps s buf) = Ok tt /\
  exists i, get_sps (fst (parse_sps s buf)) (y_id y) = Some i /\ sps_matches (with_constraints c y) i /\ sps_frame_mbs_only i = 0.
Proof.
  intros HL HP HR HF Bc Q HB E. destruct (ue_tail y rest HL) as (u1 & EU & U & _); [congruence|].
  specialize (U HF). unfold flag_as_number in EU. rewrite HF in EU.
  assert (N : reserved (y_profile y) c = false).
  { unfold reserved. rewrite land_bit1. destruct Q as [->|Q]; [reflexivity|]. rewrite negb_involutive.
    destruct (Z.testbit c 1); [|reflexivity]. cbn. cbn in Q. lia. }
  assert (R : run (after_flag y c 0) u1 rest (Ok (parsed_sps (with_constraints c y)))).
  { subst u1. unfold after_flag. cbn [negb Z.eqb rwhen]. eapply run_bind; [apply run_ret|]. apply step_flag.
    apply run_bind_assoc. eapply run_bind; [apply run_crop; assumption|]. cbn [fst snd].
    unfold parsed_sps. change (parsed_chroma (with_constraints c y)) with (parsed_chroma y).
    change (y_poc (with_constraints c y)) with (y_poc y). change (y_crops (with_constraints c y)) with (y_crops y).
    destruct (parsed_chroma y) as [[[[[[chroma sep] bdl] bdc] bypass] mp] m].
    destruct (parsed_poc (y_poc y)) as [[[[lpoc a0] onr] otb] ncyc].
    destruct (y_crops y) as [[[cl cr] ct] cb]. cbn [app]. apply step_flag.
    cbn [with_constraints y_width_mbs y_height_units].
    destruct (sps_dims chroma sep (y_width_mbs y) (y_height_units y) 0 cl cr ct cb) as [w h]. apply run_ret. }
  assert (R' : run parse_sps_body (bits_of buf) rest (Ok (parsed_sps (with_constraints c y)))).
  { rewrite E, sps_bits_split, <- app_assoc. eapply run_head; eauto. rewrite N. exact R. }
  assert (Nb : buf <> []) by (intros ->; rewrite sps_bits_split, <- app_assoc in E; symmetry in E; exact (head_bits_ne _ _ E)).
  rewrite (stored s buf _ _ _ HB Nb eq_refl R'). cbn [fst snd]. split; [reflexivity|].
  destruct (parsed_sps_matches (with_constraints c y) HF) as [M1 M2]. pose proof M1 as (_ & _ & _ & Mid & _).
  eexists. split; [|split; [exact M1|exact M2]]. unfold get_sps, map_set. cbn [st_sps]. rewrite Mid. cbn [with_constraints y_id]. rewrite Z.eqb_refl. reflexivity.
Qed.

Lemma reserved_wrong s y c rest buf : sps_legal y -> profile_known (y_profile y) -> poc_readable (y_poc y) -> y_field y = None ->
  0 <= c < 256 -> Z.testbit c 1 = true -> In (y_profile y) [77; 88; 100] ->
  buf_ok buf -> bits_of buf = sps_bits (with_constraints c y) ++ rest -> snd (parse_sps s buf) = Ok tt ->
  exists i, get_sps (fst (parse_sps s buf)) (y_id y) = Some i /\ sps_frame_mbs_only i = 1 /\
    sps_mb_adaptive i = y_direct8 y /\ sps_direct_8x8 i = (match y_crop y with Some _ => true | None => false end).
Proof.
  intros HL HP HR HF Bc Q1 Q2 HB E OK. destruct (ue_tail y rest HL) as (u1 & EU & U & _); [congruence|].
  specialize (U HF). unfold flag_as_number in EU. rewrite HF in EU.
  assert (N : reserved (y_profile y) c = true).
  { unfold reserved. rewrite land_bit1, Q1. cbn. cbn in Q2. lia. }
  assert (X : exists more, u1 = y_direct8 y :: (match y_crop y with Some _ => true | None => false end) :: more).
  { rewrite U. destruct (y_crop y) as [[[[l r] t] b]|]; cbn [crop_bits app]; eauto. }
  destruct X as (more & Eu).
  destruct (tot_after_mb y c 1 (y_direct8 y) (match y_crop y with Some _ => true | None => false end) more ltac:(lia)) as (u' & o & R & O).
  assert (R' : run parse_sps_body (bits_of buf) u' o).
  { rewrite E, sps_bits_split, <- app_assoc. eapply run_head; eauto. rewrite N, Eu. exact R. }
  assert (Nb : buf <> []) by (intros ->; rewrite sps_bits_split, <- app_assoc in E; symmetry in E; exact (head_bits_ne _ _ E)).
  pose proof (stored s buf _ _ _ HB Nb eq_refl R') as P. rewrite P in OK |- *.
  destruct O as [(i & -> & Hi & Hf & Hm & Hd & _)| ->]; [|discriminate]. cbn [fst] in *. exists i. splits; auto.
  unfold get_sps, map_set. cbn [st_sps]. rewrite Hi, Z.eqb_refl. reflexivity.
Qed.

(* profiles the parser does not know to carry the chroma part *)
Lemma unknown_profile s y c rest buf : sps_legal y -> In (y_profile y) [134; 135; 139] -> y_chroma y = Some c ->
  buf_ok buf -> bits_of buf = sps_bits y ++ rest -> snd (parse_sps s buf) = Ok tt ->
  exists i, get_sps (fst (parse_sps s buf)) (y_id y) = Some i /\ sps_chroma_format_idc i = 1 /\ sps_bit_depth_luma i = 0 /\
    sps_bit_depth_chroma i = 0 /\ sps_log2_max_frame_num i = c_idc c.
Proof.
  intros HL HI HC HB E OK. pose proof HL as (Bp & Bc & _ & Bl & Bi & BC & _). rewrite HC in BC. destruct BC as (_ & Bidc & _).
  assert (X : exists more u' o, bits_of buf = u_code 8 (y_profile y) ++ u_code 8 (y_constraints y) ++ u_code 8 (y_level y) ++ ue_code (y_id y) ++ ue_code (c_idc c) ++ more /\
    run parse_sps_body (bits_of buf) u' o /\ ok_or_eof (fun i => sps_id i = y_id y /\ sps_chroma_format_idc i = 1 /\ sps_bit_depth_luma i = 0 /\
    sps_bit_depth_chroma i = 0 /\ sps_log2_max_frame_num i = c_idc c) o).
  { eexists. rewrite E. unfold sps_bits. rewrite HC. unfold chroma_bits. rewrite <- !app_assoc.
    match goal with |- context [ue_code (c_idc c) ++ ?m] => set (more := m) end.
    assert (T : tot (fun i => sps_id i = y_id y /\ sps_chroma_format_idc i = 1 /\ sps_bit_depth_luma i = 0 /\
      sps_bit_depth_chroma i = 0 /\ sps_log2_max_frame_num i = c_idc c)
      (poct <- RUe ;;
       '(lpoc, a0, onr, otb, ncyc) <- parse_sps_poc poct ;;
       mnrf <- RUe ;;
       gaps <- RFlag ;;
       wmbs <- RUe ;;
       hmap <- RUe ;;
       fmo <- RUe ;;
       let fmo := if negb (Z.land (y_constraints y) 2 =? 0) && ((y_profile y =? 77) || (y_profile y =? 88) || (y_profile y =? 100)) then 1 else fmo in
       mbaff <- rwhen (negb (fmo =? 0)) false RFlag ;;
       d8 <- RFlag ;;
       crop <- RFlag ;;
       '(cl, cr, ct, cb) <- parse_sps_crop crop ;;
       vui <- RFlag ;;
       let '(w, h) := sps_dims 1 false wmbs hmap fmo cl cr ct cb in
       rret (mkSps (y_profile y) (y_constraints y) (y_level y) (y_id y) 1 false 0 0 false false matrix0 (c_idc c) poct lpoc a0 onr otb ncyc
              mnrf gaps wmbs hmap fmo mbaff d8 crop cl cr ct cb vui w h))).
    { eapply tot_bind; [apply tot_ue|]; intros ? _.
      eapply tot_bind; [apply tot_sps_poc|]. intros [[[[? ?] ?] ?] ?] _.
      eapply tot_bind; [apply tot_ue|]; intros ? _. eapply tot_bind; [apply tot_flag|]; intros ? _.
      do 3 (eapply tot_bind; [apply tot_ue|]; intros ? _). cbv zeta.
      eapply tot_bind; [apply (tot_when any); [exact I | apply tot_flag]|]. intros ? _.
      do 2 (eapply tot_bind; [apply tot_flag|]; intros ? _).
      eapply tot_bind; [apply tot_sps_crop|]. intros [[[? ?] ?] ?] _. eapply tot_bind; [apply tot_flag|]; intros ? _.
      match goal with |- context [sps_dims ?a ?b ?c ?d ?e ?f ?g ?h ?i] => destruct (sps_dims a b c d e f g h i) as [w hh] end.
      apply tot_ret. splits; reflexivity. }
    destruct (T more) as (u' & o & R & _ & O). exists u', o. split; [reflexivity|]. split; [|exact O].
    unfold parse_sps_body. change 8 with (Z.of_nat 8). do 3 (apply step_byte; [lia | cbn; lia|]). apply step_ue; [lia|].
    assert (Hp : parse_sps_chroma (y_profile y) = rret (1, false, 0, 0, false, false, matrix0)).
    { cbn in HI. destruct HI as [<-|[<-|[<-|[]]]]; reflexivity. }
    rewrite Hp. eapply run_bind; [apply run_ret|]. apply step_ue; [lia|]. exact R. }
  destruct X as (more & u' & o & Eb & R & O).
  assert (Nb : buf <> []) by (intros ->; symmetry in Eb; revert Eb; discriminate).
  pose proof (stored s buf _ _ _ HB Nb eq_refl R) as P. rewrite P in OK |- *.
  destruct O as [(i & -> & Hi & H)| ->]; [|discriminate]. cbn [fst] in *. exists i. split; [|exact H].
  unfold get_sps, map_set. cbn [st_sps]. rewrite Hi, Z.eqb_refl. reflexivity.
Qed.
