From Verif Require Import Base S_bits M_bits S_sps M_sps S_spsrel L_base L_bits L_sps.
From Coq Require Import ZifyBool ZifyNat.

Lemma rbind_ok {A B} (m : rd A) (f : A -> rd B) r r' b : rbind m f r = (r', Ok b) -> exists r1 a, m r = (r1, Ok a) /\ f a r1 = (r', Ok b).
Proof. unfold rbind. destruct (m r) as [r1 [a|e| |]]; intros E; try discriminate E. exists r1, a. split; [reflexivity|exact E]. Qed.
Lemma infer_body r r' i : parse_sps_body r = (r', Ok i) ->
  (high_profile (sps_profile_idc i) = false -> sps_chroma_format_idc i = (if sps_profile_idc i =? 183 then 0 else 1) /\ sps_separate_color_plane i = false /\
     sps_bit_depth_luma i = 0 /\ sps_bit_depth_chroma i = 0 /\ sps_zero_transform_bypass i = false /\ sps_scaling_matrix_present i = false /\ sps_matrix i = matrix0) /\
  (Z.land (sps_constraint_set i) 2 <> 0 -> sps_profile_idc i = 77 \/ sps_profile_idc i = 88 \/ sps_profile_idc i = 100 -> sps_frame_mbs_only i = 1).
Proof.
  unfold parse_sps_body. intros E.
  apply rbind_ok in E as (r1 & profile & _ & E). apply rbind_ok in E as (r2 & cs & _ & E). apply rbind_ok in E as (r3 & lv & _ & E). apply rbind_ok in E as (r4 & id & _ & E).
  apply rbind_ok in E as (r5 & x & X & E). destruct x as [[[[[[chroma sep] bdl] bdc] bypass] mp] m].
  apply rbind_ok in E as (r6 & lfn & _ & E). apply rbind_ok in E as (r7 & poct & _ & E). apply rbind_ok in E as (r8 & y & _ & E). destruct y as [[[[lpoc a0] onr] otb] ncyc].
  apply rbind_ok in E as (r9 & mnrf & _ & E). apply rbind_ok in E as (r10 & gaps & _ & E). apply rbind_ok in E as (r11 & wmbs & _ & E). apply rbind_ok in E as (r12 & hmap & _ & E).
  apply rbind_ok in E as (r13 & fmo & _ & E). cbv zeta in E. apply rbind_ok in E as (r14 & mbaff & _ & E). apply rbind_ok in E as (r15 & d8 & _ & E). apply rbind_ok in E as (r16 & crop & _ & E).
  apply rbind_ok in E as (r17 & z & _ & E). destruct z as [[[cl cr] ct] cb]. apply rbind_ok in E as (r18 & vui & _ & E).
  match type of E with (let '(_, _) := ?d in _) _ = _ => destruct d as [w h] end.
  unfold rret in E. injection E as _ <-. cbn [sps_profile_idc sps_chroma_format_idc sps_separate_color_plane sps_bit_depth_luma sps_bit_depth_chroma sps_zero_transform_bypass sps_scaling_matrix_present sps_matrix sps_constraint_set sps_frame_mbs_only].
  split.
  - intros H. unfold parse_sps_chroma in X. rewrite H in X. unfold rret in X. injection X as _ <- <- <- <- <- <- <-. splits; reflexivity.
  - intros H P. replace (Z.land cs 2 =? 0) with false by lia. replace ((profile =? 77) || (profile =? 88) || (profile =? 100)) with true by lia. reflexivity.
Qed.
Lemma not_high p : ~ In p std_high_profiles -> high_profile p = false.
Proof.
  intros N. apply not_true_is_false. intros H. apply N. unfold high_profile in H. apply existsb_exists in H as (q & I & E). apply Z.eqb_eq in E. subst q. cbn in I |- *. tauto.
Qed.
Lemma infer_store s buf : snd (parse_sps s buf) = Ok tt -> exists i r r', parse_sps_body r = (r', Ok i) /\ get_sps (fst (parse_sps s buf)) (sps_id i) = Some i.
Proof.
  unfold parse_sps, get_sps. destruct (parse_sps_body (new_reader buf)) as [r [i|e| |]] eqn:E; intros H; try discriminate H.
  exists i, (new_reader buf), r. split; [exact E|]. cbn [fst st_sps]. unfold map_set. rewrite Z.eqb_refl. reflexivity.
Qed.
