(* C165: parameter sets in either order. *)
From Verif Require Import Base S_bits M_bits S_sps M_sps S_spsrel S_either L_base L_bits L_sps L_spsdec L_either P_sps.
From Coq Require Import ZifyBool ZifyNat Permutation.

(* Full statement: what is known after a sequence parameter set and a picture parameter set does not depend on which of them came first (H.264 7.4.1.2.1:
   a set is referred to only when it is activated).
   It holds, for any bytes, if the picture parameter set has no scaling matrix for the 8x8 transform. *)
Theorem C165_plain_partial : forall (s : store) (b1 b2 : bytes),
  snd (parse_pps s b2) = Ok tt ->
  (forall id p, get_pps (fst (parse_pps (mkStore (get_sps s) (fun _ => None)) b2)) id = Some p -> pps_transform_8x8 p = false \/ pps_scaling_matrix_present p = false) ->
  let first := parse_sps s b1 in let other := parse_pps s b2 in
  snd (parse_pps (fst first) b2) = snd other /\ snd (parse_sps (fst other) b1) = snd first /\
  same_sets (fst (parse_pps (fst first) b2)) (fst (parse_sps (fst other) b1)).
Proof.
  intros s b1 b2 O K first other. unfold first, other, parse_sps.
  assert (X : exists r p, parse_pps_body (st_sps s) (new_reader b2) = (r, Ok p) /\ pps_transform_8x8 p && pps_scaling_matrix_present p = false).
  { unfold parse_pps, get_sps in K, O. cbn [st_sps] in K. change (fun id : Z => st_sps s id) with (st_sps s) in K.
    destruct (parse_pps_body (st_sps s) (new_reader b2)) as [r [p| | |]]; try discriminate. exists r, p. split; [reflexivity|].
    specialize (K (pps_id p) p). unfold get_pps, map_set in K. cbn [fst st_pps] in K. rewrite Z.eqb_refl in K. destruct (K eq_refl) as [->| ->]; [reflexivity|apply andb_false_r]. }
  destruct X as (r & p & E & KK).
  assert (B : forall f, parse_pps_body f (new_reader b2) = (r, Ok p)) by (intros f; exact (body_plain (st_sps s) f _ _ _ E KK)).
  unfold parse_pps, same_sets. rewrite E. destruct (parse_sps_body (new_reader b1)) as [r1 [i| | |]]; cbn [fst snd st_sps st_pps]; rewrite B; repeat split.
Qed.
Print Assumptions C165_plain_partial.

(* And if the sequence parameter set does not change whether its number stands for a 4:4:4 stream, as an unknown one does. *)
Theorem C165_same_partial : forall (s : store) (b1 b2 : bytes),
  let first := parse_sps s b1 in let other := parse_pps s b2 in
  (forall id, read_as_444 s id <-> read_as_444 (fst first) id) ->
  snd (parse_pps (fst first) b2) = snd other /\ snd (parse_sps (fst other) b1) = snd first /\
  same_sets (fst (parse_pps (fst first) b2)) (fst (parse_sps (fst other) b1)).
Proof.
  intros s b1 b2 first other H.
  assert (B : parse_pps_body (st_sps (fst first)) (new_reader b2) = parse_pps_body (st_sps s) (new_reader b2)).
  { apply body_chroma. intros id. specialize (H id). unfold read_as_444, get_sps in H. destruct (st_sps s id), (st_sps (fst first) id); lia. }
  unfold first, other, parse_sps, parse_pps, same_sets in *. destruct (parse_sps_body (new_reader b1)) as [r1 [i| | |]]; cbn [fst snd st_sps st_pps] in *; try rewrite B;
    destruct (parse_pps_body (st_sps s) (new_reader b2)) as [r2 [p| | |]]; repeat split.
Qed.
Print Assumptions C165_same_partial.

(* False of every other: a picture parameter set with a scaling matrix for the 8x8 transform of a stream that is not 4:4:4, well formed, whose sequence
   parameter set comes after it.  The other way round it is read as it was written; this way it is never. *)
Theorem C165_order_refuted : forall (s : store) (y : sps_syn) (z : pps_syn) (t : tail_syn) (l : scal) (b1 b2 : bytes) (rest1 rest2 : list bool),
  sps_legal y -> profile_known (y_profile y) -> poc_readable (y_poc y) -> y_field y = None -> y_idc y <> 3 ->
  z_sps z = y_id y -> z_tail z = Some t -> t_8x8 t = true -> t_matrix t = Some l -> pps_legal (y_idc y) z -> groups_readable (z_groups z) ->
  buf_ok b1 -> bits_of b1 = sps_bits y ++ rest1 -> buf_ok b2 -> bits_of b2 = pps_bits z ++ rest2 ->
  get_sps s (y_id y) = None -> get_pps s (z_id z) = None ->
  (exists p, get_pps (fst (parse_pps (fst (parse_sps s b1)) b2)) (z_id z) = Some p /\ pps_matches z p) /\
  (forall p, get_pps (fst (parse_sps (fst (parse_pps s b2)) b1)) (z_id z) = Some p -> ~ pps_matches z p).
Proof.
  intros s y z t l b1 b2 rest1 rest2 Ly Ky Ry Fy Cy Sz Tz T8 Mz Lz Gz B1 E1 B2 E2 N1 N2. split.
  - destruct (C26_sps_fields_partial s y rest1 b1 Ly Ky Ry Fy B1 E1) as (_ & i & G1 & M1 & _).
    assert (C : pps_chroma (fst (parse_sps s b1)) z = y_idc y).
    { unfold pps_chroma. rewrite Sz, G1. destruct M1 as (_ & _ & _ & _ & MC & _). exact MC. }
    destruct (C29_pps_fields_partial (fst (parse_sps s b1)) z t rest2 b2 Tz ltac:(rewrite C; exact Lz) Gz B2 E2) as (_ & p & G & M). exists p. split; assumption.
  - intros p G.
    assert (L1 : pps_legal 1 z).
    { unfold pps_legal in *. rewrite Tz in *. unfold tail_lists in *. rewrite T8 in *. change (1 =? 3) with false. replace (y_idc y =? 3) with false in Lz by lia. exact Lz. }
    assert (Hn : b2 <> []). { intros ->. apply (f_equal (@length bool)) in E2. unfold pps_bits, ue_code in E2. rewrite !app_length in E2. cbn [bits_of flat_map bin length] in E2. lia. }
    assert (G2 : get_pps (fst (parse_pps s b2)) (z_id z) = Some p).
    { unfold parse_sps in G. destruct (parse_sps_body (new_reader b1)) as [r1 [i| | |]]; exact G. }
    pose proof (body_astray (st_sps s) z t l rest2 Tz T8 Mz L1 Gz ltac:(rewrite Sz; exact N1) (new_reader b2) (new_good b2 B2 Hn)) as A.
    unfold parse_pps in G2. destruct (parse_pps_body (st_sps s) (new_reader b2)) as [r2 [q| | |]]; cbn [fst] in G2; try congruence.
    destruct (A ltac:(rewrite unread_new; exact E2) r2 q eq_refl) as [I W]. unfold get_pps, map_set in G2. cbn [st_pps] in G2. rewrite I, Z.eqb_refl in G2. injection G2 as ->.
    intros M. apply W. unfold pps_matches in M. rewrite Tz, Mz in M. unfold matrix_matches in M. tauto.
Qed.
Print Assumptions C165_order_refuted.

(* Any number of them, in any order: with numbers of their own and without such a matrix, all are understood and the same is known in the end, whatever was
   known before. *)
Theorem C165_any_partial : forall (s : store) (bufs bufs' : list bytes),
  Forall without_8x8_matrix bufs -> ForallOrdPairs own_numbers bufs -> Permutation bufs bufs' ->
  Forall (fun o => o = Ok tt) (snd (sprops s bufs')) /\ same_sets (fst (sprops s bufs)) (fst (sprops s bufs')) /\
  (forall b id i, In b bufs -> get_sps (alone b) id = Some i -> get_sps (fst (sprops s bufs')) id = Some i) /\
  (forall b id p, In b bufs -> get_pps (alone b) id = Some p -> get_pps (fst (sprops s bufs')) id = Some p).
Proof.
  intros s bufs bufs' F P H. pose proof (sprops_perm s _ _ H F P) as E. apply (Permutation_Forall H) in F. apply (own_perm _ _ H) in P.
  destruct (sprops_alone bufs' s F P) as [A B]. split; [exact A|]. split; [exact E|].
  split; intros b id v I G; apply (Permutation_in b H) in I; destruct (B id) as (B1 & _ & B3 & _); eauto.
Qed.
Print Assumptions C165_any_partial.

(* a sequence parameter set and two picture parameter sets, of which one has a matrix without the 8x8 transform *)
Example C165_any_case :
  let sps := [103; 100; 0; 30; 172; 218; 11; 19; 144] in let p0 := [104; 238; 60; 48] in let p1 := [104; 91; 143; 24; 68; 6; 128] in
  Forall without_8x8_matrix [sps; p0; p1] /\ ForallOrdPairs own_numbers [sps; p0; p1] /\
  map (fun l => option_map pps_second_chroma_qp_offset (get_pps (fst (sprops new_store l)) 1)) [[sps; p0; p1]; [p1; sps; p0]; [p1; p0; sps]] = [Some 3; Some 3; Some 3].
Proof.
  cbv zeta. pose proof (fun r1 i => alone_sps [100; 0; 30; 172; 218; 11; 19; 144] r1 i) as A. edestruct A as [A1 A2]; [vm_compute; reflexivity|]. clear A.
  edestruct (alone_pps [238; 60; 48]) as [B1 B2]; [vm_compute; reflexivity|left; reflexivity|]. edestruct (alone_pps [91; 143; 24; 68; 6; 128]) as [C1 C2]; [vm_compute; reflexivity|left; reflexivity|].
  split; [repeat (constructor; [assumption|]); constructor|]. split; [|vm_compute; reflexivity].
  cbn [sps_id pps_id] in A2, B2, C2.
  repeat (apply FOP_cons || apply FOP_nil || apply Forall_cons || apply Forall_nil); intros id; specialize (A2 id); specialize (B2 id); specialize (C2 id); split; try (left; tauto); try (right; tauto).
  destruct C2 as [_ ->], B2 as [_ ->]. destruct (id =? 0) eqn:Q; [right|left; reflexivity]. replace (id =? 1) with false by lia. reflexivity.
Qed.

(* 176 by 144, High profile, 4:2:0; the matrix asks for the default list for intra luma.  Two values of the chroma offset behind it. *)
Example C165_case :
  let y := mkSpsSyn 100 0 30 0 (Some (mkChroma 1 false 0 0 false None)) 0 (Poc0 2) 1 false 10 8 None true None false in
  let z v := mkPpsSyn 0 0 true false G1 0 0 false 0 0 0 0 true false false (Some (mkTail true (Some [Some [-8]; None; None; None; None; None; None; None]) v)) in
  let b1 := [100; 0; 30; 172; 218; 11; 19; 144] in let p9 := [238; 60; 225; 16; 1; 40] in let p0 := [238; 60; 225; 16; 24] in
  let offset s := option_map pps_second_chroma_qp_offset (get_pps s 0) in
  sps_legal y /\ pps_legal (y_idc y) (z 9) /\ pps_legal (y_idc y) (z 0) /\
  bits_of b1 = sps_bits y ++ trailing 4 /\ bits_of p9 = pps_bits (z 9) ++ trailing 3 /\ bits_of p0 = pps_bits (z 0) ++ trailing 3 /\
  offset (fst (parse_pps (fst (parse_sps new_store b1)) p9)) = Some 9 /\ offset (fst (parse_pps (fst (parse_sps new_store b1)) p0)) = Some 0 /\
  offset (fst (parse_sps (fst (parse_pps new_store p9)) b1)) = Some 0 /\ snd (parse_pps new_store p0) = Err ErrUnexpectedEOF.
Proof.
  cbv zeta. splits; try (vm_compute; reflexivity).
  - unfold sps_legal, std_width, std_height, small, std_high_profiles, matrix_legal; cbn -[Z.pow]; splits; try lia; tauto.
  - unfold pps_legal, groups_legal, matrix_legal, tail_lists; cbn -[Z.pow]. splits; try lia; try exact Logic.I; try reflexivity; [constructor; [lia|constructor]|do 2 eexists; vm_compute; reflexivity].
  - unfold pps_legal, groups_legal, matrix_legal, tail_lists; cbn -[Z.pow]. splits; try lia; try exact Logic.I; try reflexivity; [constructor; [lia|constructor]|do 2 eexists; vm_compute; reflexivity].
Qed.
