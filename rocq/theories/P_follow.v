(* C175: what comes after a parameter set. *)
From Verif Require Import Base S_bits M_bits S_sps M_sps S_spsrel S_follow L_base L_bits L_sps L_spsdec L_follow P_sps.

(* C175  Full statement: a parameter set that can be read is read the same whatever bytes come after it. *)
(* A sequence parameter set is, legal or not. *)
Theorem C175_sps : forall s buf more, buf_ok (buf ++ more) -> snd (parse_sps s buf) = Ok tt -> parse_sps s (buf ++ more) = parse_sps s buf.
Proof. exact sps_follow. Qed.
Print Assumptions C175_sps.

(* A picture parameter set is if it has the optional part. *)
Theorem C175_pps_partial : forall s buf more id i, buf_ok (buf ++ more) -> snd (parse_pps s buf) = Ok tt ->
  get_pps s id <> Some i -> get_pps (fst (parse_pps s buf)) id = Some i -> told i -> parse_pps s (buf ++ more) = parse_pps s buf.
Proof. exact pps_follow. Qed.
Print Assumptions C175_pps_partial.

(* But one that has not, and can be read, is another one with a byte behind it. *)
Theorem C175_pps_refuted : forall s z buf, z_tail z = None -> pps_legal (pps_chroma s z) z -> groups_readable (z_groups z) ->
  buf_ok (buf ++ [160]) -> bits_of buf = pps_bits z ->
  snd (parse_pps s buf) = Ok tt /\ (exists i, get_pps (fst (parse_pps s buf)) (z_id z) = Some i /\ pps_transform_8x8 i = false) /\
  snd (parse_pps s (buf ++ [160])) = Ok tt /\ exists i, get_pps (fst (parse_pps s (buf ++ [160]))) (z_id z) = Some i /\ pps_transform_8x8 i = true.
Proof.
  intros s z buf T L G B E. destruct (C29_pps_untrailed_partial s z buf T L G (ok_prefix _ _ B) E) as (O & i & Gi & Mi).
  set (z' := mkPpsSyn (z_id z) (z_sps z) (z_entropy z) (z_bottom z) (z_groups z) (z_l0 z) (z_l1 z) (z_weighted z) (z_bipred z) (z_qp z) (z_qs z) (z_chroma_qp z)
    (z_deblock z) (z_intra z) (z_redundant z) (Some (mkTail true None 0))).
  destruct (C29_pps_fields_partial s z' (mkTail true None 0) (repeat false 5) (buf ++ [160]) eq_refl) as (O' & i' & Gi' & Mi').
  - unfold pps_legal in *. rewrite T in L. cbn. intuition lia.
  - exact G.
  - exact B.
  - rewrite bits_of_app, E. unfold pps_bits. rewrite T. subst z'. cbn [z_id z_sps z_entropy z_bottom z_groups z_l0 z_l1 z_weighted z_bipred z_qp z_qs z_chroma_qp z_deblock z_intra z_redundant z_tail].
    rewrite <- ?app_assoc. cbn [app]. rewrite <- ?app_assoc. repeat f_equal.
  - splits; [exact O|exists i; split; [exact Gi|]|exact O'|exists i'; split; [exact Gi'|]].
    + unfold pps_matches in Mi. rewrite T in Mi. tauto.
    + unfold pps_matches in Mi'. cbn in Mi'. tauto.
Qed.
Print Assumptions C175_pps_refuted.

Example C175_case :
  let z := mkPpsSyn 0 0 true false G1 0 0 false 0 0 0 0 true false false None in
  snd (parse_sps new_store [66; 192; 30; 237; 5; 137; 208]) = Ok tt /\ snd (parse_sps new_store [66; 192; 30; 237; 5; 137; 208; 0; 0; 7]) = Ok tt /\
  pps_legal (pps_chroma new_store z) z /\ bits_of [238; 60] = pps_bits z /\
  snd (parse_pps new_store [238; 60]) = Ok tt /\ snd (parse_pps new_store [238; 60; 0]) = Err ErrUnexpectedEOF /\
  option_map pps_transform_8x8 (get_pps (fst (parse_pps new_store [238; 60])) 0) = Some false /\
  option_map pps_transform_8x8 (get_pps (fst (parse_pps new_store [238; 60; 160])) 0) = Some true /\
  option_map pps_transform_8x8 (get_pps (fst (parse_pps new_store [238; 60; 160; 1; 2; 3])) 0) = Some true /\
  exists i, get_pps (fst (parse_pps new_store [238; 60; 160])) 0 = Some i /\ told i.
Proof.
  intros z. splits; try (vm_compute; reflexivity); try (vm_compute; intuition discriminate).
  eexists. split; [vm_compute; reflexivity|]. left. reflexivity.
Qed.
