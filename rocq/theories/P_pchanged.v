(* Property C180: a change of the picture parameter set can be seen. *)
From Verif Require Import Base S_bits M_bits S_sps M_sps S_spsrel S_pchanged L_base L_bits L_sps L_spsdec L_changed L_pchanged.

(* Missing: slice groups of types 3 and 4.  Without them parameter sets that are kept alike have the same elements, and scaling lists of the
   same values. *)
Theorem C180_partial : forall s s' y z t u b c v w i,
  z_tail y = Some t -> pps_legal (pps_chroma s y) y -> groups_readable (z_groups y) ->
  z_tail z = Some u -> pps_legal (pps_chroma s' z) z -> groups_readable (z_groups z) ->
  buf_ok b -> buf_ok c -> bits_of b = pps_bits y ++ v -> bits_of c = pps_bits z ++ w ->
  get_pps (fst (parse_pps s b)) (z_id y) = Some i -> get_pps (fst (parse_pps s' c)) (z_id z) = Some i ->
  bare_pps y = bare_pps z /\ pps_lists y = pps_lists z.
Proof.
  intros s s' y z t u b c v w i Ty Ly Ry Tz Lz Rz Hb Hc Eb Ec Gb Gc.
  destruct (pps_stored s y t v b Ty Ly Ry Hb Eb) as [_ Sb]. destruct (pps_stored s' z u w c Tz Lz Rz Hc Ec) as [_ Sc].
  rewrite Sb in Gb. rewrite Sc in Gc. injection Gb as Gb. injection Gc as Gc.
  apply (pps_matches_bare y z t u i _ _ Ty Tz Ly Lz Ry Rz); [rewrite <- Gb|rewrite <- Gc]; apply parsed_pps_matches.
Qed.
Print Assumptions C180_partial.

(* With slice groups of type 3 the elements are read from the wrong places and the last of them is not reached. *)
Theorem C180_change_refuted : exists y z b c i,
  pps_legal (pps_chroma new_store y) y /\ pps_legal (pps_chroma new_store z) z /\ bits_of b = pps_bits y ++ trailing 5 /\ bits_of c = pps_bits z ++ trailing 3 /\
  option_map t_second (z_tail y) = Some 0 /\ option_map t_second (z_tail z) = Some 1 /\
  parse_pps new_store b = (fst (parse_pps new_store b), Ok tt) /\ get_pps (fst (parse_pps new_store b)) 0 = Some i /\
  parse_pps new_store c = (fst (parse_pps new_store c), Ok tt) /\ get_pps (fst (parse_pps new_store c)) 0 = Some i.
Proof.
  exists (mkPpsSyn 0 0 false false (GChange 3 1 false 0) 1 0 false 1 1 0 1 false false false (Some (mkTail true None 0))),
         (mkPpsSyn 0 0 false false (GChange 3 1 false 0) 1 0 false 1 1 0 1 false false false (Some (mkTail true None 1))),
         [196; 69; 74; 161; 96], [196; 69; 74; 161; 40].
  eexists. split; [|split].
  - unfold pps_legal, small. cbn -[Z.pow]. unfold small. splits; try lia; exact I.
  - unfold pps_legal, small. cbn -[Z.pow]. unfold small. splits; try lia; exact I.
  - splits; vm_compute; reflexivity.
Qed.
Print Assumptions C180_change_refuted.

(* Two that differ in the second offset and are kept differently; two that differ in the code of a scaling list and are kept alike. *)
Example C180_case :
  let z m q := mkPpsSyn 3 1 true false (GRect [(0, 5); (7, 9)]) 0 0 true 2 (-6) 0 (-2) true false true (Some (mkTail false m q)) in
  let one := Some [Some (8 :: repeat 0 15); None; None; None; None; None] in let two := Some [Some [8; -16]; None; None; None; None; None] in
  pps_bits (z one 0) <> pps_bits (z two 0) /\ pps_lists (z one 0) = pps_lists (z two 0) /\ bare_pps (z one 0) = bare_pps (z two 0) /\
  bare_pps (z one 0) <> bare_pps (z one 1) /\ pps_lists (z one 0) <> pps_lists (z None 0).
Proof. intros z one two. splits; try (vm_compute; reflexivity); vm_compute; discriminate. Qed.
