(* Lemmas for C180. *)
From Verif Require Import Base S_bits M_bits S_sps M_sps S_spsrel S_pchanged L_base L_bits L_sps L_spsdec L_changed.

Lemma pps_stored s z t rest buf : z_tail z = Some t -> pps_legal (pps_chroma s z) z -> groups_readable (z_groups z) -> buf_ok buf ->
  bits_of buf = pps_bits z ++ rest -> snd (parse_pps s buf) = Ok tt /\ get_pps (fst (parse_pps s buf)) (z_id z) = Some (parsed_pps z).
Proof.
  intros Ht HL HR HB E. pose proof (run_pps_tail s z t rest Ht HL HR) as R. rewrite <- E in R.
  assert (Hn : buf <> []). { intros ->. apply (f_equal (@length bool)) in E. unfold pps_bits, ue_code in E. rewrite !app_length in E. cbn [bits_of flat_map bin length] in E. lia. }
  apply run_new in R; [|exact HB|exact Hn]. pose proof (parsed_pps_matches z) as (Mid & _).
  unfold parse_pps. destruct (parse_pps_body (st_sps s) (new_reader buf)) as [r o]. cbn [snd] in R. subst o. split; [reflexivity|].
  unfold get_pps, map_set. cbn [fst st_pps]. rewrite Mid, Z.eqb_refl. reflexivity.
Qed.

Lemma pad_inj {A} n (d : A) l m : length l = length m -> pad n d l = pad n d m -> l = m.
Proof. intros L E. unfold pad in E. rewrite L in E. apply app_inv_tail in E. exact E. Qed.

Lemma pairs_eq (l m : list (Z * Z)) : map fst l = map fst m -> map snd l = map snd m -> l = m.
Proof.
  revert m. induction l as [|[a b] l IH]; intros [|[c d] m]; cbn; intros E F; try discriminate; [reflexivity|].
  injection E as -> E. injection F as -> F. rewrite (IH m E F). reflexivity.
Qed.

Lemma groups_same g h p : groups_legal g -> groups_legal h -> groups_readable g -> groups_readable h -> groups_match g p -> groups_match h p -> g = h.
Proof.
  intros Lg Lh Rg Rh (A1 & A2 & A3 & A4 & A5 & A6 & A7 & A8 & A9) (B1 & B2 & B3 & B4 & B5 & B6 & B7 & B8 & B9).
  rewrite A1 in B1. rewrite A2 in B2. rewrite A3 in B3. rewrite A4 in B4. rewrite A5 in B5. rewrite A6 in B6. rewrite A7 in B7. rewrite A9 in B9.
  clear A1 A2 A3 A4 A5 A6 A7 A8 A9 B8.
  destruct g as [|r|n|rs|t n d e|n i], h as [|r'|n'|rs'|t' n' d' e'|n' i'];
    cbn [groups_num groups_type groups_legal groups_readable] in *; try (exfalso; lia); try reflexivity.
  - f_equal. apply (pad_inj 8 0); [unfold zlen in *; lia|exact B3].
  - f_equal. exact B1.
  - f_equal. assert (L : length rs = length rs') by (unfold zlen in *; lia).
    apply pairs_eq; apply (pad_inj 8 0); try assumption; rewrite !map_length; exact L.
  - congruence.
  - congruence.
Qed.

Lemma pps_matches_bare y z t u i c d : z_tail y = Some t -> z_tail z = Some u -> pps_legal c y -> pps_legal d z -> groups_readable (z_groups y) -> groups_readable (z_groups z) ->
  pps_matches y i -> pps_matches z i -> bare_pps y = bare_pps z /\ pps_lists y = pps_lists z.
Proof.
  intros Ty Tz (_ & _ & Ly & _) (_ & _ & Lz & _) Ry Rz
    (A1 & A2 & A3 & A4 & A5 & A6 & A7 & A8 & A9 & A10 & A11 & A12 & A13 & A14 & A15 & A16)
    (B1 & B2 & B3 & B4 & B5 & B6 & B7 & B8 & B9 & B10 & B11 & B12 & B13 & B14 & B15 & B16).
  pose proof (groups_same _ _ i Ly Lz Ry Rz A5 B5) as G. unfold bare_pps, pps_lists. rewrite Ty, Tz in *.
  destruct A16 as (P1 & P2 & P3), B16 as (Q1 & Q2 & Q3). split; [|exact (matrix_same _ _ _ _ P2 Q2)].
  cbn [option_map]. unfold bare_tail. rewrite <- P1, <- P3, <- Q1, <- Q3, G. rewrite <- A1, <- A2, <- A3, <- A4, <- A6, <- A7, <- A8, <- A9, <- A10, <- A11, <- A12, <- A13, <- A14, <- A15.
  rewrite <- B1, <- B2, <- B3, <- B4, <- B6, <- B7, <- B8, <- B9, <- B10, <- B11, <- B12, <- B13, <- B14, <- B15. reflexivity.
Qed.
