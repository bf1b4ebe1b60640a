(* Parsing of encoded parameter sets. *)
From Verif Require Import Base S_bits M_bits L_base L_bits S_sps M_sps S_spsrel L_sps.
From Coq Require Import ZifyBool ZifyNat.

Lemma step_ue {B} v rest (f : Z -> rd B) u' o : 0 <= v < 2 ^ 26 - 1 -> run (f v) rest u' o -> run (rbind RUe f) (ue_code v ++ rest) u' o.
Proof. intros Hv. apply run_bind. pose proof (run_ue (ue_code v ++ rest)) as R. rewrite spec_ue_code_small in R by exact Hv. exact R. Qed.
Lemma step_se {B} v rest (f : Z -> rd B) u' o : - 2 ^ 25 < v < 2 ^ 25 -> run (f v) rest u' o -> run (rbind RSe f) (se_code v ++ rest) u' o.
Proof. intros Hv. apply run_bind. pose proof (run_se (se_code v ++ rest)) as R. rewrite spec_se_code_small in R by exact Hv. exact R. Qed.
Lemma step_flag {B} b rest (f : bool -> rd B) u' o : run (f b) rest u' o -> run (rbind RFlag f) (b :: rest) u' o.
Proof. apply run_bind. exact (run_flag (b :: rest)). Qed.
Lemma step_byte {B} (n : nat) v rest (f : Z -> rd B) u' o : (n <= 8)%nat -> 0 <= v < 2 ^ Z.of_nat n ->
  run (f v) rest u' o -> run (rbind (RByte (Z.of_nat n)) f) (u_code n v ++ rest) u' o.
Proof.
  intros Hn Hv. apply run_bind. pose proof (run_byte (Z.of_nat n) (u_code n v ++ rest) ltac:(lia)) as R.
  unfold spec_read_byte in R. rewrite Z.min_l in R by lia. rewrite spec_read_25 in R by lia. unfold ideal_read, u_code in *.
  rewrite zlen_app, zlen_bin in R. pose proof (zlen_nonneg rest).
  replace ((Z.of_nat n >? 32) || (Z.of_nat n >? Z.of_nat n + zlen rest)) with false in R by lia.
  rewrite Nat2Z.id in R. rewrite firstn_app_exact, skipn_app_exact in R by (rewrite bin_length; reflexivity).
  rewrite bval_bin, Z.mod_small in R by exact Hv. exact R.
Qed.

(* ---------- scaling lists ---------- *)
Lemma scaling_list_length : forall n first ds lastS nextS ud l ud' ds',
  scaling_list n first ds lastS nextS ud = Some (l, ud', ds') -> length l = n.
Proof.
  induction n as [|n IH]; intros first ds lastS nextS ud l ud' ds'; cbn [scaling_list].
  - intros E; inversion E; reflexivity.
  - match goal with |- context [match ?x with Some _ => _ | None => _ end] => destruct x as [[[nx u] d]|]; [|discriminate] end.
    cbv zeta. match goal with |- context [scaling_list n ?a ?b ?c ?d ?e] => destruct (scaling_list n a b c d e) as [[[l1 u1] d1]|] eqn:E1; [|discriminate] end.
    intros E; inversion E; subst. cbn [length]. f_equal. eapply IH; eauto.
Qed.

Lemma scal_entries_length i o : scal_ok1 i o -> length (scal_entries i o) = list_size i.
Proof.
  destruct o as [ds|]; cbn [scal_ok1 scal_entries].
  - intros (_ & l & d & E). rewrite E. eapply scaling_list_length; eauto.
  - intros _. apply repeat_length.
Qed.

Lemma put_slice_zeros {A} (d : A) pre l n off : off = length pre -> (length l <= n)%nat ->
  put_slice (pre ++ repeat d n) off l = Ok ((pre ++ l) ++ repeat d (n - length l)).
Proof.
  intros -> Hl. unfold put_slice. rewrite app_length, repeat_length.
  replace (length pre + length l <=? length pre + n)%nat with true by lia. f_equal.
  rewrite firstn_app_exact by reflexivity. rewrite <- app_assoc. do 2 f_equal.
  replace (length pre + length l)%nat with (length l + length pre)%nat by lia. rewrite <- skipn_skipn, skipn_app_exact by reflexivity.
  replace n with (length l + (n - length l))%nat at 1 by lia. rewrite repeat_app.
  rewrite skipn_app_exact; [reflexivity | rewrite repeat_length; reflexivity].
Qed.

Lemma lor_bit p i : 0 <= p < 2 ^ Z.of_nat i -> (i < 12)%nat -> Z.lor p (u32 (Z.shiftl 1 (Z.of_nat i))) = p + 2 ^ Z.of_nat i.
Proof.
  intros Hp Hi. rewrite Z.shiftl_1_l.
  rewrite u32_small by (split; [apply Z.pow_nonneg; lia | apply Z.pow_lt_mono_r; lia]).
  assert (L : Z.land p (2 ^ Z.of_nat i) = 0).
  { apply Z.bits_inj'. intros k Hk. rewrite Z.land_spec, Z.bits_0, Z.pow2_bits_eqb by lia.
    destruct (Z.of_nat i =? k) eqn:E; [|apply andb_false_r]. apply Z.eqb_eq in E. subst k.
    rewrite andb_true_r. destruct (Z.eq_dec p 0) as [->|]; [apply Z.bits_0|].
    apply Z.bits_above_log2; [lia|]. apply Z.log2_lt_pow2; lia. }
  rewrite Z.add_nocarry_lxor by exact L. symmetry. apply Z.lxor_lor, L.
Qed.

Lemma run_scaling_lists : forall s i p pl pd rest,
  (i + length s <= 12)%nat -> scal_ok i s -> 0 <= p < 2 ^ Z.of_nat i -> length pl = offs i -> length pd = i ->
  run (scaling_lists (length s) i (offs i) (list_size i) (mkMatrix p (pad 480 0 pl) (pad 12 false pd)))
      (scal_bits s ++ rest) rest
      (Ok (mkMatrix (p + scal_mask_from i s) (pad 480 0 (pl ++ scal_list_from i s)) (pad 12 false (pd ++ scal_defaults_from i s)))).
Proof.
  induction s as [|o s IH]; intros i p pl pd rest Hi Hs Hp Hl Hd.
  - cbn [length scaling_lists scal_bits flat_map scal_mask_from scal_list_from scal_defaults_from app].
    rewrite Z.add_0_r, !app_nil_r. apply run_ret.
  - cbn [length] in *. destruct Hs as [Ho Hs]. pose proof (scal_entries_length i o Ho) as El.
    pose proof (offs_bound (S i) ltac:(lia)) as Ob. rewrite offs_next in Ob.
    assert (Hpw : 2 ^ Z.of_nat (S i) = 2 * 2 ^ Z.of_nat i).
    { replace (Z.of_nat (S i)) with (Z.succ (Z.of_nat i)) by lia. apply Z.pow_succ_r; lia. }
    assert (K : forall p' , 0 <= p' < 2 ^ Z.of_nat (S i) ->
      p' + scal_mask_from (S i) s = p + scal_mask_from i (o :: s) ->
      run (scaling_lists (length s) (S i) (offs i + list_size i) (if (5 <=? i)%nat then 64 else list_size i)
             (mkMatrix p' (pad 480 0 (pl ++ scal_entries i o)) (pad 12 false (pd ++ [scal_default i o]))))
          (scal_bits s ++ rest) rest
          (Ok (mkMatrix (p + scal_mask_from i (o :: s)) (pad 480 0 (pl ++ scal_list_from i (o :: s)))
                 (pad 12 false (pd ++ scal_defaults_from i (o :: s)))))).
    { intros p' Hp' Ep. rewrite <- Ep, size_next, <- offs_next. cbn [scal_list_from scal_defaults_from].
      replace (pd ++ scal_default i o :: scal_defaults_from (S i) s) with ((pd ++ [scal_default i o]) ++ scal_defaults_from (S i) s)
        by (rewrite <- app_assoc; reflexivity).
      rewrite app_assoc. apply IH; try assumption; [lia | |].
      - rewrite app_length, Hl, El, offs_next. reflexivity.
      - rewrite app_length. cbn [length]. lia. }
    cbn [scaling_lists]. change (scal_bits (o :: s)) with
      ((match o with None => [false] | Some ds => true :: flat_map se_code ds end) ++ scal_bits s).
    destruct o as [ds|].
    + rewrite <- app_assoc. cbn [app]. apply step_flag.
      destruct Ho as (HF & l & d & E). cbn [scal_entries scal_default] in *. rewrite E in *.
      destruct (run_scaling (list_size i) (flat_map se_code ds ++ scal_bits s ++ rest)) as (u' & l' & o' & E' & R').
      rewrite (spec_scaling_deltas _ _ _ 8 8 _ _ _ _ (scal_bits s ++ rest) ltac:(lia) ltac:(lia) HF E) in E'.
      cbn [flat_map app] in E'. inversion E'; subst u' l' o'. cbn [bind] in R'.
      eapply run_bind; [eapply run_bind; [exact R'|]|].
      * cbv beta match. unfold pad. cbn [mx_list mx_default mx_present].
        rewrite (put_slice_zeros 0) by (lia || (rewrite El; lia)).
        rewrite (put_slice_zeros false) by (cbn [length]; lia).
        rewrite lor_bit by (assumption || lia).
        intros r G U. exists r. splits; [reflexivity | exact G | exact U].
      * cbv beta.
        replace ((pl ++ l) ++ repeat 0 (480 - length pl - length l)) with (pad 480 0 (pl ++ l)).
        2:{ unfold pad. rewrite app_length. do 2 f_equal. lia. }
        replace ((pd ++ [d]) ++ repeat false (12 - length pd - length [d])) with (pad 12 false (pd ++ [d])).
        2:{ unfold pad. rewrite app_length. do 2 f_equal. lia. }
        apply K; [lia|]. cbn [scal_mask_from]. lia.
    + cbn [app]. apply step_flag. eapply run_bind; [apply run_ret|].
      cbn [scal_entries scal_default] in *.
      replace (pad 480 0 pl) with (pad 480 0 (pl ++ repeat 0 (list_size i))).
      2:{ unfold pad. rewrite <- app_assoc, <- repeat_app. do 2 f_equal. rewrite app_length, repeat_length. lia. }
      replace (pad 12 false pd) with (pad 12 false (pd ++ [false])).
      2:{ unfold pad. rewrite <- app_assoc. f_equal. change [false] with (repeat false 1). rewrite <- repeat_app. f_equal.
          rewrite app_length, repeat_length. lia. }
      apply K; [lia|]. cbn [scal_mask_from]. lia.
Qed.

Definition mx_of (m : option scal) : matrix :=
  match m with
  | None => matrix0
  | Some s => mkMatrix (scal_mask_from 0 s) (pad 480 0 (scal_list_from 0 s)) (pad 12 false (scal_defaults_from 0 s))
  end.
Definition is_some {A} (o : option A) : bool := match o with Some _ => true | None => false end.
Lemma mx_of_matches m : matrix_matches m (is_some m) (mx_of m).
Proof. destruct m; cbn [matrix_matches mx_of is_some mx_present mx_list mx_default]; auto. Qed.

Lemma step_matrix {B} n m rest (f : bool -> matrix -> rd B) u' o : (n <= 12)%nat -> matrix_legal n m ->
  run (f (is_some m) (mx_of m)) rest u' o ->
  run (mp <- RFlag ;; mx <- rwhen mp matrix0 (scaling_lists n 0 0 16 matrix0) ;; f mp mx)
      ((match m with None => [false] | Some s => true :: scal_bits s end) ++ rest) u' o.
Proof.
  intros Hn HL R. destruct m as [s|]; cbn [app matrix_legal is_some mx_of] in *; apply step_flag.
  - destruct HL as [Hlen Hok]. unfold rwhen. eapply run_bind; [|exact R]. rewrite <- Hlen.
    exact (run_scaling_lists s 0 0 [] [] rest ltac:(lia) Hok ltac:(cbn; lia) eq_refl eq_refl).
  - eapply run_bind; [apply run_ret | exact R].
Qed.

(* ---------- SPS ---------- *)
Lemma high_profile_in p : high_profile p = true <-> In p [100; 110; 122; 244; 44; 83; 86; 118; 128; 138].
Proof.
  unfold high_profile. rewrite existsb_exists. split.
  - intros (x & Hx & E). apply Z.eqb_eq in E. subst. exact Hx.
  - intros H. exists p. split; [exact H | apply Z.eqb_refl].
Qed.

Definition parsed_chroma (y : sps_syn) : Z * bool * Z * Z * bool * bool * matrix :=
  match y_chroma y with
  | Some c => (c_idc c, y_sep y, c_luma8 c, c_chroma8 c, c_bypass c, is_some (c_matrix c), mx_of (c_matrix c))
  | None => (1, false, 0, 0, false, false, matrix0)
  end.

(* profiles the code does not know: 139, 134, 135 carry the chroma part, 183 (withdrawn) gets chroma format 0 *)
Definition profile_known (p : Z) : Prop := ~ In p [139; 134; 135; 183].

Lemma run_chroma y rest : sps_legal y -> profile_known (y_profile y) ->
  run (parse_sps_chroma (y_profile y)) (match y_chroma y with Some c => chroma_bits c | None => [] end ++ rest) rest (Ok (parsed_chroma y)).
Proof.
  intros HL HP. destruct HL as (_ & _ & _ & _ & _ & HC & _). unfold parse_sps_chroma, parsed_chroma, y_sep.
  destruct (y_chroma y) as [c|].
  - destruct HC as (HI & Hc & Hl & Hb & HM).
    replace (high_profile (y_profile y)) with true.
    2:{ symmetry. apply high_profile_in. unfold std_high_profiles, profile_known in *. cbn [In] in *. tauto. }
    unfold chroma_bits. rewrite <- !app_assoc. apply step_ue; [lia|].
    destruct (c_idc c =? 3) eqn:E3.
    + cbn [app rwhen]. apply step_flag. do 2 (apply step_ue; [lia|]). apply step_flag.
      apply (step_matrix 12 (c_matrix c) rest (fun mp mx => rret (c_idc c, c_sep c, c_luma8 c, c_chroma8 c, c_bypass c, mp, mx)));
        [lia | exact HM | apply run_ret].
    + cbn [app rwhen]. eapply run_bind; [apply run_ret|]. do 2 (apply step_ue; [lia|]). apply step_flag.
      apply (step_matrix 8 (c_matrix c) rest (fun mp mx => rret (c_idc c, false, c_luma8 c, c_chroma8 c, c_bypass c, mp, mx)));
        [lia | exact HM | apply run_ret].
  - replace (high_profile (y_profile y)) with false.
    2:{ symmetry. apply not_true_is_false. rewrite high_profile_in. intros H. apply HC. unfold std_high_profiles. cbn [In] in *. tauto. }
    replace (y_profile y =? 183) with false by (unfold profile_known in HP; cbn [In] in HP; lia).
    apply run_ret.
Qed.

Lemma run_skip_se : forall offs fuel rest, Forall (fun v => - 2 ^ 25 < v < 2 ^ 25) offs ->
  (length (flat_map se_code offs ++ rest) < fuel)%nat ->
  run (skip_se_loop fuel (zlen offs)) (flat_map se_code offs ++ rest) rest (Ok tt).
Proof.
  induction offs as [|v offs IH]; intros fuel rest HF Hf; destruct fuel as [|fuel]; try lia; cbn [skip_se_loop].
  - change (zlen (@nil Z)) with 0. apply run_ret.
  - rewrite zlen_cons. pose proof (zlen_nonneg offs). replace (zlen offs + 1 <=? 0) with false by lia.
    apply Forall_cons_iff in HF as [Hv HF]. cbn [flat_map] in *. rewrite <- app_assoc in *.
    apply step_se; [exact Hv|]. replace (zlen offs + 1 - 1) with (zlen offs) by lia. apply IH; [exact HF|].
    pose proof (spec_se_len (se_code v ++ flat_map se_code offs ++ rest)) as L.
    rewrite spec_se_code_small in L by exact Hv. lia.
Qed.

(* the poc syntaxes the parser follows *)
Definition poc_readable (p : poc_syn) : Prop :=
  match p with
  | Poc0 _ => True
  | Poc1 _ x z offs => Forall (fun v => - 2 ^ 25 < v < 2 ^ 25) (x :: z :: offs)
  | Poc2 => False
  end.
Definition parsed_poc (p : poc_syn) : Z * bool * Z * Z * Z :=
  match p with Poc0 l => (l, false, 0, 0, 0) | Poc1 a x z offs => (0, a, x, z, zlen offs) | Poc2 => (0, false, 0, 0, 0) end.

Lemma run_poc y rest : sps_legal y -> poc_readable (y_poc y) ->
  run (t <- RUe ;; r <- parse_sps_poc t ;; rret (t, r)) (poc_bits (y_poc y) ++ rest) rest (Ok (poc_type (y_poc y), parsed_poc (y_poc y))).
Proof.
  intros HL HR. destruct HL as (_ & _ & _ & _ & _ & _ & _ & HP & _). unfold poc_bits. rewrite <- app_assoc.
  apply step_ue; [destruct (y_poc y); cbn; lia|]. eapply run_bind; [|apply run_ret].
  destruct (y_poc y) as [l|a x z offs|]; cbn [poc_type parsed_poc poc_readable] in *; [| |tauto].
  - unfold parse_sps_poc. cbn [Z.eqb]. apply step_ue; [lia|]. apply run_ret.
  - apply Forall_cons_iff in HR as [Hx HR]. apply Forall_cons_iff in HR as [Hz HR]. pose proof (zlen_nonneg offs).
    unfold parse_sps_poc. cbn [Z.eqb]. rewrite <- !app_assoc. cbn [app]. apply step_flag.
    apply step_se; [lia|]. apply step_se; [lia|]. apply step_ue; [lia|]. eapply run_bind; [|apply run_ret].
    unfold skip_se. apply (run_bits_fuel (fun f => skip_se_loop f (zlen offs))). apply run_skip_se; [exact HR|lia].
Qed.

Lemma run_bind_assoc {A B C} (m : rd A) (g : A -> rd B) (f : A -> B -> rd C) u u' o :
  run (p <- (a <- m ;; b <- g a ;; rret (a, b)) ;; f (fst p) (snd p)) u u' o -> run (a <- m ;; b <- g a ;; f a b) u u' o.
Proof.
  intros R r G U. destruct (R r G U) as (r' & E & H). exists r'. split; [|exact H]. rewrite <- E. unfold rbind, rret.
  destruct (m r) as [r1 [a|e| |]]; try reflexivity. destruct (g a r1) as [r2 [b|e| |]]; reflexivity.
Qed.

Definition crop_of (y : sps_syn) (k : Z -> Z -> Z -> Z -> Z * Z) : Z * Z := let '(l, r, t, b) := y_crops y in k l r t b.
Definition parsed_sps (y : sps_syn) : sps_info :=
  let '(chroma, sep, bdl, bdc, bypass, mp, m) := parsed_chroma y in
  let '(lpoc, a0, onr, otb, ncyc) := parsed_poc (y_poc y) in
  let '(cl, cr, ct, cb) := y_crops y in
  let '(w, h) := sps_dims chroma sep (y_width_mbs y) (y_height_units y) 0 cl cr ct cb in
  mkSps (y_profile y) (y_constraints y) (y_level y) (y_id y) chroma sep bdl bdc bypass mp m (y_log2_frame_num y)
        (poc_type (y_poc y)) lpoc a0 onr otb ncyc (y_ref_frames y) (y_gaps y) (y_width_mbs y) (y_height_units y)
        0 false (y_direct8 y) (is_some (y_crop y)) cl cr ct cb (y_vui y) w h.

Lemma land2 c : c mod 4 = 0 -> Z.land c 2 = 0.
Proof.
  intros H. apply Z.bits_inj'. intros k Hk. rewrite Z.land_spec, Z.bits_0.
  destruct (Z.eq_dec k 1) as [->|Hk1].
  - replace (Z.testbit c 1) with false; [reflexivity|]. symmetry.
    rewrite <- (Z.mod_pow2_bits_low c 2 1) by lia. change (2 ^ 2) with 4. rewrite H. reflexivity.
  - replace (Z.testbit 2 k) with false; [apply andb_false_r|]. symmetry.
    change 2 with (2 ^ 1). rewrite Z.pow2_bits_eqb by lia. lia.
Qed.

Lemma run_crop y rest : sps_legal y ->
  run (c <- RFlag ;; r <- parse_sps_crop c ;; rret (c, r)) (crop_bits (y_crop y) ++ rest) rest (Ok (is_some (y_crop y), y_crops y)).
Proof.
  intros HL. destruct HL as (_ & _ & _ & _ & _ & _ & _ & _ & _ & _ & _ & HC & _). unfold y_crops, crop_bits.
  destruct (y_crop y) as [[[[l r] t] b]|]; cbn [app is_some]; apply step_flag.
  - unfold small in HC. rewrite <- !app_assoc. eapply run_bind; [|apply run_ret]. unfold parse_sps_crop.
    do 4 (apply step_ue; [lia|]). apply run_ret.
  - eapply run_bind; [|apply run_ret]. apply run_ret.
Qed.

Lemma run_sps y rest : sps_legal y -> profile_known (y_profile y) -> poc_readable (y_poc y) -> y_field y = None ->
  run parse_sps_body (sps_bits y ++ rest) rest (Ok (parsed_sps y)).
Proof.
  intros HL HP HR HF. pose proof HL as (Bp & Bc & Bm & Bl & Bi & _ & Blf & _ & Brf & Bw & Bh & _). unfold small in *.
  unfold sps_bits, parse_sps_body. rewrite HF. rewrite <- !app_assoc.
  change 8 with (Z.of_nat 8). do 3 (apply step_byte; [lia | cbn; lia|]). apply step_ue; [lia|].
  eapply run_bind; [apply run_chroma; assumption|].
  destruct (parsed_chroma y) as [[[[[[chroma sep] bdl] bdc] bypass] mp] m] eqn:EC.
  apply step_ue; [lia|].
  apply run_bind_assoc. eapply run_bind; [apply run_poc; assumption|]. cbn [fst snd].
  destruct (parsed_poc (y_poc y)) as [[[[lpoc a0] onr] otb] ncyc] eqn:EP.
  apply step_ue; [lia|]. cbn [app]. apply step_flag. do 2 (apply step_ue; [lia|]).
  change (true :: y_direct8 y :: crop_bits (y_crop y) ++ y_vui y :: rest) with (ue_code 0 ++ y_direct8 y :: crop_bits (y_crop y) ++ y_vui y :: rest).
  apply step_ue; [lia|]. cbv zeta. rewrite land2 by exact Bm. cbn [Z.eqb negb andb].
  eapply run_bind; [apply run_ret|]. apply step_flag.
  apply run_bind_assoc. eapply run_bind; [apply run_crop; assumption|]. cbn [fst snd].
  unfold parsed_sps. rewrite EC, EP. destruct (y_crops y) as [[[cl cr] ct] cb]. apply step_flag.
  destruct (sps_dims chroma sep (y_width_mbs y) (y_height_units y) 0 cl cr ct cb) as [w h]. apply run_ret.
Qed.

Lemma parsed_sps_matches y : y_field y = None -> sps_matches y (parsed_sps y) /\ sps_frame_mbs_only (parsed_sps y) = 0.
Proof.
  intros HF. unfold parsed_sps, parsed_chroma, sps_matches, y_idc. rewrite HF.
  destruct (y_crops y) as [[[cl cr] ct] cb] eqn:EC.
  destruct (y_chroma y) as [c|] eqn:Ec; destruct (y_poc y) as [l|a x z offs|] eqn:Ep; cbn [parsed_poc];
    match goal with |- context [sps_dims ?a ?b ?c ?d ?e ?f ?g ?h ?i] => destruct (sps_dims a b c d e f g h i) as [w hh] end;
    cbn -[matrix_matches mx_of]; splits; try reflexivity; try (destruct (y_crop y); reflexivity); try apply mx_of_matches;
    try (unfold y_sep; rewrite Ec; reflexivity); apply (mx_of_matches None).
Qed.

Lemma sps_dims_frame y : sps_legal y -> y_field y = None ->
  sps_width (parsed_sps y) = std_width y /\
  sps_height (parsed_sps y) = (if y_idc y =? 1 then (let '(_, _, t, b) := y_crops y in std_height y - 2 * (t + b)) mod 2 ^ 32
                               else 2 * std_height y).
Proof.
  intros HL HF. destruct HL as (_ & _ & _ & _ & _ & HC & _ & _ & _ & Bw & Bh & Bcr & Pw & Ph).
  unfold std_width, std_height, CropUnitX, CropUnitY, ChromaArrayType, fmo, SubWidthC, SubHeightC in *. rewrite HF in *.
  assert (Cr : let '(l, r, t, b) := y_crops y in small l /\ small r /\ small t /\ small b).
  { unfold y_crops. destruct (y_crop y) as [[[[l r] t] b]|]; [exact Bcr|unfold small; lia]. }
  assert (Sep : y_sep y = true -> y_idc y = 3).
  { unfold y_sep, y_idc. destruct (y_chroma y) as [c|]; [|discriminate]. intros E. apply andb_true_iff in E as [E _]. lia. }
  assert (Rg : 0 <= y_idc y <= 3) by (unfold y_idc; destruct (y_chroma y); lia).
  assert (Pc : fst (fst (fst (fst (fst (fst (parsed_chroma y)))))) = y_idc y /\ snd (fst (fst (fst (fst (fst (parsed_chroma y)))))) = y_sep y).
  { unfold parsed_chroma, y_idc, y_sep. destruct (y_chroma y); cbn; auto. }
  unfold parsed_sps. destruct (parsed_chroma y) as [[[[[[chroma sep] bdl] bdc] bypass] mp] m]. cbn [fst snd] in Pc. destruct Pc as [-> ->].
  destruct (parsed_poc (y_poc y)) as [[[[lpoc a0] onr] otb] ncyc]. clear HC Bcr.
  destruct (y_crops y) as [[[cl cr] ct] cb]. destruct Cr as (C1 & C2 & C3 & C4). unfold small in *.
  unfold sps_dims. cbn [sps_width sps_height]. unfold sub_width_c, sub_height_c.
  change (u32 (2 - 0)) with 2. generalize dependent (y_idc y). intros idc Pw Ph Sep Rg.
  assert (C : idc = 0 \/ idc = 1 \/ idc = 2 \/ idc = 3) by lia.
  destruct (y_sep y); [rewrite (Sep eq_refl) in *|]; [|destruct C as [-> |[-> |[-> | ->]]]];
    cbn [Z.eqb Pos.eqb negb andb orb] in *; change (2 * 1) with 2; change (2 * 2) with 4;
    rewrite ?(u32_small 2), ?(u32_small 4) by lia; split; unfold u32;
    repeat match goal with |- context [(?a mod 2 ^ 32)] => rewrite (Z.mod_small a (2 ^ 32)) by lia end;
    rewrite ?Z.div_1_r; lia.
Qed.

(* ---------- PPS ---------- *)
Lemma upd_pad (pre : list Z) v n i : i = length pre -> (length pre < n)%nat ->
  upd (pad n 0 pre) i v = pad n 0 (pre ++ [v]).
Proof.
  intros -> Hl. unfold pad. rewrite app_length. cbn [length].
  replace (n - length pre)%nat with (S (n - (length pre + 1))) by lia. cbn [repeat].
  generalize (repeat 0 (n - (length pre + 1))). intros z. clear Hl.
  induction pre as [|x pre IH]; cbn [length upd app]; [reflexivity|]. f_equal. exact IH.
Qed.
Lemma pad_length (l : list Z) n : (length l <= n)%nat -> zlen (pad n 0 l) = Z.of_nat n.
Proof. intros H. unfold pad, zlen. rewrite app_length, repeat_length. lia. Qed.

Lemma run_read_into (pre : list Z) v rest : (length pre < 8)%nat -> 0 <= v < 2 ^ 26 - 1 ->
  run (read_into (pad 8 0 pre) (zlen pre) RUe) (ue_code v ++ rest) rest (Ok (pad 8 0 (pre ++ [v]))).
Proof.
  intros Hl Hv. rewrite <- (upd_pad pre v 8 (Z.to_nat (zlen pre))) by (unfold zlen; lia).
  apply read_into_ok; [rewrite pad_length by lia; unfold zlen; lia|].
  pose proof (run_ue (ue_code v ++ rest)) as R. rewrite spec_ue_code_small in R by exact Hv. exact R.
Qed.

Lemma run_run_lengths : forall runs pre fuel rest num, Forall small runs -> zlen pre + zlen runs = num + 1 -> num <= 7 ->
  (length (flat_map ue_code runs ++ rest) < fuel)%nat ->
  run (run_lengths fuel (zlen pre) num (pad 8 0 pre)) (flat_map ue_code runs ++ rest) rest (Ok (pad 8 0 (pre ++ runs))).
Proof.
  induction runs as [|v runs IH]; intros pre fuel rest num HF Hn H7 Hf; destruct fuel as [|fuel]; try lia; cbn [run_lengths].
  - rewrite zlen_nil in Hn. replace (zlen pre <=? num) with false by lia. rewrite app_nil_r. apply run_ret.
  - apply Forall_cons_iff in HF as [Hv HF]. unfold small in Hv. pose proof (zlen_nonneg runs). rewrite zlen_cons in Hn.
    replace (zlen pre <=? num) with true by lia. cbn [flat_map] in *. rewrite <- app_assoc in *.
    eapply run_bind; [apply run_read_into; [unfold zlen in *; lia | lia]|].
    replace (zlen pre + 1) with (zlen (pre ++ [v])) by (rewrite zlen_app; reflexivity).
    replace (pre ++ v :: runs) with ((pre ++ [v]) ++ runs) by (rewrite <- app_assoc; reflexivity).
    apply IH; [exact HF | rewrite zlen_app; change (zlen [v]) with 1; lia | lia |].
    pose proof (spec_ue_len (ue_code v ++ flat_map ue_code runs ++ rest)) as L. rewrite spec_ue_code_small in L by lia. lia.
Qed.

Lemma run_rectangles : forall rs p1 p2 fuel rest num, Forall (fun r => small (fst r) /\ small (snd r)) rs ->
  zlen p1 = zlen p2 -> zlen p1 + zlen rs = num -> num <= 7 ->
  (length (flat_map (fun r => ue_code (fst r) ++ ue_code (snd r)) rs ++ rest) < fuel)%nat ->
  run (rectangles fuel (zlen p1) num (pad 8 0 p1) (pad 8 0 p2)) (flat_map (fun r => ue_code (fst r) ++ ue_code (snd r)) rs ++ rest) rest
      (Ok (pad 8 0 (p1 ++ map fst rs), pad 8 0 (p2 ++ map snd rs))).
Proof.
  induction rs as [|[a b] rs IH]; intros p1 p2 fuel rest num HF He Hn H7 Hf; destruct fuel as [|fuel]; try lia; cbn [rectangles].
  - rewrite zlen_nil in Hn. replace (zlen p1 <? num) with false by lia. cbn [map flat_map app]. rewrite !app_nil_r. apply run_ret.
  - apply Forall_cons_iff in HF as [[Ha Hb] HF]. unfold small in Ha, Hb. pose proof (zlen_nonneg rs). rewrite zlen_cons in Hn.
    replace (zlen p1 <? num) with true by lia. cbn [flat_map fst snd map] in *. rewrite <- !app_assoc in *.
    eapply run_bind; [apply run_read_into; [unfold zlen in *; lia | lia]|].
    rewrite He. eapply run_bind; [apply run_read_into; [unfold zlen in *; lia | lia]|].
    rewrite <- He. replace (zlen p1 + 1) with (zlen (p1 ++ [a])) by (rewrite zlen_app; reflexivity).
    replace (p1 ++ a :: map fst rs) with ((p1 ++ [a]) ++ map fst rs) by (rewrite <- app_assoc; reflexivity).
    replace (p2 ++ b :: map snd rs) with ((p2 ++ [b]) ++ map snd rs) by (rewrite <- app_assoc; reflexivity).
    apply IH; [exact HF | rewrite !zlen_app; change (zlen [a]) with 1; change (zlen [b]) with 1; lia | rewrite zlen_app; change (zlen [a]) with 1; lia | lia |].
    set (tl := flat_map _ rs ++ rest) in *.
    pose proof (spec_ue_len (ue_code a ++ ue_code b ++ tl)) as L. rewrite spec_ue_code_small in L by lia.
    pose proof (spec_ue_len (ue_code b ++ tl)) as L2. rewrite spec_ue_code_small in L2 by lia. lia.
Qed.

Lemma run_group_ids : forall ids w fuel rest, (1 <= w <= 8)%nat -> Forall (fun i => 0 <= i < 2 ^ Z.of_nat w) ids ->
  (length (flat_map (u_code w) ids ++ rest) < fuel)%nat ->
  run (group_ids fuel (zlen ids) (Z.of_nat w)) (flat_map (u_code w) ids ++ rest) rest (Ok ids).
Proof.
  induction ids as [|v ids IH]; intros w fuel rest Hw HF Hf; destruct fuel as [|fuel]; try lia; cbn [group_ids].
  - change (zlen (@nil Z)) with 0. apply run_ret.
  - rewrite zlen_cons. pose proof (zlen_nonneg ids). replace (zlen ids + 1 <=? 0) with false by lia.
    apply Forall_cons_iff in HF as [Hv HF]. cbn [flat_map] in *. rewrite <- app_assoc in *.
    apply step_byte; [lia | exact Hv |]. replace (zlen ids + 1 - 1) with (zlen ids) by lia.
    eapply run_bind; [|apply run_ret]. apply IH; [exact Hw | exact HF |].
    rewrite app_length in Hf. unfold u_code in Hf at 1. rewrite bin_length in Hf. lia.
Qed.

Definition groups_readable (g : groups_syn) : Prop := match g with GChange t _ _ _ => t = 5 | _ => True end.
Definition parsed_groups (g : groups_syn) : Z * list Z * list Z * list Z * bool * Z * Z * list Z :=
  (groups_type g, pad 8 0 (match g with G0 runs => runs | _ => [] end),
   pad 8 0 (match g with GRect rs => map fst rs | _ => [] end), pad 8 0 (match g with GRect rs => map snd rs | _ => [] end),
   match g with GChange _ _ d _ => d | _ => false end, match g with GChange _ _ _ r => r | _ => 0 end,
   match g with GExplicit _ ids => zlen ids - 1 | _ => 0 end, match g with GExplicit _ ids => ids | _ => [] end).

Lemma run_groups g rest : groups_legal g -> groups_readable g ->
  run (num <- RUe ;; p <- slice_groups num ;; rret (num, p)) (groups_bits g ++ rest) rest (Ok (groups_num g, parsed_groups g)).
Proof.
  intros HL HR. unfold groups_bits. rewrite <- app_assoc.
  apply step_ue; [destruct g; cbn [groups_num groups_legal] in *; lia|]. eapply run_bind; [|apply run_ret].
  destruct g as [|runs|n|rs|t n d rate|n ids]; cbn [groups_num groups_legal groups_readable] in *; unfold slice_groups, parsed_groups; cbn [groups_type].
  - apply run_ret.
  - destruct HL as [HL HF]. replace (zlen runs - 1 >? 0) with true by lia. rewrite <- app_assoc. apply step_ue; [lia|]. cbn [Z.eqb].
    eapply run_bind; [|apply run_ret].
    apply (run_bits_fuel (fun f => run_lengths f 0 (zlen runs - 1) (repeat 0 8))).
    apply (run_run_lengths runs []); [exact HF | rewrite zlen_nil; lia | lia | lia].
  - replace (n >? 0) with true by lia. apply step_ue; [lia|]. apply run_ret.
  - destruct HL as [HL HF]. replace (zlen rs >? 0) with true by lia. rewrite <- app_assoc. apply step_ue; [lia|]. cbn [Z.eqb].
    eapply run_bind; [apply (run_bits_fuel (fun f => rectangles f 0 (zlen rs) (repeat 0 8) (repeat 0 8)));
      apply (run_rectangles rs [] []); [exact HF | reflexivity | rewrite zlen_nil; lia | lia | lia]|]. apply run_ret.
  - subst t. destruct HL as (_ & -> & Hr). unfold small in Hr. cbn [Z.gtb Z.compare]. rewrite <- !app_assoc. apply step_ue; [lia|]. cbn [Z.eqb Pos.eqb app].
    apply step_flag. apply step_ue; [lia|]. apply run_ret.
  - destruct HL as (Hn & Hi & HF). replace (n >? 0) with true by lia. rewrite <- !app_assoc. apply step_ue; [lia|]. cbn [Z.eqb Pos.eqb].
    apply step_ue; [lia|]. replace (zlen ids - 1 + 1) with (zlen ids) by lia. rewrite (u32_small (zlen ids)) by lia.
    replace (zlen ids =? 0) with false by lia. eapply run_bind; [|apply run_ret].
    apply (run_bits_fuel (fun f => group_ids f (zlen ids) (group_bits n))).
    assert (B : group_bits n = Z.of_nat (id_width n)).
    { unfold group_bits, id_width. rewrite u32_small by lia. replace (n + 1 =? 0) with false by lia.
      rewrite Z2Nat.id by apply Z.log2_up_nonneg. reflexivity. }
    assert (L : 1 <= Z.log2_up (n + 1) <= 3).
    { pose proof (Z.log2_up_pos (n + 1) ltac:(lia)). assert (Z.log2_up (n + 1) <= Z.log2_up 8) by (apply Z.log2_up_le_mono; lia).
      change (Z.log2_up 8) with 3 in *. lia. }
    rewrite B. apply run_group_ids; [unfold id_width; lia | | lia].
    eapply Forall_impl; [|exact HF]. intros i Hi'. unfold id_width. rewrite Z2Nat.id by lia.
    pose proof (Z.log2_up_spec (n + 1) ltac:(lia)). cbv beta in *. split; [lia|]. eapply Z.lt_le_trans; [|apply H]. lia.
Qed.

Definition parsed_tail (z : pps_syn) : bool * bool * matrix * Z :=
  match z_tail z with
  | Some t => (t_8x8 t, is_some (t_matrix t), mx_of (t_matrix t), t_second t)
  | None => (false, false, matrix0, 0)
  end.
Definition parsed_pps (z : pps_syn) : pps_info :=
  let '(typ, rl, tl, br, dir, rate, ps, ids) := parsed_groups (z_groups z) in
  let '(t8, mp, m, sc) := parsed_tail z in
  mkPps (z_id z) (z_sps z) (z_entropy z) (z_bottom z) (groups_num (z_groups z)) typ rl tl br dir rate ps ids
        (z_l0 z) (z_l1 z) (z_weighted z) (z_bipred z) (z_qp z) (z_qs z) (z_chroma_qp z) (z_deblock z) (z_intra z) (z_redundant z) t8 mp m sc.

(* everything up to the tail *)
Lemma run_pps_head s z rest u' o : pps_legal (pps_chroma s z) z -> groups_readable (z_groups z) ->
  run ('(t8, mp, m, sc) <- pps_tail (pps_chroma s z) ;;
       let '(typ, rl, tl, br, dir, rate, ps, ids) := parsed_groups (z_groups z) in
       rret (mkPps (z_id z) (z_sps z) (z_entropy z) (z_bottom z) (groups_num (z_groups z)) typ rl tl br dir rate ps ids
        (z_l0 z) (z_l1 z) (z_weighted z) (z_bipred z) (z_qp z) (z_qs z) (z_chroma_qp z) (z_deblock z) (z_intra z) (z_redundant z) t8 mp m sc))
      (match z_tail z with Some t => tail_bits t | None => [] end ++ rest) u' o ->
  run (parse_pps_body (st_sps s)) (pps_bits z ++ rest) u' o.
Proof.
  intros HL HR R. destruct HL as (Hid & Hs & HG & H0 & H1 & Hb & Hqp & Hqs & Hcq & _).
  unfold pps_bits, parse_pps_body. rewrite <- !app_assoc. do 2 (apply step_ue; [lia|]). cbn [app]. cbv zeta. do 2 apply step_flag.
  apply run_bind_assoc. eapply run_bind; [apply run_groups; assumption|]. cbn [fst snd].
  unfold pps_chroma, get_sps in R. unfold parsed_groups in *.
  do 2 (apply step_ue; [lia|]). apply step_flag. change 2 with (Z.of_nat 2) at 1. apply step_byte; [lia | cbn; lia |].
  do 3 (apply step_se; [lia|]). do 3 apply step_flag. exact R.
Qed.

Lemma run_pps_tail s z t rest : z_tail z = Some t -> pps_legal (pps_chroma s z) z -> groups_readable (z_groups z) ->
  run (parse_pps_body (st_sps s)) (pps_bits z ++ rest) rest (Ok (parsed_pps z)).
Proof.
  intros Ht HL HR. apply run_pps_head; [exact HL | exact HR |]. rewrite Ht. unfold parsed_pps, parsed_tail. rewrite Ht.
  destruct HL as (_ & _ & _ & _ & _ & _ & _ & _ & _ & HT). rewrite Ht in HT. destruct HT as [H2 HM].
  apply run_bind with (u1 := rest) (a := (t_8x8 t, is_some (t_matrix t), mx_of (t_matrix t), t_second t)); [|unfold parsed_groups; apply run_ret].
  unfold pps_tail, tail_bits. rewrite <- !app_assoc. cbn [app].
  eapply run_bind; [apply run_avail|]. rewrite zlen_cons.
  match goal with |- context [zlen ?l + 1 >? 0] => pose proof (zlen_nonneg l); replace (zlen l + 1 >? 0) with true by lia end.
  apply step_flag.
  apply (step_matrix (tail_lists (pps_chroma s z) (t_8x8 t)) (t_matrix t) _
    (fun mp m => sc <- RSe ;; rret (t_8x8 t, mp, m, sc))).
  - unfold tail_lists; destruct (t_8x8 t); [destruct (_ =? _)|]; lia.
  - exact HM.
  - apply step_se; [lia|]. apply run_ret.
Qed.

Lemma run_pps_no_tail s z : z_tail z = None -> pps_legal (pps_chroma s z) z -> groups_readable (z_groups z) ->
  run (parse_pps_body (st_sps s)) (pps_bits z) [] (Ok (parsed_pps z)).
Proof.
  intros Ht HL HR. rewrite <- (app_nil_r (pps_bits z)). apply run_pps_head; [exact HL | exact HR |].
  rewrite Ht. cbn [app]. unfold parsed_pps, parsed_tail. rewrite Ht.
  apply run_bind with (u1 := []) (a := (false, false, matrix0, 0)); [|unfold parsed_groups; apply run_ret].
  unfold pps_tail. eapply run_bind; [apply run_avail|]. apply run_ret.
Qed.

Lemma spec_ue_zeros k : spec_ue (repeat false k) = ([], Err ErrUnexpectedEOF).
Proof.
  unfold spec_ue. replace (spec_zeroes (repeat false k)) with (@None (nat * list bool)); [reflexivity|].
  induction k as [|k IH]; cbn; [reflexivity|]. rewrite <- IH. reflexivity.
Qed.

Lemma run_pps_trailing s z k : z_tail z = None -> pps_legal (pps_chroma s z) z -> groups_readable (z_groups z) ->
  run (parse_pps_body (st_sps s)) (pps_bits z ++ trailing k) [] (Err ErrUnexpectedEOF).
Proof.
  intros Ht HL HR. apply run_pps_head; [exact HL | exact HR |]. rewrite Ht. cbn [app].
  eapply run_bind_err. unfold pps_tail, trailing. eapply run_bind; [apply run_avail|]. rewrite zlen_cons.
  pose proof (zlen_nonneg (repeat false k)). replace (zlen (repeat false k) + 1 >? 0) with true by lia.
  apply step_flag. destruct k as [|k]; cbn [repeat].
  - eapply run_bind_err. exact (run_flag []).
  - apply step_flag. eapply run_bind; [apply run_ret|]. eapply run_bind_err.
    pose proof (run_se (repeat false k)) as R. unfold spec_se in R. rewrite spec_ue_zeros in R. exact R.
Qed.

Lemma parsed_pps_matches z : pps_matches z (parsed_pps z).
Proof.
  unfold parsed_pps, pps_matches, groups_match, parsed_groups, parsed_tail.
  destruct (z_tail z) as [t|]; cbn -[matrix_matches mx_of pad]; splits; try reflexivity; [apply mx_of_matches | apply (mx_of_matches None)].
Qed.

Lemma run_new {A} (m : rd A) buf u' o : buf_ok buf -> buf <> [] -> run m (bits_of buf) u' o -> snd (m (new_reader buf)) = o.
Proof. intros H Hn R. destruct (R (new_reader buf) (new_good _ H Hn) (unread_new _)) as (r' & E & _). rewrite E. reflexivity. Qed.

Lemma bits_nonempty buf u : bits_of buf = u -> u <> [] -> buf <> [].
Proof. intros <- H ->. apply H. reflexivity. Qed.

(* ---------- histories ---------- *)
Lemma rbind_ext {A B} (m : rd A) (k1 k2 : A -> rd B) r :
  (forall a r', k1 a r' = k2 a r') -> rbind m k1 r = rbind m k2 r.
Proof. intros E. unfold rbind. destruct (m r) as [r1 [a|e| |]]; auto. Qed.

Lemma pps_body_ext f g r : (forall k, f k = g k) -> parse_pps_body f r = parse_pps_body g r.
Proof.
  intros E. unfold parse_pps_body. apply rbind_ext. intros id r1. apply rbind_ext. intros sid r2.
  cbv zeta. rewrite E. reflexivity.
Qed.

Lemma sprop_fresh s b k :
  get_sps (fst (parse_sprop s b)) k = or_else (fresh_sps b k) (get_sps s k) /\
  get_pps (fst (parse_sprop s b)) k = or_else (fresh_pps (st_sps s) b k) (get_pps s k).
Proof.
  unfold fresh_sps, fresh_pps, get_sps, get_pps, parse_sprop. destruct b as [|t r]; [auto|].
  destruct (Z.land t 31 =? 7).
  - unfold parse_sps. destruct (parse_sps_body (new_reader r)) as [r1 [i|e| |]]; cbn [fst st_sps st_pps or_else]; auto.
    unfold map_set. destruct (k =? sps_id i); auto.
  - destruct (Z.land t 31 =? 8); [|auto].
    unfold parse_pps. cbn [st_sps]. split.
    + destruct (parse_pps_body (st_sps s) (new_reader r)) as [r1 [i|e| |]], (parse_pps_body (st_sps new_store) (new_reader r)) as [r2 [j|e'| |]]; reflexivity.
    + destruct (parse_pps_body (st_sps s) (new_reader r)) as [r1 [i|e| |]]; cbn [fst st_pps or_else]; auto.
      unfold map_set. destruct (k =? pps_id i); reflexivity.
Qed.

Lemma sprops_cons s b r : fst (sprops s (b :: r)) = fst (sprops (fst (parse_sprop s b)) r).
Proof.
  cbn [sprops]. destruct (parse_sprop s b) as [s1 o]. cbn [fst]. destruct (sprops s1 r) as [s2 os]. reflexivity.
Qed.

Lemma last_sps_ext bufs : forall f g k, (forall k, f k = g k) -> last_sps f bufs k = last_sps g bufs k.
Proof. induction bufs as [|b r IH]; intros f g k E; cbn [last_sps]; [apply E|]. apply IH. intros j. rewrite E. reflexivity. Qed.
Lemma fresh_pps_ext f g b k : (forall k, f k = g k) -> fresh_pps f b k = fresh_pps g b k.
Proof.
  intros E. unfold fresh_pps, parse_sprop. destruct b as [|t r]; [reflexivity|].
  destruct (Z.land t 31 =? 7).
  - unfold parse_sps, get_pps. destruct (parse_sps_body (new_reader r)) as [r1 [i|e| |]]; reflexivity.
  - destruct (Z.land t 31 =? 8); [|reflexivity]. unfold parse_pps, get_pps. cbn [st_sps].
    rewrite (pps_body_ext f g _ E). destruct (parse_pps_body g (new_reader r)) as [r1 [i|e| |]]; reflexivity.
Qed.
Lemma last_pps_ext bufs : forall f g h j k, (forall k, f k = g k) -> (forall k, h k = j k) -> last_pps f h bufs k = last_pps g j bufs k.
Proof.
  induction bufs as [|b r IH]; intros f g h j k E1 E2; cbn [last_pps]; [apply E2|]. apply IH; intros i.
  - rewrite E1. reflexivity.
  - rewrite E2, (fresh_pps_ext f g b i E1). reflexivity.
Qed.

Lemma sprops_last : forall bufs s k,
  get_sps (fst (sprops s bufs)) k = last_sps (get_sps s) bufs k /\
  get_pps (fst (sprops s bufs)) k = last_pps (get_sps s) (get_pps s) bufs k.
Proof.
  induction bufs as [|b r IH]; intros s k; [split; reflexivity|]. rewrite sprops_cons. cbn [last_sps last_pps].
  destruct (IH (fst (parse_sprop s b)) k) as [I1 I2]. rewrite I1, I2. split.
  - apply last_sps_ext. intros j. apply sprop_fresh.
  - apply last_pps_ext; intros j; apply sprop_fresh.
Qed.
