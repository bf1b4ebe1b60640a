(* Properties C01-C08: the bit reader.  [reached buf r]: r is NewBitReader(buf) after some calls;
   [rest_bits buf (available r)]: the bits of buf not yet read according to Available(). *)
From Verif Require Import Base S_bits M_bits L_base L_bits.

(* ---- C01 ---- *)
(* Full statement: the same without [n + available r' mod 8 <= 32].  It is false of the code
   (C01_read_bits_refuted); missing are exactly the reads that touch five bytes. *)
Theorem C01_read_bits_partial : forall buf r n r' v,
  buf_ok buf -> buf <> [] -> reached buf r -> 0 <= n < 2 ^ 64 ->
  read_bits r n = (r', Ok v) ->
  n + available r' mod 8 <= 32 ->
  let u := rest_bits buf (available r) in
  v = bval (firstn (Z.to_nat n) u) /\ available r' = available r - n /\
  rest_bits buf (available r') = skipn (Z.to_nat n) u /\ reached buf r'.
Proof.
  intros buf r n r' v Hb Hne HR Hn E Hw u.
  pose proof (reached_step buf r (OpRead n) HR Hn) as Hst. cbn in Hst. rewrite E in Hst. cbn in Hst.
  destruct (reached_sim _ _ _ buf r (sim_read n ltac:(lia)) Hb Hne HR) as (r1 & E1 & H1 & B1 & U1 & A1 & R1).
  fold u in E1, U1. rewrite E in E1. injection E1 as <- Ev.
  destruct (reached_ok buf r Hb Hne HR) as (H & B & U).
  unfold spec_read in *. destruct ((n >? 32) || (n >? zlen u)) eqn:G; [discriminate|]. cbn [fst snd] in *.
  injection Ev as ->. rewrite Z.mod_small.
  - splits; auto; [|congruence].
    rewrite A1, U1, zlen_skipn. rewrite (available_unread r H), U. fold u. lia.
  - unfold acc_width. rewrite <- U1, <- A1.
    pose proof (bval_range (firstn (Z.to_nat n) u)) as Rg. rewrite zlen_firstn in Rg.
    replace (Z.min (Z.of_nat (Z.to_nat n)) (zlen u)) with n in Rg by lia.
    split; [lia|]. apply Z.lt_le_trans with (2 ^ n); [lia|]. apply Z.pow_le_mono_r; lia.
Qed.
Print Assumptions C01_read_bits_partial.

(* What the code returns in every case: the top bits that fell out of the accumulator are lost. *)
Theorem C01_read_bits_exact : forall buf r n r' v,
  buf_ok buf -> buf <> [] -> reached buf r -> 0 <= n < 2 ^ 64 ->
  read_bits r n = (r', Ok v) ->
  let u := rest_bits buf (available r) in
  v = bval (firstn (Z.to_nat n) u) mod 2 ^ (32 - available r' mod 8) /\
  rest_bits buf (available r') = skipn (Z.to_nat n) u.
Proof.
  intros buf r n r' v Hb Hne HR Hn E u.
  destruct (reached_sim _ _ _ buf r (sim_read n ltac:(lia)) Hb Hne HR) as (r1 & E1 & H1 & B1 & U1 & A1 & R1).
  fold u in E1, U1. rewrite E in E1. injection E1 as <- Ev.
  unfold spec_read in *. destruct ((n >? 32) || (n >? zlen u)) eqn:G; [discriminate|]. cbn [fst snd] in *.
  injection Ev as ->. unfold acc_width. rewrite A1, U1. split; [reflexivity|congruence].
Qed.
Print Assumptions C01_read_bits_exact.

(* False whenever the bits that are read, as a number, do not fit in what the accumulator keeps: every read of the kind that touches five
   bytes and has a one among the bits in the first of them. *)
Theorem C01_read_bits_refuted : forall buf r n r' v,
  buf_ok buf -> buf <> [] -> reached buf r -> 0 <= n < 2 ^ 64 -> read_bits r n = (r', Ok v) ->
  let right := bval (firstn (Z.to_nat n) (rest_bits buf (available r))) in
  2 ^ (32 - available r' mod 8) <= right -> v < right.
Proof.
  intros buf r n r' v Hb Hne HR Hn E right L. destruct (C01_read_bits_exact buf r n r' v Hb Hne HR Hn E) as (V & _). fold right in V. rewrite V.
  apply Z.lt_le_trans with (2 ^ (32 - available r' mod 8)); [|exact L]. apply Z.mod_pos_bound. apply Z.pow_pos_nonneg; [lia|].
  pose proof (Z.mod_pos_bound (available r') 8). lia.
Qed.
Print Assumptions C01_read_bits_refuted.

(* the second read of [4; 32] bits in five bytes of ones loses four of its bits *)
Example C01_refuted_case : exists buf r r' v,
  buf_ok buf /\ buf <> [] /\ reached buf r /\ read_bits r 32 = (r', Ok v) /\ 2 ^ (32 - available r' mod 8) <= bval (firstn 32 (rest_bits buf (available r))) /\
  v = 2 ^ 28 - 1 /\ bval (firstn 32 (rest_bits buf (available r))) = 2 ^ 32 - 1.
Proof.
  exists [255; 255; 255; 255; 255]. exists (fst (exec_ops (new_reader [255; 255; 255; 255; 255]) [OpRead 4])).
  eexists; eexists. splits.
  - split; [repeat constructor; cbn; lia | cbn; lia].
  - discriminate.
  - exists [OpRead 4]. split; [repeat constructor; cbn; lia|reflexivity].
  - vm_compute. reflexivity.
  - vm_compute. discriminate.
  - reflexivity.
  - reflexivity.
Qed.

Example C01_case :
  read_bits (fst (exec_ops (new_reader [0xA5; 0x3C; 0x7F]) [OpRead 3; OpUE])) 9 =
  (mkReader [0xA5; 0x3C; 0x7F] 3 2 1, Ok 120) /\
  bval (firstn 9 (rest_bits [0xA5; 0x3C; 0x7F] 16)) = 120.
Proof. split; reflexivity. Qed.

(* ---- C02 ---- *)
Theorem C02_bounds : forall buf r n,
  buf_ok buf -> buf <> [] -> reached buf r -> 0 <= n < 2 ^ 64 ->
  0 <= available r <= 8 * zlen buf /\
  (32 < n \/ available r < n ->
     read_bits r n = (r, Err ErrUnexpectedEOF) /\ skip_bits r n = (r, Err ErrUnexpectedEOF)) /\
  (n <= 32 -> n <= available r ->
     exists r' v, read_bits r n = (r', Ok v) /\ skip_bits r n = (r', Ok tt) /\
       0 <= v < 2 ^ n /\ available r' = available r - n).
Proof.
  intros buf r n Hb Hne HR Hn. destruct (reached_ok buf r Hb Hne HR) as (H & B & U).
  destruct (reached_sim _ _ _ buf r (sim_read n ltac:(lia)) Hb Hne HR) as (r1 & E1 & H1 & B1 & U1 & A1 & R1).
  pose proof (skip_read_agree r n H ltac:(congruence) ltac:(lia)) as SK. rewrite E1 in SK. cbn [fst snd] in SK.
  pose proof (zlen_nonneg (unread r)). pose proof (zlen_unread r H) as ZU. destruct (pos_bound r H) as [P1 P2].
  pose proof (available_unread r H) as AV. rewrite <- U in *. rewrite AV in *. set (u := unread r) in *.
  unfold spec_read in *.
  split; [rewrite <- B; lia|]. split.
  - intros C. replace ((n >? 32) || (n >? zlen u)) with true in * by lia. cbn [fst snd] in *.
    assert (r1 = r) as ->.
    { unfold read_bits in E1. rewrite AV in E1. replace ((n >? 32) || (n >? zlen u)) with true in E1 by lia. congruence. }
    auto.
  - intros C1 C2. replace ((n >? 32) || (n >? zlen u)) with false in * by lia. cbn [fst snd] in *.
    do 2 eexists; splits; try eassumption.
    + apply Z.mod_pos_bound. apply Z.pow_pos_nonneg; unfold acc_width; pose proof (Z.mod_pos_bound (zlen (skipn (Z.to_nat n) u)) 8); lia.
    + pose proof (bval_range (firstn (Z.to_nat n) u)) as Rg. rewrite zlen_firstn in Rg.
      replace (Z.min (Z.of_nat (Z.to_nat n)) (zlen u)) with n in Rg by lia.
      eapply Z.le_lt_trans; [apply Z.mod_le|]; try lia.
      apply Z.pow_pos_nonneg; unfold acc_width; pose proof (Z.mod_pos_bound (zlen (skipn (Z.to_nat n) u)) 8); lia.
    + rewrite A1, U1, zlen_skipn. lia.
Qed.
Print Assumptions C02_bounds.

(* Any history of calls behaves as the abstract machine over the list of unread bits, and no
   call panics. *)
Theorem C02_history : forall buf os,
  buf_ok buf -> buf <> [] -> Forall rop_ok os ->
  snd (exec_ops (new_reader buf) os) = snd (spec_ops (bits_of buf) os) /\
  available (fst (exec_ops (new_reader buf) os)) = zlen (fst (spec_ops (bits_of buf) os)) /\
  Forall rout_good (snd (exec_ops (new_reader buf) os)).
Proof.
  intros buf os Hb Hne Ho.
  destruct (exec_ops_spec os (new_reader buf) (new_reader_ok _ Hb) Hne Ho) as (r' & E & H' & _ & U').
  rewrite unread_new in *. rewrite E. cbn [fst snd]. splits; auto.
  - rewrite available_unread, U' by exact H'. reflexivity.
  - apply spec_ops_good.
Qed.
Print Assumptions C02_history.

(* The empty buffer: positive widths fail cleanly, but a zero-width read is an out-of-range access. *)
Theorem C02_empty : forall n, 0 < n ->
  read_bits (new_reader []) n = (new_reader [], Err ErrUnexpectedEOF) /\
  skip_bits (new_reader []) n = (new_reader [], Err ErrUnexpectedEOF).
Proof.
  intros n Hn. split.
  - change (new_reader []) with (mkReader [] 0 0 0). rewrite read_bits_empty by lia.
    replace (n =? 0) with false by lia. reflexivity.
  - unfold skip_bits. change (available (new_reader [])) with 0.
    replace ((n >? 32) || (n >? 0)) with true by lia. reflexivity.
Qed.
Print Assumptions C02_empty.

Theorem C02_zero_width_refuted : exists buf r n,
  reached buf r /\ 0 <= n <= 32 /\ n <= available r /\ snd (read_bits r n) = Panic.
Proof.
  exists [], (new_reader []), 0. splits; try (cbn; lia); [apply reached_new|reflexivity].
Qed.
Print Assumptions C02_zero_width_refuted.

Example C02_case :
  snd (exec_ops (new_reader [0x4D]) [OpUE; OpRead 6; OpSkip 5; OpFlag]) =
  [OutZ (Ok 1); OutZ (Err ErrUnexpectedEOF); OutU (Ok tt); OutB (Err ErrUnexpectedEOF)].
Proof. reflexivity. Qed.

(* ---- C03 ---- *)
(* Full statement: every v < 2^32-1 at every position.  False of the code (C03_ue_refuted);
   proved when the suffix fits the accumulator, in particular for every v < 2^26-1. *)
Theorem C03_ue_partial : forall buf r v rest,
  buf_ok buf -> buf <> [] -> reached buf r ->
  rest_bits buf (available r) = ue_code v ++ rest ->
  0 <= v < 2 ^ 32 - 1 ->
  v < 2 ^ 26 - 1 \/ Z.log2 (v + 1) + zlen rest mod 8 <= 32 ->
  exists r', read_ue r = (r', Ok v) /\ available r' = zlen rest /\ rest_bits buf (available r') = rest.
Proof.
  intros buf r v rest Hb Hne HR E Hv Hc.
  destruct (reached_sim _ _ _ buf r sim_ue Hb Hne HR) as (r1 & E1 & H1 & B1 & U1 & A1 & R1).
  rewrite E in *. assert (S1 : spec_ue (ue_code v ++ rest) = (rest, Ok v)).
  { destruct Hc; [apply spec_ue_code_small; lia | apply spec_ue_code; unfold acc_width; lia]. }
  rewrite S1 in *. cbn [fst snd] in *. exists r1. splits; congruence.
Qed.
Print Assumptions C03_ue_partial.

Theorem C03_ue_exact : forall buf r v rest,
  buf_ok buf -> buf <> [] -> reached buf r ->
  rest_bits buf (available r) = ue_code v ++ rest -> 0 <= v < 2 ^ 32 - 1 ->
  let z := Z.log2 (v + 1) in
  exists r', read_ue r = (r', Ok ((v + 1 - 2 ^ z) mod 2 ^ (32 - zlen rest mod 8) + 2 ^ z - 1)) /\
    rest_bits buf (available r') = rest.
Proof.
  intros buf r v rest Hb Hne HR E Hv z.
  assert (Hz : Z.log2 (v + 1) < 32) by (apply Z.log2_lt_pow2; lia).
  destruct (reached_sim _ _ _ buf r sim_ue Hb Hne HR) as (r1 & E1 & H1 & B1 & U1 & A1 & R1).
  rewrite E in *. rewrite spec_ue_code_exact in * by lia. cbn [fst snd] in *.
  exists r1. split; [|congruence]. rewrite E1. fold z. f_equal. f_equal. unfold acc_width.
  apply Z.mod_small. pose proof (log2_bounds v ltac:(lia)) as L. fold z in L.
  pose proof (Z.mod_pos_bound (zlen rest) 8 ltac:(lia)).
  pose proof (Z.mod_pos_bound (v + 1 - 2 ^ z) (2 ^ (32 - zlen rest mod 8)) ltac:(apply Z.pow_pos_nonneg; lia)).
  pose proof (Z.mod_le (v + 1 - 2 ^ z) (2 ^ (32 - zlen rest mod 8)) ltac:(lia) ltac:(apply Z.pow_pos_nonneg; lia)).
  lia.
Qed.
Print Assumptions C03_ue_exact.

Theorem C03_ue_refuted : exists buf v rest r' v',
  buf_ok buf /\ 0 <= v < 2 ^ 32 - 1 /\ bits_of buf = ue_code v ++ rest /\
  read_ue (new_reader buf) = (r', Ok v') /\ v' <> v.
Proof.
  (* 28 zeros, a one, 28 ones: v = 2^29 - 2, and seven unread bits follow *)
  exists [0; 0; 0; 15; 255; 255; 255; 255], (2 ^ 29 - 2), (repeat true 7).
  eexists; eexists. splits.
  - split; [repeat constructor; cbn; lia | cbn; lia].
  - lia.
  - lia.
  - vm_compute. reflexivity.
  - vm_compute. reflexivity.
  - vm_compute. discriminate.
Qed.
Print Assumptions C03_ue_refuted.

Example C03_case :
  rest_bits [0xD8] 7 = ue_code 0 ++ [false; true; true; false; false; false] /\
  rest_bits [0x05; 0x40] 14 = ue_code 9 ++ [true; false; false; false; false; false; false].
Proof. split; reflexivity. Qed.

(* ---- C04 ---- *)
(* Full statement: every v with -2^31 < v < 2^31 at every position; false for the reason of C03. *)
Theorem C04_se_partial : forall buf r v rest,
  buf_ok buf -> buf <> [] -> reached buf r ->
  rest_bits buf (available r) = se_code v ++ rest ->
  - 2 ^ 31 < v < 2 ^ 31 ->
  - 2 ^ 25 < v < 2 ^ 25 \/ Z.log2 (se_num v + 1) + zlen rest mod 8 <= 32 ->
  exists r', read_se r = (r', Ok v) /\ available r' = zlen rest /\ rest_bits buf (available r') = rest.
Proof.
  intros buf r v rest Hb Hne HR E Hv Hc.
  destruct (reached_sim _ _ _ buf r sim_se Hb Hne HR) as (r1 & E1 & H1 & B1 & U1 & A1 & R1).
  rewrite E in *. assert (S1 : spec_se (se_code v ++ rest) = (rest, Ok v)).
  { destruct Hc; [apply spec_se_code_small; lia | apply spec_se_code; unfold acc_width; lia]. }
  rewrite S1 in *. cbn [fst snd] in *. exists r1. splits; congruence.
Qed.
Print Assumptions C04_se_partial.

(* What is read otherwise is the number of the code number C03_ue_exact gives. *)
Theorem C04_se_exact : forall buf r v rest,
  buf_ok buf -> buf <> [] -> reached buf r ->
  rest_bits buf (available r) = se_code v ++ rest -> - 2 ^ 31 < v < 2 ^ 31 ->
  let z := Z.log2 (se_num v + 1) in
  exists r' w, read_se r = (r', Ok w) /\ se_num w = (se_num v + 1 - 2 ^ z) mod 2 ^ (32 - zlen rest mod 8) + 2 ^ z - 1 /\
    rest_bits buf (available r') = rest.
Proof.
  intros buf r v rest Hb Hne HR E Hv z. unfold se_code in E.
  assert (N : 0 <= se_num v < 2 ^ 32 - 1) by (unfold se_num; destruct (v >? 0) eqn:G; lia).
  destruct (C03_ue_exact buf r (se_num v) rest Hb Hne HR E N) as (r' & E1 & E2). fold z in E1.
  set (k := (se_num v + 1 - 2 ^ z) mod 2 ^ (32 - zlen rest mod 8) + 2 ^ z - 1) in *.
  assert (K : 0 <= k < 2 ^ 32 - 1).
  { pose proof (log2_bounds (se_num v) ltac:(lia)) as L. fold z in L.
    pose proof (Z.mod_pos_bound (zlen rest) 8 ltac:(lia)).
    pose proof (Z.mod_pos_bound (se_num v + 1 - 2 ^ z) (2 ^ (32 - zlen rest mod 8)) ltac:(apply Z.pow_pos_nonneg; lia)).
    pose proof (Z.mod_le (se_num v + 1 - 2 ^ z) (2 ^ (32 - zlen rest mod 8)) ltac:(lia) ltac:(apply Z.pow_pos_nonneg; lia)).
    assert (0 < 2 ^ z) by (apply Z.pow_pos_nonneg; [lia|apply Z.log2_nonneg]). unfold k. lia. }
  exists r', (se_of_ue k). unfold read_se. rewrite E1. cbn [bind]. splits; [reflexivity| |exact E2].
  rewrite se_of_ue_spec by lia. replace (k =? 2 ^ 32 - 1) with false by lia. apply num_of_signed. lia.
Qed.
Print Assumptions C04_se_exact.
Example C04_exact_case : let v := - (2 ^ 28 - 1) in bits_of [0; 0; 0; 15; 255; 255; 255; 255] = se_code v ++ repeat true 7 /\
  snd (read_se (new_reader [0; 0; 0; 15; 255; 255; 255; 255])) = Ok (- (2 ^ 27 + 2 ^ 24 - 1)) /\
  se_num (- (2 ^ 27 + 2 ^ 24 - 1)) = (se_num v + 1 - 2 ^ 28) mod 2 ^ (32 - 7) + 2 ^ 28 - 1.
Proof. cbv zeta. splits; vm_compute; reflexivity. Qed.

Theorem C04_se_refuted : exists buf v rest r' v',
  buf_ok buf /\ - 2 ^ 31 < v < 2 ^ 31 /\ bits_of buf = se_code v ++ rest /\
  read_se (new_reader buf) = (r', Ok v') /\ v' <> v.
Proof.
  exists [0; 0; 0; 15; 255; 255; 255; 255], (- (2 ^ 28 - 1)), (repeat true 7).
  eexists; eexists. splits.
  - split; [repeat constructor; cbn; lia | cbn; lia].
  - lia.
  - lia.
  - vm_compute. reflexivity.
  - vm_compute. reflexivity.
  - vm_compute. discriminate.
Qed.
Print Assumptions C04_se_refuted.

Example C04_case : rest_bits [0x28] 8 = se_code (-2) ++ [false; false; false] /\
  snd (read_se (new_reader [0x28])) = Ok (-2).
Proof. split; reflexivity. Qed.

(* ---- C05 ---- *)
Theorem C05_skip_bits : forall buf r n,
  buf_ok buf -> buf <> [] -> reached buf r -> 0 <= n < 2 ^ 64 ->
  fst (skip_bits r n) = fst (read_bits r n) /\
  (snd (skip_bits r n) = Ok tt <-> exists v, snd (read_bits r n) = Ok v) /\
  (forall e, snd (skip_bits r n) = Err e <-> snd (read_bits r n) = Err e).
Proof.
  intros buf r n Hb Hne HR Hn. destruct (reached_ok buf r Hb Hne HR) as (H & B & U).
  rewrite (skip_read_agree r n H ltac:(congruence) ltac:(lia)). cbn [fst snd].
  destruct (snd (read_bits r n)); splits; try reflexivity; split; intros X; try discriminate; eauto;
    try (destruct X; discriminate); congruence.
Qed.
Print Assumptions C05_skip_bits.

Theorem C05_skip_golomb : forall buf r,
  buf_ok buf -> buf <> [] -> reached buf r ->
  fst (skip_ue r) = fst (read_ue r) /\
  (snd (skip_ue r) = Ok tt <-> exists v, snd (read_ue r) = Ok v) /\
  (forall e, snd (skip_ue r) = Err e <-> snd (read_ue r) = Err e).
Proof.
  intros buf r Hb Hne HR. destruct (reached_ok buf r Hb Hne HR) as (H & B & U).
  unfold skip_ue, read_ue. destruct (count_zeroes_sim r H ltac:(congruence)) as (r1 & E & H1 & B1 & U1).
  rewrite E. unfold zero_out. destruct (spec_zeroes (unread r)) as [[k u]|]; cbn [snd].
  - rewrite (skip_read_agree r1 (0 + Z.of_nat k) H1 ltac:(congruence) ltac:(lia)).
    destruct (read_bits r1 (0 + Z.of_nat k)) as [r2 [v|e| |]]; cbn [fst snd bind]; splits; try reflexivity;
      split; intros X; try discriminate; eauto; try (destruct X; discriminate); congruence.
  - splits; try reflexivity; try (split; [discriminate|intros [v X]; discriminate]).
    intros e; split; congruence.
Qed.
Print Assumptions C05_skip_golomb.

(* On an empty buffer the two differ: a zero-width skip succeeds, a zero-width read panics. *)
Theorem C05_empty_refuted :
  skip_bits (new_reader []) 0 = (new_reader [], Ok tt) /\ snd (read_bits (new_reader []) 0) = Panic.
Proof. split; reflexivity. Qed.
Print Assumptions C05_empty_refuted.

Example C05_case :
  skip_ue (new_reader [0x25; 0x11]) = (mkReader [0x25; 0x11] 2 0 5, Ok tt) /\
  read_ue (new_reader [0x25; 0x11]) = (mkReader [0x25; 0x11] 2 0 5, Ok 3).
Proof. split; reflexivity. Qed.

(* ---- C06 ---- *)
Theorem C06_scaling_list : forall buf r n deltas l useDefault unused rest,
  buf_ok buf -> buf <> [] -> reached buf r ->
  rest_bits buf (available r) = flat_map se_code deltas ++ rest ->
  Forall (fun d => -128 <= d <= 127) deltas ->
  scaling_list n true deltas 8 8 false = Some (l, useDefault, unused) ->
  exists r', read_scaling_list r n = (r', l, Ok useDefault) /\
    rest_bits buf (available r') = flat_map se_code unused ++ rest.
Proof.
  intros buf r n deltas l ud unused rest Hb Hne HR E HD HS.
  destruct (reached_ok buf r Hb Hne HR) as (H & B & U).
  pose proof (reached_step buf r (OpScaling n) HR I) as Hst. cbn in Hst.
  destruct (scaling_loop_spec n true r 8 8 false H ltac:(congruence)) as (r' & E' & H' & B' & U').
  unfold read_scaling_list in *. rewrite E' in *.
  rewrite U, E in *. rewrite (spec_scaling_deltas n true deltas 8 8 false l ud unused rest) in * by (try lia; assumption).
  cbn [fst snd] in *. exists r'. split; [reflexivity|].
  destruct (reached_ok buf r' Hb Hne Hst) as (_ & _ & U2). congruence.
Qed.
Print Assumptions C06_scaling_list.

(* deltas outside the range the standard allows can produce a negative entry *)
Theorem C06_out_of_range_refuted : exists buf l ud r',
  buf_ok buf /\ read_scaling_list (new_reader buf) 1 = (r', l, Ok ud) /\ exists x, In x l /\ x < 0.
Proof.
  (* delta -300 *)
  exists [0; 75; 32]. eexists; eexists; eexists. splits.
  - split; [repeat constructor; cbn; lia | cbn; lia].
  - vm_compute. reflexivity.
  - eexists. split; [left; reflexivity|lia].
Qed.
Print Assumptions C06_out_of_range_refuted.

Example C06_case :
  scaling_list 4 true [-8] 8 8 false = Some ([8; 8; 8; 8], true, []) /\
  scaling_list 4 true [2; -3; -7] 8 8 false = Some ([10; 7; 7; 7], false, []) /\
  bits_of [0x08; 0x80] = flat_map se_code [-8] ++ [false; false; false; false; false; false; false].
Proof. splits; reflexivity. Qed.

(* ---- C07 ---- *)
(* Full statement: success iff ALL unread bits are a one followed by fewer than eight zeros.  The
   code looks only at the current byte, so this holds when at most eight bits are unread ... *)
Theorem C07_trailing_partial : forall buf r,
  buf_ok buf -> buf <> [] -> reached buf r -> available r <= 8 ->
  (snd (skip_trailing_bits r) = Ok tt <-> exists k, rest_bits buf (available r) = true :: repeat false k).
Proof.
  intros buf r Hb Hne HR Ha. destruct (reached_ok buf r Hb Hne HR) as (H & B & U).
  destruct (sim_trailing r H ltac:(congruence)) as (r' & E & _). rewrite E. cbn [snd].
  assert (Hl : zlen (rest_bits buf (available r)) <= 8) by (rewrite <- U, <- available_unread; assumption).
  rewrite U. set (u := rest_bits buf (available r)) in *. unfold spec_trailing.
  destruct u as [|[|] u]; [| |].
  - split; [discriminate|intros [k X]; discriminate].
  - rewrite zlen_cons in Hl. pose proof (zlen_nonneg u).
    replace (Z.to_nat (zlen u mod 8)) with (length u) by (rewrite Z.mod_small by lia; unfold zlen; lia).
    destruct (skip_zeros_spec (length u) u ltac:(lia)) as [I _].
    destruct (skip_zeros (length u) u) as [u' g]. cbn [snd] in *.
    split.
    + intros X. destruct g; [|discriminate]. destruct (proj1 I eq_refl) as [rest Er].
      exists (length u). f_equal. rewrite Er at 1. assert (rest = []) as ->; [|apply app_nil_r].
      apply (f_equal (@length bool)) in Er. rewrite app_length, repeat_length in Er.
      destruct rest; [reflexivity|cbn in Er; lia].
    + intros [k X]. injection X as X. destruct g; [reflexivity|].
      enough (false = true) by discriminate. apply I. exists []. rewrite app_nil_r, X, repeat_length. reflexivity.
  - split; [discriminate|intros [k X]; discriminate].
Qed.
Print Assumptions C07_trailing_partial.

(* ... and in general success means: a one, then zeros up to the next byte boundary, whatever follows. *)
Theorem C07_trailing_exact : forall buf r,
  buf_ok buf -> buf <> [] -> reached buf r ->
  (snd (skip_trailing_bits r) = Ok tt <->
   exists k rest, (k < 8)%nat /\ zlen rest mod 8 = 0 /\
     rest_bits buf (available r) = true :: repeat false k ++ rest) /\
  (snd (skip_trailing_bits r) <> Ok tt -> snd (skip_trailing_bits r) = Err ErrMissingTrailingBits).
Proof.
  intros buf r Hb Hne HR. destruct (reached_ok buf r Hb Hne HR) as (H & B & U).
  destruct (sim_trailing r H ltac:(congruence)) as (r' & E & _). rewrite E. cbn [snd].
  rewrite U. set (u := rest_bits buf (available r)) in *. unfold spec_trailing.
  destruct u as [|[|] u]; [| |].
  - split; [split; [discriminate|intros (k & rest & _ & _ & X); discriminate]|reflexivity].
  - set (m := Z.to_nat (zlen u mod 8)).
    pose proof (Z.mod_pos_bound (zlen u) 8 ltac:(lia)).
    pose proof (Z.mod_le (zlen u) 8 (zlen_nonneg u) ltac:(lia)).
    assert (m <= length u)%nat by (unfold m, zlen in *; lia).
    destruct (skip_zeros_spec m u ltac:(lia)) as [I _].
    destruct (skip_zeros m u) as [u' g]. cbn [snd] in *. split.
    + split.
      * intros X. destruct g; [|discriminate]. destruct (proj1 I eq_refl) as [rest Er].
        exists m, rest. splits; [unfold m; lia| |congruence].
        apply (f_equal zlen) in Er. rewrite zlen_app in Er. unfold zlen at 2 in Er. rewrite repeat_length in Er.
        pose proof (Z.div_mod (zlen u) 8 ltac:(lia)).
        replace (zlen rest) with ((zlen u / 8) * 8) by (unfold m in Er; lia). apply Z.mod_mul; lia.
      * intros (k & rest & Hk & Hr & X). injection X as X. destruct g; [reflexivity|].
        enough (false = true) by discriminate. apply I. exists rest. rewrite X. f_equal. f_equal.
        unfold m. rewrite X, zlen_app. unfold zlen at 1. rewrite repeat_length.
        rewrite Z.add_mod, Hr, Z.add_0_r, Z.mod_mod, Z.mod_small by lia. lia.
    + destruct g; [intros X; exfalso; apply X; reflexivity | reflexivity].
  - split; [split; [discriminate|intros (k & rest & _ & _ & X); discriminate]|reflexivity].
Qed.
Print Assumptions C07_trailing_exact.

Theorem C07_trailing_refuted : exists buf,
  buf_ok buf /\ snd (skip_trailing_bits (new_reader buf)) = Ok tt /\
  forall k, bits_of buf <> true :: repeat false k.
Proof.
  exists [128; 1]. splits.
  - split; [repeat constructor; cbn; lia | cbn; lia].
  - reflexivity.
  - intros k X. injection X as X. do 15 (destruct k as [|k]; [discriminate|injection X as X]).
    all: try discriminate.
Qed.
Print Assumptions C07_trailing_refuted.

Example C07_case : rest_bits [0xF4] 3 = true :: repeat false 2 /\
  reached [0xF4] (fst (read_bits (new_reader [0xF4]) 5)).
Proof. split; [reflexivity|]. exists [OpRead 5]. split; [repeat constructor; cbn; lia|reflexivity]. Qed.

(* ---- C08 ---- *)
Theorem C08_payload : forall buf r k b rest,
  buf_ok buf -> buf <> [] -> reached buf r ->
  rest_bits buf (available r) = bits_of (repeat 255 k ++ [b]) ++ rest -> 0 <= b < 255 ->
  exists r', read_payload_param r = (r', Ok ((255 * Z.of_nat k + b) mod 2 ^ 32)) /\
    rest_bits buf (available r') = rest.
Proof.
  intros buf r k b rest Hb Hne HR E Hbb. destruct (reached_ok buf r Hb Hne HR) as (H & B & U).
  pose proof (reached_step buf r OpPayload HR I) as Hst.
  destruct (exec_op_spec r OpPayload H ltac:(congruence) I) as (r' & E1 & H1 & B1 & U1). rewrite E1 in Hst.
  cbn [exec_op spec_op fst] in *. rewrite U, E in *.
  rewrite spec_payload_code in * by lia. cbn [fst snd] in *.
  destruct (read_payload_param r) as [r2 v]. injection E1 as -> ->.
  exists r'. split; [reflexivity|]. destruct (reached_ok buf r' Hb Hne Hst) as (_ & _ & U2). congruence.
Qed.
Print Assumptions C08_payload.

(* a stream that ends before a byte below 255 is an error *)
Theorem C08_payload_eof : forall buf r k rest,
  buf_ok buf -> buf <> [] -> reached buf r ->
  rest_bits buf (available r) = bits_of (repeat 255 k) ++ rest -> zlen rest < 8 ->
  snd (read_payload_param r) = Err ErrUnexpectedEOF.
Proof.
  intros buf r k rest Hb Hne HR E Hr. destruct (reached_ok buf r Hb Hne HR) as (H & B & U).
  destruct (exec_op_spec r OpPayload H ltac:(congruence) I) as (r' & E1 & H1 & B1 & U1).
  cbn [exec_op spec_op fst] in *. rewrite U, E in *.
  rewrite spec_payload_eof in * by lia. cbn [fst snd] in *.
  destruct (read_payload_param r) as [r2 v]. injection E1 as -> ->. reflexivity.
Qed.
Print Assumptions C08_payload_eof.

Example C08_case : snd (read_payload_param (new_reader [255; 255; 7; 1])) = Ok 517 /\
  rest_bits [255; 255; 7; 1] 32 = bits_of (repeat 255 2 ++ [7]) ++ bits_of [1].
Proof. split; reflexivity. Qed.
