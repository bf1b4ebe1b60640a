(* Lemmas: the bit reader refines the bit-list machine of S_bits. *)
From Verif Require Import Base L_base S_bits M_bits.
From Coq Require Import ZifyBool ZifyNat Znumtheory.

(* ---------- bit strings ---------- *)
Lemma bval_app_acc l a : fold_left (fun a b => 2 * a + Z.b2z b) l a = a * 2 ^ zlen l + bval l.
Proof.
  unfold bval. revert a; induction l as [|b l IH]; intros a; cbn [fold_left].
  - cbn; lia.
  - rewrite IH, (IH (2 * 0 + Z.b2z b)), zlen_cons, Z.pow_add_r by (unfold zlen; lia). ring.
Qed.

Lemma bval_app a b : bval (a ++ b) = bval a * 2 ^ zlen b + bval b.
Proof. unfold bval at 1. rewrite fold_left_app. fold (bval a). apply bval_app_acc. Qed.

Lemma bval_cons b l : bval (b :: l) = Z.b2z b * 2 ^ zlen l + bval l.
Proof. change (b :: l) with ([b] ++ l). rewrite bval_app. f_equal. Qed.

Lemma bval_range l : 0 <= bval l < 2 ^ zlen l.
Proof.
  induction l as [|b l IH].
  - cbn; lia.
  - rewrite bval_cons, zlen_cons, Z.pow_add_r by (unfold zlen; lia). destruct b; cbn [Z.b2z]; lia.
Qed.

Lemma bin_length n z : length (bin n z) = n.
Proof. induction n; cbn; congruence. Qed.

Lemma zlen_bin n z : zlen (bin n z) = Z.of_nat n.
Proof. unfold zlen; rewrite bin_length; reflexivity. Qed.

Lemma bval_bin n z : bval (bin n z) = z mod 2 ^ Z.of_nat n.
Proof.
  induction n as [|n IH].
  - cbn; symmetry; apply Z.mod_1_r.
  - cbn [bin]. rewrite bval_cons, IH, zlen_bin.
    replace (Z.of_nat (S n)) with (Z.of_nat n + 1) by lia.
    rewrite Z.pow_add_r, Z.rem_mul_r by lia.
    rewrite Z.testbit_spec' by lia. rewrite Z.pow_1_r. lia.
Qed.

Lemma bin_ext n z c : bin n (c * 2 ^ Z.of_nat n + z) = bin n z.
Proof.
  assert (G : forall k, (k <= n)%nat -> bin k (c * 2 ^ Z.of_nat n + z) = bin k z).
  { induction k as [|k IH]; intros Hk; [reflexivity|]. cbn [bin]. rewrite IH by lia. f_equal.
    apply Z.b2z_inj. rewrite !Z.testbit_spec' by lia.
    replace (Z.of_nat n) with (Z.of_nat (n - S k) + 1 + Z.of_nat k) by lia.
    rewrite !Z.pow_add_r by lia. rewrite !Z.mul_assoc.
    rewrite Z.div_add_l by (apply Z.pow_nonzero; lia).
    rewrite Z.pow_1_r, Z.add_comm, Z.mod_add; lia. }
  apply G; lia.
Qed.

Lemma bin_bval l : bin (length l) (bval l) = l.
Proof.
  induction l as [|b l IH]; [reflexivity|].
  cbn [length bin]. rewrite bval_cons. pose proof (bval_range l) as R.
  unfold zlen in *. f_equal.
  - apply Z.b2z_inj. rewrite Z.testbit_spec' by lia.
    rewrite Z.div_add_l by lia. rewrite Z.div_small by lia.
    destruct b; reflexivity.
  - rewrite bin_ext. exact IH.
Qed.

Lemma byte_bits_bin b : byte_bits b = bin 8 b.
Proof. reflexivity. Qed.

Lemma bval_byte b : byte_ok b -> bval (byte_bits b) = b.
Proof. intros H. rewrite byte_bits_bin, bval_bin. unfold byte_ok in H. apply Z.mod_small. cbn; lia. Qed.

Lemma bits_of_app a b : bits_of (a ++ b) = bits_of a ++ bits_of b.
Proof. unfold bits_of. apply flat_map_app. Qed.

Lemma bits_of_length l : length (bits_of l) = (8 * length l)%nat.
Proof.
  induction l as [|b l IH]; [reflexivity|].
  change (bits_of (b :: l)) with (byte_bits b ++ bits_of l).
  rewrite app_length, IH. cbn [length byte_bits map]. lia.
Qed.

Lemma zlen_bits_of l : zlen (bits_of l) = 8 * zlen l.
Proof. unfold zlen; rewrite bits_of_length; lia. Qed.

Lemma bval_bits_of l : bytes_ok l -> bval (bits_of l) = be_of l.
Proof.
  induction l as [|b l IH]; intros H; [reflexivity|].
  apply Forall_cons_iff in H as [Hb Hl].
  change (bits_of (b :: l)) with (byte_bits b ++ bits_of l).
  rewrite bval_app, bval_byte, IH, zlen_bits_of by assumption. cbn [be_of].
  fold (zlen l). f_equal. f_equal. change 256 with (2 ^ 8). rewrite <- Z.pow_mul_r; unfold zlen; lia.
Qed.

Lemma bits_of_skipn k l : bits_of (skipn k l) = skipn (8 * k) (bits_of l).
Proof.
  revert l; induction k as [|k IH]; intros l; [reflexivity|].
  destruct l as [|b l].
  - rewrite !skipn_nil; reflexivity.
  - change (bits_of (b :: l)) with (byte_bits b ++ bits_of l).
    change (skipn (S k) (b :: l)) with (skipn k l). rewrite IH.
    replace (8 * S k)%nat with (8 * k + 8)%nat by lia.
    rewrite <- skipn_skipn. f_equal.
Qed.

(* ---------- reader invariant and abstraction ---------- *)

Record rd_ok (r : reader) : Prop := {
  ro_buf : buf_ok (r_buf r);
  ro_count : r_count r = zlen (r_buf r);
  ro_byten : 0 <= r_byten r;
  ro_bitn : 0 <= r_bitn r <= 8;
  ro_pos : r_byten r < r_count r \/ (r_buf r = [] /\ r_byten r = 0 /\ r_bitn r = 0);
}.

Definition pos (r : reader) : nat := Z.to_nat (8 * r_byten r + r_bitn r).
Definition unread (r : reader) : list bool := skipn (pos r) (bits_of (r_buf r)).

Lemma new_reader_ok buf : buf_ok buf -> rd_ok (new_reader buf).
Proof.
  intros [Hb Hl]. unfold new_reader. constructor; cbn [r_buf r_count r_byten r_bitn].
  - split; assumption.
  - apply u64_small. unfold zlen in *; lia.
  - lia.
  - lia.
  - destruct buf as [|b buf]; [right; auto | left].
    rewrite u64_small; rewrite zlen_cons in *; unfold zlen in *; lia.
Qed.

Lemma unread_new buf : unread (new_reader buf) = bits_of buf.
Proof. reflexivity. Qed.

Lemma pos_bound r : rd_ok r -> Z.of_nat (pos r) = 8 * r_byten r + r_bitn r /\
                               8 * r_byten r + r_bitn r <= 8 * zlen (r_buf r).
Proof.
  intros [[Hb Hl] Hc Hy Hn Hp]. unfold pos.
  destruct Hp as [Hp | (E & E1 & E2)]; [|rewrite E, E1, E2; cbn]; lia.
Qed.

Lemma zlen_unread r : rd_ok r -> zlen (unread r) = 8 * zlen (r_buf r) - (8 * r_byten r + r_bitn r).
Proof.
  intros H. destruct (pos_bound r H) as [E1 E2]. unfold unread.
  rewrite zlen_skipn, zlen_bits_of, E1. lia.
Qed.

Lemma available_unread r : rd_ok r -> available r = zlen (unread r).
Proof.
  intros H. rewrite zlen_unread by exact H. destruct (pos_bound r H) as [E1 E2].
  destruct H as [[Hb Hl] Hc Hy Hn Hp]. unfold available. rewrite Hc.
  assert (r_byten r <= zlen (r_buf r)).
  { destruct Hp as [Hp | (E & E3 & _)]; [lia | rewrite E, E3; cbn; lia]. }
  rewrite (u64_small (_ - r_byten r)) by lia.
  rewrite (u64_small (_ * 8)) by lia.
  rewrite u64_small by lia. lia.
Qed.

(* ---------- the gathering loop ---------- *)
Definition sub (buf : bytes) (b0 j : nat) : bytes := firstn j (skipn b0 buf).

Lemma sub_S buf b0 j b : nth_error buf (b0 + j) = Some b -> sub buf b0 (S j) = sub buf b0 j ++ [b].
Proof.
  intros H. unfold sub.
  assert (E : skipn j (skipn b0 buf) = b :: skipn (S j) (skipn b0 buf)).
  { rewrite !skipn_skipn. replace (j + b0)%nat with (b0 + j)%nat by lia.
    replace (S j + b0)%nat with (S (b0 + j)) by lia. apply nth_error_skipn_cons; exact H. }
  rewrite <- (firstn_skipn j (skipn b0 buf)) at 1. rewrite E.
  assert (L : length (firstn j (skipn b0 buf)) = j).
  { rewrite firstn_length, skipn_length.
    assert (b0 + j < length buf)%nat by (apply nth_error_Some; congruence). lia. }
  rewrite firstn_app, L. replace (S j - j)%nat with 1%nat by lia.
  rewrite firstn_all2 by lia. reflexivity.
Qed.

Lemma sub_length buf b0 j : (b0 + j <= length buf)%nat -> length (sub buf b0 j) = j.
Proof. intros; unfold sub; rewrite firstn_length, skipn_length; lia. Qed.

Lemma index_z_ok l i : 0 <= i < zlen l -> exists b, index_z l i = Ok b /\ nth_error l (Z.to_nat i) = Some b.
Proof.
  intros H. unfold index_z, index.
  replace ((0 <=? i) && (i <? zlen l)) with true by lia.
  destruct (nth_error l (Z.to_nat i)) as [b|] eqn:E; [eauto|].
  apply nth_error_None in E. unfold zlen in H; lia.
Qed.

Lemma shl_lor_byte val b : byte_ok b -> 0 <= val -> Z.lor (u32 (Z.shiftl val 8)) b = (val * 256 + b) mod 2 ^ 32.
Proof.
  intros Hb Hv. unfold u32. unfold byte_ok in Hb.
  rewrite <- (Z.land_ones (Z.shiftl val 8)) by lia.
  rewrite <- (Z.land_ones (_ + _)) by lia.
  replace (val * 256 + b) with (Z.lor (Z.shiftl val 8) b).
  2:{ assert (L0 : Z.land (Z.shiftl val 8) b = 0).
      { apply Z.bits_inj'; intros k Hk. rewrite Z.land_spec, Z.bits_0.
        destruct (Z.lt_ge_cases k 8).
        - rewrite Z.shiftl_spec_low by lia. reflexivity.
        - rewrite andb_comm. rewrite (Z.bits_above_log2 b k); [reflexivity | lia | ].
          destruct (Z.eq_dec b 0) as [->|]; [cbn; lia|].
          apply Z.log2_lt_pow2; [lia|]. apply Z.lt_le_trans with (2^8); [cbn; lia | apply Z.pow_le_mono_r; lia]. }
      rewrite <- Z.lxor_lor, <- Z.add_nocarry_lxor by exact L0.
      rewrite Z.shiftl_mul_pow2 by lia. reflexivity. }
  rewrite Z.land_lor_distr_l. f_equal.
  rewrite Z.land_ones by lia. symmetry; apply Z.mod_small. lia.
Qed.

Lemma gather_spec buf b0 bitn n :
  buf_ok buf -> 0 <= bitn <= 8 -> 0 <= n <= 32 ->
  8 * Z.of_nat b0 + bitn + n <= 8 * zlen buf ->
  forall fuel j,
    (1 <= j)%nat -> (b0 + j <= length buf)%nat ->
    n - (8 * Z.of_nat j - bitn) <= 8 * Z.of_nat fuel ->
    (j = 1%nat \/ 8 * (Z.of_nat j - 1) - bitn < n) ->
    exists j',
      gather fuel buf n (Z.of_nat b0 + Z.of_nat j - 1) (be_of (sub buf b0 j) mod 2 ^ 32) (8 * Z.of_nat j - bitn)
        = Ok (Z.of_nat b0 + Z.of_nat j' - 1, be_of (sub buf b0 j') mod 2 ^ 32, 8 * Z.of_nat j' - bitn)
      /\ (1 <= j')%nat /\ (b0 + j' <= length buf)%nat /\ n <= 8 * Z.of_nat j' - bitn
      /\ (j' = 1%nat \/ 8 * (Z.of_nat j' - 1) - bitn < n).
Proof.
  intros [Hbuf Hlen] Hbit Hn Hfit. unfold zlen in *.
  induction fuel as [|fuel IH]; intros j Hj1 Hj Hfuel Hmin; cbn [gather].
  - replace (n >? 8 * Z.of_nat j - bitn) with false by lia. exists j. splits; auto; lia.
  - destruct (n >? 8 * Z.of_nat j - bitn) eqn:E.
    2:{ exists j. splits; auto; lia. }
    rewrite (u64_small (_ + 1)) by lia.
    destruct (index_z_ok buf (Z.of_nat b0 + Z.of_nat j - 1 + 1)) as (b & Eb & Nb).
    { unfold zlen; lia. }
    rewrite Eb. cbn [bind].
    replace (Z.to_nat (Z.of_nat b0 + Z.of_nat j - 1 + 1)) with (b0 + j)%nat in Nb by lia.
    assert (Hb : byte_ok b) by (eapply bytes_ok_nth; eauto).
    rewrite shl_lor_byte by (auto; apply Z.mod_pos_bound; lia).
    assert (Ev : ((be_of (sub buf b0 j) mod 2 ^ 32) * 256 + b) mod 2 ^ 32 = be_of (sub buf b0 (S j)) mod 2 ^ 32).
    { rewrite (sub_S _ _ _ b Nb), be_of_app. cbn [be_of length].
      change (256 ^ Z.of_nat 0) with 1. change (256 ^ zlen [b]) with 256.
      rewrite Z.mul_1_r, Z.add_0_r.
      rewrite <- Z.add_mod_idemp_l, Z.mul_mod_idemp_l, Z.add_mod_idemp_l by lia. reflexivity. }
    rewrite Ev.
    rewrite (u64_small (_ + 8)) by lia.
    assert (j + b0 < length buf)%nat by (assert (b0 + j < length buf)%nat by (apply nth_error_Some; congruence); lia).
    destruct (IH (S j)) as (j' & Hg & H'); try lia.
    exists j'. split; [|exact H'].
    replace (Z.of_nat b0 + Z.of_nat j - 1 + 1) with (Z.of_nat b0 + Z.of_nat (S j) - 1) by lia.
    replace (8 * Z.of_nat j - bitn + 8) with (8 * Z.of_nat (S j) - bitn) by lia.
    exact Hg.
Qed.

Lemma mask_eq n : 0 <= n <= 32 -> u32 (u32 (Z.shiftl 1 n) - 1) = Z.ones n.
Proof.
  intros H. rewrite Z.shiftl_1_l. rewrite Z.ones_equiv.
  destruct (Z.eq_dec n 32) as [->|]; [reflexivity|].
  assert (0 < 2 ^ n < 2 ^ 32) by (split; [lia | apply Z.pow_lt_mono_r; lia]).
  rewrite u32_small by (rewrite u32_small; lia). rewrite u32_small by lia. lia.
Qed.

Lemma pow2_split a b : 0 <= a -> 0 <= b -> 2 ^ (a + b) = 2 ^ a * 2 ^ b.
Proof. intros; apply Z.pow_add_r; lia. Qed.

Lemma extract_bits a f t n s :
  0 <= n <= 32 -> 0 <= s <= 8 -> (s = 8 -> n = 0) -> 0 <= f < 2 ^ n -> 0 <= t < 2 ^ s ->
  Z.land (Z.shiftr (((a * 2 ^ n + f) * 2 ^ s + t) mod 2 ^ 32) s) (Z.ones n)
  = f mod 2 ^ (32 - s mod 8).
Proof.
  intros Hn Hs H8 Hf Ht.
  rewrite Z.land_ones by lia. rewrite Z.shiftr_div_pow2 by lia.
  destruct (Z.eq_dec s 8) as [->|Hs8].
  { rewrite (H8 eq_refl) in *. assert (f = 0) by lia. subst f.
    rewrite Z.pow_0_r, Z.mod_1_r. reflexivity. }
  rewrite (Z.mod_small s 8) by lia.
  assert (E : ((a * 2 ^ n + f) * 2 ^ s + t) mod 2 ^ 32 / 2 ^ s = (a * 2 ^ n + f) mod 2 ^ (32 - s)).
  { assert (P0 : 0 < 2 ^ s) by (apply Z.pow_pos_nonneg; lia).
    replace (2 ^ 32) with (2 ^ s * 2 ^ (32 - s)) by (rewrite <- Z.pow_add_r by lia; f_equal; lia).
    rewrite Z.rem_mul_r by (try lia; apply Z.pow_pos_nonneg; lia).
    rewrite (Z.mul_comm (2 ^ s)), Z.add_comm, Z.mul_comm.
    rewrite Z.mul_comm, Z.div_add_l by lia.
    rewrite Z.div_small with (a := _ mod _) by (apply Z.mod_pos_bound; lia).
    rewrite Z.div_add_l by lia. rewrite (Z.div_small t) by lia. rewrite !Z.add_0_r. reflexivity. }
  rewrite E.
  destruct (Z.le_gt_cases n (32 - s)).
  - assert (D : (2 ^ n | 2 ^ (32 - s))).
    { exists (2 ^ (32 - s - n)). rewrite <- Z.pow_add_r by lia. f_equal; lia. }
    rewrite <- Zmod_div_mod by (try apply Z.pow_pos_nonneg; try lia; exact D).
    rewrite Z.add_comm, Z.mod_add by (apply Z.pow_nonzero; lia).
    rewrite !Z.mod_small; try lia. split; [lia|].
    apply Z.lt_le_trans with (2 ^ n); [lia | apply Z.pow_le_mono_r; lia].
  - assert (M : 0 <= (a * 2 ^ n + f) mod 2 ^ (32 - s) < 2 ^ n).
    { assert (0 < 2 ^ (32 - s)) by (apply Z.pow_pos_nonneg; lia).
      pose proof (Z.mod_pos_bound (a * 2 ^ n + f) (2 ^ (32 - s))).
      assert (2 ^ (32 - s) <= 2 ^ n) by (apply Z.pow_le_mono_r; lia). lia. }
    rewrite (Z.mod_small _ (2 ^ n)) by exact M.
    replace (2 ^ n) with (2 ^ (n - (32 - s)) * 2 ^ (32 - s)) by (rewrite <- Z.pow_add_r by lia; f_equal; lia).
    rewrite Z.mul_assoc, Z.add_comm, Z.mod_add by (apply Z.pow_nonzero; lia). reflexivity.
Qed.

(* ReadBits refines spec_read on every valid reader over a non-empty buffer. *)
Lemma read_bits_spec r n :
  rd_ok r -> r_buf r <> [] -> 0 <= n ->
  exists r', read_bits r n = (r', snd (spec_read n (unread r)))
    /\ rd_ok r' /\ r_buf r' = r_buf r /\ unread r' = fst (spec_read n (unread r)).
Proof.
  intros H Hne Hn0. unfold read_bits, spec_read.
  rewrite <- (available_unread r H).
  destruct ((n >? 32) || (n >? available r)) eqn:G.
  { exists r. cbn. auto. }
  assert (Hn : 0 <= n <= 32) by lia.
  pose proof (available_unread r H) as Av. pose proof (zlen_unread r H) as Zu.
  destruct (pos_bound r H) as [Ep Epb].
  destruct H as [[Hb Hl] Hc Hy Hbit Hp].
  destruct Hp as [Hp | (E & _)]; [|contradiction].
  destruct (index_z_ok (r_buf r) (r_byten r)) as (b & Eb & Nb); [lia|].
  rewrite Eb. set (b0 := Z.to_nat (r_byten r)) in *.
  assert (Eb0 : r_byten r = Z.of_nat b0) by lia.
  assert (Hbb : byte_ok b) by (eapply bytes_ok_nth; eauto).
  assert (Es1 : sub (r_buf r) b0 1 = [b]).
  { unfold sub. rewrite (nth_error_skipn_cons _ _ _ Nb). reflexivity. }
  assert (Ebv : b = be_of (sub (r_buf r) b0 1) mod 2 ^ 32).
  { rewrite Es1. cbn [be_of length]. change (256 ^ Z.of_nat 0) with 1. unfold byte_ok in Hbb.
    rewrite Z.mod_small; lia. }
  rewrite (u64_small (8 - r_bitn r)) by lia.
  destruct (gather_spec (r_buf r) b0 (r_bitn r) n) with (fuel := 5%nat) (j := 1%nat)
    as (j & Hg & Hj1 & Hjl & Hjn & Hjm); try lia.
  { split; assumption. }
  { unfold zlen in *; lia. }
  rewrite <- Ebv in Hg.
  replace (Z.of_nat b0 + Z.of_nat 1 - 1) with (r_byten r) in Hg by lia.
  replace (8 * Z.of_nat 1 - r_bitn r) with (8 - r_bitn r) in Hg by lia.
  rewrite Hg. clear Hg Ebv.
  set (s := 8 * Z.of_nat j - r_bitn r - n).
  assert (Hs : 0 <= s <= 8) by (unfold s; lia).
  assert (Hs8 : s = 8 -> n = 0) by (unfold s; lia).
  rewrite (u64_small s) by lia. rewrite (u64_small (8 - s)) by lia.
  eexists. split; [|split; [|split]].
  - f_equal. cbn [snd]. f_equal.
    rewrite mask_eq by exact Hn.
    (* decompose the gathered bytes *)
    set (S0 := sub (r_buf r) b0 j).
    assert (LS : length S0 = j) by (apply sub_length; exact Hjl).
    assert (OS : bytes_ok S0) by (unfold S0, sub; apply bytes_ok_firstn, bytes_ok_skipn; exact Hb).
    assert (Dec : bits_of (skipn b0 (r_buf r)) = bits_of S0 ++ bits_of (skipn (b0 + j) (r_buf r))).
    { rewrite <- bits_of_app. f_equal. unfold S0, sub.
      rewrite <- (firstn_skipn j (skipn b0 (r_buf r))) at 1. f_equal.
      rewrite skipn_skipn. f_equal; lia. }
    assert (Un : unread r = skipn (Z.to_nat (r_bitn r)) (bits_of S0) ++ bits_of (skipn (b0 + j) (r_buf r))).
    { unfold unread. replace (pos r) with (Z.to_nat (r_bitn r) + 8 * b0)%nat by lia.
      rewrite <- skipn_skipn, <- bits_of_skipn, Dec, skipn_app.
      rewrite (bits_of_length S0), LS.
      replace (Z.to_nat (r_bitn r) - 8 * j)%nat with 0%nat by lia. reflexivity. }
    assert (L1 : length (skipn (Z.to_nat (r_bitn r)) (bits_of S0)) = (Z.to_nat n + Z.to_nat s)%nat).
    { rewrite skipn_length, bits_of_length, LS. unfold s. lia. }
    set (X := skipn (Z.to_nat (r_bitn r)) (bits_of S0)) in *.
    assert (F1 : firstn (Z.to_nat n) (unread r) = firstn (Z.to_nat n) X).
    { rewrite Un, firstn_app. replace (Z.to_nat n - length X)%nat with 0%nat by lia.
      rewrite firstn_O, app_nil_r. reflexivity. }
    rewrite F1.
    assert (EX : X = firstn (Z.to_nat n) X ++ skipn (Z.to_nat n) X) by (symmetry; apply firstn_skipn).
    assert (EB : be_of S0 = (bval (firstn (Z.to_nat (r_bitn r)) (bits_of S0)) * 2 ^ n + bval (firstn (Z.to_nat n) X)) * 2 ^ s
                            + bval (skipn (Z.to_nat n) X)).
    { rewrite <- bval_bits_of by exact OS.
      rewrite <- (firstn_skipn (Z.to_nat (r_bitn r)) (bits_of S0)) at 1.
      fold X. rewrite bval_app. rewrite EX at 1 2. rewrite bval_app.
      rewrite zlen_app.
      replace (zlen (firstn (Z.to_nat n) X)) with n by (rewrite zlen_firstn; unfold zlen; lia).
      replace (zlen (skipn (Z.to_nat n) X)) with s by (rewrite zlen_skipn; unfold zlen; lia).
      rewrite Z.pow_add_r by lia. ring. }
    rewrite EB. rewrite extract_bits; try assumption.
    + f_equal. f_equal. unfold acc_width. f_equal.
      rewrite zlen_skipn, Zu.
      replace (Z.max 0 _) with (s + (zlen (r_buf r) - r_byten r - Z.of_nat j) * 8) by (unfold s, zlen in *; lia).
      rewrite Z.mod_add; lia.
    + pose proof (bval_range (firstn (Z.to_nat n) X)) as R.
      replace (zlen (firstn (Z.to_nat n) X)) with n in R by (rewrite zlen_firstn; unfold zlen; lia). exact R.
    + pose proof (bval_range (skipn (Z.to_nat n) X)) as R.
      replace (zlen (skipn (Z.to_nat n) X)) with s in R by (rewrite zlen_skipn; unfold zlen; lia). exact R.
  - constructor; cbn [r_buf r_count r_byten r_bitn]; try assumption.
    + split; assumption.
    + lia.
    + lia.
    + left. unfold zlen in *; lia.
  - reflexivity.
  - cbn [fst]. unfold unread. cbn [r_buf]. rewrite skipn_skipn. f_equal.
    unfold pos at 1. cbn [r_byten r_bitn]. unfold s. lia.
Qed.

(* ---------- simulation of the remaining operations ---------- *)
Definition sim {A} (op : reader -> reader * res A) (sp : list bool -> list bool * res A) : Prop :=
  forall r, rd_ok r -> r_buf r <> [] ->
  exists r', op r = (r', snd (sp (unread r)))
    /\ rd_ok r' /\ r_buf r' = r_buf r /\ unread r' = fst (sp (unread r)).

Lemma sim_read n : 0 <= n -> sim (fun r => read_bits r n) (spec_read n).
Proof. intros Hn r H Hne. apply read_bits_spec; assumption. Qed.

Lemma acc_width_bound u : 25 <= acc_width u <= 32.
Proof. unfold acc_width. pose proof (Z.mod_pos_bound (zlen u) 8). lia. Qed.

(* when the read fits the accumulator there is no loss *)
Lemma spec_read_ideal n u :
  0 <= n -> n <= acc_width (skipn (Z.to_nat n) u) -> spec_read n u = ideal_read n u.
Proof.
  intros Hn Hw. unfold spec_read, ideal_read.
  destruct ((n >? 32) || (n >? zlen u)) eqn:E; [reflexivity|].
  rewrite Z.mod_small; [reflexivity|].
  pose proof (bval_range (firstn (Z.to_nat n) u)) as R. rewrite zlen_firstn in R.
  replace (Z.min (Z.of_nat (Z.to_nat n)) (zlen u)) with n in R by lia.
  split; [lia|]. apply Z.lt_le_trans with (2 ^ n); [lia|]. apply Z.pow_le_mono_r; lia.
Qed.

Lemma spec_read_25 n u : 0 <= n <= 25 -> spec_read n u = ideal_read n u.
Proof. intros H. apply spec_read_ideal; [lia|]. pose proof (acc_width_bound (skipn (Z.to_nat n) u)). lia. Qed.

Lemma spec_read_1 u :
  spec_read 1 u = match u with [] => ([], Err ErrUnexpectedEOF) | b :: r => (r, Ok (Z.b2z b)) end.
Proof.
  rewrite spec_read_25 by lia. unfold ideal_read. destruct u as [|b r].
  - reflexivity.
  - rewrite zlen_cons. pose proof (zlen_nonneg r).
    replace ((1 >? 32) || (1 >? zlen r + 1)) with false by lia.
    change (Z.to_nat 1) with 1%nat. cbn [firstn skipn]. destruct b; reflexivity.
Qed.

Lemma sim_flag : sim read_flag spec_flag.
Proof.
  intros r H Hne. destruct (sim_read 1 ltac:(lia) r H Hne) as (r' & E & H' & B' & U').
  unfold read_flag. rewrite E. rewrite spec_read_1 in *. exists r'.
  destruct (unread r) as [|[|] u]; cbn [fst snd spec_flag bind Z.b2z] in *; auto.
Qed.

Lemma sim_read_byte n : 0 <= n -> sim (fun r => read_byte_bits r n) (spec_read_byte n).
Proof.
  intros Hn r H Hne. unfold read_byte_bits, spec_read_byte.
  replace (if n >? 8 then 8 else n) with (Z.min n 8) by (destruct (n >? 8) eqn:?; lia).
  destruct (sim_read (Z.min n 8) ltac:(lia) r H Hne) as (r' & E & H' & B' & U').
  rewrite E. exists r'. splits; auto. f_equal.
  rewrite (spec_read_25 (Z.min n 8) (unread r)) by lia. unfold ideal_read.
  destruct (_ || _) eqn:G; cbn [snd bind]; [reflexivity|]. f_equal.
  apply u8_small. pose proof (bval_range (firstn (Z.to_nat (Z.min n 8)) (unread r))) as R.
  rewrite zlen_firstn in R. split; [lia|]. eapply Z.lt_le_trans; [apply R|].
  apply Z.pow_le_mono_r; lia.
Qed.

Definition zero_out (u : list bool) (z : Z) : list bool * res Z :=
  match spec_zeroes u with
  | None => ([], Err ErrUnexpectedEOF)
  | Some (k, r) => (r, Ok (z + Z.of_nat k))
  end.

Lemma count_zeroes_spec : forall fuel r z,
  rd_ok r -> r_buf r <> [] -> (length (unread r) < fuel)%nat ->
  0 <= z -> z + zlen (unread r) < 2 ^ 64 ->
  exists r', count_zeroes fuel r z = (r', snd (zero_out (unread r) z))
    /\ rd_ok r' /\ r_buf r' = r_buf r /\ unread r' = fst (zero_out (unread r) z).
Proof.
  induction fuel as [|fuel IH]; intros r z H Hne Hf Hz Hzb; [lia|].
  cbn [count_zeroes].
  destruct (sim_read 1 ltac:(lia) r H Hne) as (r1 & E & H1 & B1 & U1).
  rewrite E. rewrite spec_read_1 in *. unfold zero_out.
  destruct (unread r) as [|b u] eqn:Eu; cbn [snd fst] in *.
  - exists r1. auto.
  - rewrite zlen_cons in Hzb. pose proof (zlen_nonneg u). destruct b; cbn [Z.b2z].
    + cbn [Z.eqb]. exists r1. splits; auto. cbn. f_equal. f_equal. lia.
    + cbn [Z.eqb]. rewrite u64_small by lia.
      destruct (IH r1 (z + 1)) as (r2 & E2 & H2 & B2 & U2); auto; try congruence; try lia.
      { rewrite U1. cbn [length] in Hf. lia. }
      { rewrite U1. lia. }
      exists r2. rewrite U1 in *. unfold zero_out in *. cbn [spec_zeroes].
      splits; auto; try congruence.
      * rewrite E2. destruct (spec_zeroes u) as [[k r']|]; cbn; [|reflexivity].
        f_equal. f_equal. lia.
      * rewrite U2. destruct (spec_zeroes u) as [[k r']|]; reflexivity.
Qed.

Lemma unread_bound r : rd_ok r -> zlen (unread r) < 2 ^ 63.
Proof.
  intros H. rewrite zlen_unread by exact H. destruct H as [[Hb Hl] Hc Hy Hn Hp]. lia.
Qed.

Lemma bits_fuel_ok r : rd_ok r -> (length (unread r) < bits_fuel r)%nat.
Proof. intros H. unfold bits_fuel. rewrite available_unread by exact H. unfold zlen. lia. Qed.

Lemma count_zeroes_sim r : rd_ok r -> r_buf r <> [] ->
  exists r', count_zeroes (bits_fuel r) r 0 = (r', snd (zero_out (unread r) 0))
    /\ rd_ok r' /\ r_buf r' = r_buf r /\ unread r' = fst (zero_out (unread r) 0).
Proof.
  intros H Hne. pose proof (unread_bound r H). pose proof (zlen_nonneg (unread r)).
  apply count_zeroes_spec; auto; try lia. apply bits_fuel_ok; exact H.
Qed.

Lemma u32_ue v z : 0 <= z <= 32 -> 0 <= v < 2 ^ 32 ->
  u32 (u32 (v + u32 (Z.shiftl 1 z)) - 1) = (v + 2 ^ z - 1) mod 2 ^ 32.
Proof.
  intros Hz Hv. unfold u32. rewrite Z.shiftl_1_l.
  rewrite Z.add_mod_idemp_r by lia. rewrite Zminus_mod_idemp_l. f_equal.
Qed.

Lemma spec_read_range n u u' v : spec_read n u = (u', Ok v) -> 0 <= v < 2 ^ 32.
Proof.
  unfold spec_read. destruct (_ || _); intros E; [discriminate|]. injection E as <- <-.
  pose proof (acc_width_bound (skipn (Z.to_nat n) u)) as W.
  pose proof (Z.mod_pos_bound (bval (firstn (Z.to_nat n) u)) (2 ^ acc_width (skipn (Z.to_nat n) u))
               ltac:(apply Z.pow_pos_nonneg; lia)) as M.
  split; [lia|]. eapply Z.lt_le_trans; [apply M|]. apply Z.pow_le_mono_r; lia.
Qed.

Lemma spec_read_cases n u :
  (exists v, spec_read n u = (skipn (Z.to_nat n) u, Ok v) /\ n <= 32 /\ n <= zlen u) \/
  (spec_read n u = (u, Err ErrUnexpectedEOF) /\ (32 < n \/ zlen u < n)).
Proof.
  unfold spec_read. destruct (_ || _) eqn:E; [right | left].
  - split; [reflexivity | lia].
  - eexists; split; [reflexivity | lia].
Qed.

Lemma sim_ue : sim read_ue spec_ue.
Proof.
  intros r H Hne. unfold read_ue, spec_ue.
  destruct (count_zeroes_sim r H Hne) as (r1 & E & H1 & B1 & U1).
  rewrite E. unfold zero_out in *.
  destruct (spec_zeroes (unread r)) as [[k u]|] eqn:Z0; cbn [fst snd] in *.
  - destruct (sim_read (0 + Z.of_nat k) ltac:(lia) r1 H1 ltac:(congruence)) as (r2 & E2 & H2 & B2 & U2).
    rewrite E2. rewrite U1 in *. rewrite Z.add_0_l in *.
    exists r2. destruct (spec_read_cases (Z.of_nat k) u) as [(v & Ev & Hk)|[Ev Hk]]; rewrite Ev in *; cbn [fst snd bind] in *.
    + splits; auto; try congruence. f_equal. f_equal.
      apply u32_ue; [lia|]. eapply spec_read_range; eauto.
    + splits; auto; congruence.
  - exists r1. auto.
Qed.

Lemma spec_ue_range u u' v : spec_ue u = (u', Ok v) -> 0 <= v < 2 ^ 32.
Proof.
  unfold spec_ue. destruct (spec_zeroes u) as [[k w]|]; [|discriminate].
  destruct (spec_read (Z.of_nat k) w) as [w' [x| | |]]; intros E; try discriminate.
  injection E as <- <-. apply Z.mod_pos_bound; lia.
Qed.

Lemma se_of_ue_spec k : 0 <= k < 2 ^ 32 -> se_of_ue k = if k =? 2 ^ 32 - 1 then 0 else signed_of k.
Proof.
  intros Hk. unfold se_of_ue, signed_of.
  change 1 with (Z.ones 1) at 1. rewrite Z.land_ones by lia.
  rewrite Zeven_mod. change (2 ^ 1) with 2.
  pose proof (Z.div_mod k 2 ltac:(lia)). pose proof (Z.mod_pos_bound k 2 ltac:(lia)).
  destruct (k =? 2 ^ 32 - 1) eqn:Em.
  - apply Z.eqb_eq in Em. subst k. vm_compute. reflexivity.
  - apply Z.eqb_neq in Em. destruct (Z.eq_dec (k mod 2) 0) as [e|e].
    + rewrite e. change (0 =? 0) with true. cbn match.
      replace (Zeq_bool 0 0) with true by reflexivity. rewrite !i32_small; try lia.
      all: rewrite ?i32_small; lia.
    + replace (k mod 2 =? 0) with false by lia.
      replace (Zeq_bool (k mod 2) 0) with false.
      2:{ symmetry. apply Bool.not_true_iff_false. intros X. apply Zeq_bool_eq in X. lia. }
      rewrite u32_small by lia.
      assert (0 <= (k + 1) / 2 < 2 ^ 31) by (split; [apply Z.div_pos; lia | apply Z.div_lt_upper_bound; lia]).
      rewrite i32_small; lia.
Qed.

Lemma spec_ue_outcomes u : (exists u' v, spec_ue u = (u', Ok v)) \/ (exists u', spec_ue u = (u', Err ErrUnexpectedEOF)).
Proof.
  unfold spec_ue. destruct (spec_zeroes u) as [[k w]|]; [|eauto].
  destruct (spec_read_cases (Z.of_nat k) w) as [(v & Ev & Hk)|[Ev Hk]]; rewrite Ev; eauto.
Qed.

Lemma sim_se : sim read_se spec_se.
Proof.
  intros r H Hne. unfold read_se, spec_se.
  destruct (sim_ue r H Hne) as (r1 & E & H1 & B1 & U1). rewrite E. exists r1.
  destruct (spec_ue_outcomes (unread r)) as [(u' & v & Ev)|(u' & Ev)]; rewrite Ev in *; cbn [fst snd bind] in *.
  - splits; auto. f_equal. f_equal. apply se_of_ue_spec. eapply spec_ue_range; eauto.
  - auto.
Qed.

Lemma spec_se_outcomes u : (exists u' v, spec_se u = (u', Ok v) /\ - 2 ^ 31 <= v < 2 ^ 31) \/ (exists u', spec_se u = (u', Err ErrUnexpectedEOF)).
Proof.
  unfold spec_se. destruct (spec_ue_outcomes u) as [(u' & v & Ev)|(u' & Ev)]; rewrite Ev; [left|right; eauto].
  exists u'. eexists; split; [reflexivity|].
  pose proof (spec_ue_range _ _ _ Ev) as R. destruct (v =? 2 ^ 32 - 1) eqn:E; [lia|].
  unfold signed_of. pose proof (Z.div_mod v 2 ltac:(lia)). pose proof (Z.mod_pos_bound v 2 ltac:(lia)).
  assert (0 <= (v + 1) / 2 < 2 ^ 31) by (split; [apply Z.div_pos; lia | apply Z.div_lt_upper_bound; lia]).
  destruct (Z.even v); lia.
Qed.

Lemma skip_gather_same : forall fuel buf n byten val bits b v x,
  gather fuel buf n byten val bits = Ok (b, v, x) -> skip_gather fuel n byten bits = Ok (b, x).
Proof.
  induction fuel as [|fuel IH]; intros buf n byten val bits b v x; cbn [gather skip_gather];
    destruct (n >? bits); intros E; try discriminate; try (injection E as <- <- <-; reflexivity).
  destruct (index_z buf (u64 (byten + 1))) as [y| | |]; cbn [bind] in E; try discriminate.
  eapply IH; eauto.
Qed.

(* SkipBits and ReadBits agree on every valid reader over a non-empty buffer. *)
Lemma skip_read_agree r n : rd_ok r -> r_buf r <> [] -> 0 <= n ->
  skip_bits r n = (fst (read_bits r n), match snd (read_bits r n) with Ok _ => Ok tt | Err e => Err e | Panic => Panic | Fuel => Fuel end).
Proof.
  intros H Hne Hn. destruct (read_bits_spec r n H Hne Hn) as (r' & E & _).
  unfold skip_bits. unfold read_bits in *.
  destruct ((n >? 32) || (n >? available r)) eqn:G; [reflexivity|].
  destruct (index_z (r_buf r) (r_byten r)) as [b| | |].
  2,3,4: exfalso; destruct (spec_read_cases n (unread r)) as [(v & Ev & Hk)|[Ev Hk]]; rewrite Ev in E; try discriminate;
    rewrite available_unread in G by exact H; lia.
  destruct (gather _ _ _ _ _ _) as [[[x y] z]| | |] eqn:Eg.
  2,3,4: exfalso; destruct (spec_read_cases n (unread r)) as [(v & Ev & Hk)|[Ev Hk]]; rewrite Ev in E; try discriminate;
    rewrite available_unread in G by exact H; lia.
  apply skip_gather_same in Eg. rewrite Eg. reflexivity.
Qed.

Lemma sim_skip n : 0 <= n -> sim (fun r => skip_bits r n) (spec_skip n).
Proof.
  intros Hn r H Hne. rewrite (skip_read_agree r n H Hne Hn).
  destruct (read_bits_spec r n H Hne Hn) as (r' & E & H' & B' & U'). rewrite E. cbn [fst snd].
  exists r'. unfold spec_read, spec_skip in *. destruct (_ || _); cbn in *; auto.
Qed.

Lemma sim_skip_ue : sim skip_ue spec_skip_ue.
Proof.
  intros r H Hne. unfold skip_ue, spec_skip_ue.
  destruct (count_zeroes_sim r H Hne) as (r1 & E & H1 & B1 & U1).
  rewrite E. unfold zero_out in *.
  destruct (spec_zeroes (unread r)) as [[k u]|]; cbn [fst snd] in *.
  - destruct (sim_skip (0 + Z.of_nat k) ltac:(lia) r1 H1 ltac:(congruence)) as (r2 & E2 & H2 & B2 & U2).
    rewrite E2, U1 in *. rewrite Z.add_0_l in *. exists r2. splits; auto; congruence.
  - exists r1; auto.
Qed.

(* bitn mod 8 is determined by the number of unread bits *)
Lemma bitn_aligned r : rd_ok r -> (negb (r_bitn r =? 0) && negb (r_bitn r =? 8)) = negb (zlen (unread r) mod 8 =? 0).
Proof.
  intros H. rewrite zlen_unread by exact H. destruct H as [_ _ Hy Hn _].
  replace (8 * zlen (r_buf r) - (8 * r_byten r + r_bitn r)) with (- r_bitn r + (zlen (r_buf r) - r_byten r) * 8) by lia.
  rewrite Z.mod_add by lia.
  assert (C : r_bitn r = 0 \/ r_bitn r = 1 \/ r_bitn r = 2 \/ r_bitn r = 3 \/ r_bitn r = 4 \/
              r_bitn r = 5 \/ r_bitn r = 6 \/ r_bitn r = 7 \/ r_bitn r = 8) by lia.
  repeat (destruct C as [->|C]; [reflexivity|]). rewrite C. reflexivity.
Qed.

Lemma align_loop_spec : forall fuel r,
  rd_ok r -> r_buf r <> [] -> zlen (unread r) mod 8 <= Z.of_nat fuel ->
  forall k, k = Z.to_nat (zlen (unread r) mod 8) ->
  exists r', align_loop fuel r =
      (r', if snd (skip_zeros k (unread r)) then Ok tt else Err ErrMissingTrailingBits)
    /\ rd_ok r' /\ r_buf r' = r_buf r /\ unread r' = fst (skip_zeros k (unread r)).
Proof.
  induction fuel as [|fuel IH]; intros r H Hne Hf; cbn [align_loop];
    rewrite bitn_aligned by exact H;
    pose proof (Z.mod_pos_bound (zlen (unread r)) 8 ltac:(lia)) as M; intros k ->.
  - replace (zlen (unread r) mod 8) with 0 in * by lia. cbn. exists r; auto.
  - destruct (zlen (unread r) mod 8 =? 0) eqn:E0; cbn [negb].
    + apply Z.eqb_eq in E0. rewrite E0. cbn. exists r; auto.
    + apply Z.eqb_neq in E0.
      destruct (sim_read 1 ltac:(lia) r H Hne) as (r1 & E & H1 & B1 & U1).
      rewrite E, spec_read_1 in *.
      destruct (unread r) as [|b u] eqn:Eu; [cbn in E0; lia|]. cbn [fst snd] in *.
      rewrite zlen_cons in *.
      assert (Ek : zlen u mod 8 = (zlen u + 1) mod 8 - 1).
      { pose proof (Z.div_mod (zlen u + 1) 8 ltac:(lia)).
        replace (zlen u) with ((zlen u + 1) mod 8 - 1 + ((zlen u + 1) / 8) * 8) at 1 by lia.
        rewrite Z.mod_add, Z.mod_small by lia. lia. }
      replace (Z.to_nat ((zlen u + 1) mod 8)) with (S (Z.to_nat (zlen u mod 8))) by lia.
      cbn [skip_zeros]. destruct b; cbn [Z.b2z Z.eqb fst snd].
      * exists r1. splits; auto.
      * destruct (IH r1 H1 ltac:(congruence) ltac:(rewrite U1; lia) _ eq_refl) as (r2 & E2 & H2 & B2 & U2).
        rewrite U1 in *. exists r2. splits; auto. congruence.
Qed.

Lemma sim_trailing : sim skip_trailing_bits spec_trailing.
Proof.
  intros r H Hne. unfold skip_trailing_bits.
  destruct (sim_read 1 ltac:(lia) r H Hne) as (r1 & E & H1 & B1 & U1).
  rewrite E, spec_read_1 in *. unfold spec_trailing.
  destruct (unread r) as [|[|] u]; cbn [fst snd Z.b2z Z.eqb] in *.
  - exists r1. splits; auto.
  - destruct (align_loop_spec 8 r1 H1 ltac:(congruence)
                  ltac:(pose proof (Z.mod_pos_bound (zlen (unread r1)) 8); lia) _ eq_refl) as (r2 & E2 & H2 & B2 & U2).
    rewrite U1 in *. destruct (skip_zeros _ u) as [u' g]. cbn [fst snd] in *.
    exists r2. splits; auto; congruence.
  - exists r1. splits; auto.
Qed.

Lemma scaling_loop_spec : forall n first r lastS nextS ud,
  rd_ok r -> r_buf r <> [] ->
  exists r', scaling_loop n first r lastS nextS ud
             = (r', snd (fst (spec_scaling n first (unread r) lastS nextS ud)),
                    snd (spec_scaling n first (unread r) lastS nextS ud))
    /\ rd_ok r' /\ r_buf r' = r_buf r
    /\ unread r' = fst (fst (spec_scaling n first (unread r) lastS nextS ud)).
Proof.
  induction n as [|n IH]; intros first r lastS nextS ud H Hne; cbn [scaling_loop spec_scaling].
  - exists r; auto.
  - destruct (nextS =? 0) eqn:En; [apply Z.eqb_eq in En; subst nextS|].
    + change (0 =? 0) with true. cbn match.
      destruct (IH false r lastS 0 ud H Hne) as (r1 & E & H1 & B1 & U1).
      rewrite E. destruct (spec_scaling n false (unread r) lastS 0 ud) as [[u' l] o]. cbn in *.
      exists r1; auto.
    + destruct (sim_se r H Hne) as (r1 & E & H1 & B1 & U1). rewrite E.
      destruct (spec_se_outcomes (unread r)) as [(u' & v & Ev & Rv)|(u' & Ev)]; rewrite Ev in *; cbn [fst snd bind] in *.
      * replace (i32 (i32 (lastS + v) + 256)) with (i32 (lastS + v + 256)).
        2:{ unfold i32. f_equal.
            replace ((lastS + v + 2 ^ 31) mod 2 ^ 32 - 2 ^ 31 + 256 + 2 ^ 31)
              with ((lastS + v + 2 ^ 31) mod 2 ^ 32 + 256) by lia.
            rewrite Z.add_mod_idemp_l by lia. f_equal. lia. }
        set (nx := Z.rem (i32 (lastS + v + 256)) 256).
        set (e := if nx =? 0 then lastS else nx).
        destruct (IH false r1 e nx (first && (nx =? 0)) H1 ltac:(congruence)) as (r2 & E2 & H2 & B2 & U2).
        rewrite E2, U1 in *. destruct (spec_scaling n false u' e nx _) as [[u'' l] o]. cbn [fst snd] in *.
        exists r2. splits; auto; congruence.
      * exists r1; auto.
Qed.

Lemma spec_scaling_outcomes : forall n first u lastS nextS ud,
  exists u' l o, spec_scaling n first u lastS nextS ud = (u', l, o) /\
   ((exists b, o = Ok b /\ length l = n) \/ (o = Err ErrUnexpectedEOF /\ (length l <= n)%nat)).
Proof.
  induction n as [|n IH]; intros first u lastS nextS ud; cbn [spec_scaling].
  - do 3 eexists; split; [reflexivity|]. left; eauto.
  - destruct (nextS =? 0).
    + destruct (IH false u lastS nextS ud) as (u' & l & o & E & C). rewrite E.
      do 3 eexists; split; [reflexivity|]. destruct C as [(b & -> & L)|[-> L]]; [left|right]; cbn; eauto; split; auto; lia.
    + destruct (spec_se_outcomes u) as [(u' & v & Ev & Rv)|(u' & Ev)]; rewrite Ev.
      * cbv zeta. match goal with |- context [spec_scaling n false u' ?e ?nx ?b] =>
          destruct (IH false u' e nx b) as (u2 & l & o & E & C) end. rewrite E.
        do 3 eexists; split; [reflexivity|]. destruct C as [(b & -> & L)|[-> L]]; [left|right]; cbn; eauto; split; auto; lia.
      * do 3 eexists; split; [reflexivity|]. right; split; auto; cbn; lia.
Qed.

Lemma payload_loop_spec : forall fuel r acc,
  rd_ok r -> r_buf r <> [] -> 0 <= acc ->
  exists r', payload_loop fuel r (acc mod 2 ^ 32) = (r', snd (spec_payload fuel (unread r) acc))
    /\ rd_ok r' /\ r_buf r' = r_buf r /\ unread r' = fst (spec_payload fuel (unread r) acc).
Proof.
  induction fuel as [|fuel IH]; intros r acc H Hne Ha; cbn [payload_loop spec_payload].
  - exists r; auto.
  - destruct (sim_read 8 ltac:(lia) r H Hne) as (r1 & E & H1 & B1 & U1).
    rewrite E. rewrite spec_read_25 in * by lia. unfold ideal_read in *.
    replace ((8 >? 32) || (8 >? zlen (unread r))) with (zlen (unread r) <? 8) in * by lia.
    destruct (zlen (unread r) <? 8) eqn:El; cbn [fst snd] in *.
    + exists r1; auto.
    + change (Z.to_nat 8) with 8%nat in *.
      pose proof (bval_range (firstn 8 (unread r))) as R.
      unfold u32. rewrite Z.add_mod_idemp_l by lia.
      destruct (bval (firstn 8 (unread r)) =? 255) eqn:Ev.
      * apply Z.eqb_eq in Ev. rewrite Ev.
        destruct (IH r1 (acc + 255) H1 ltac:(congruence) ltac:(lia)) as (r2 & E2 & H2 & B2 & U2).
        rewrite U1 in *. exists r2. splits; auto; congruence.
      * exists r1; auto.
Qed.

(* ---------- empty buffer ---------- *)
Lemma empty_reader r : rd_ok r -> r_buf r = [] -> r = mkReader [] 0 0 0.
Proof.
  intros [_ Hc Hy Hn Hp] E. destruct r as [buf c y n]. cbn in *. subst buf. rewrite zlen_nil in Hc. subst c.
  destruct Hp as [Hp|(_ & -> & ->)]; [lia|reflexivity].
Qed.

Lemma read_bits_empty n : 0 <= n ->
  read_bits (mkReader [] 0 0 0) n = (mkReader [] 0 0 0, if n =? 0 then Panic else Err ErrUnexpectedEOF).
Proof.
  intros Hn. destruct (n =? 0) eqn:E.
  - apply Z.eqb_eq in E. subst n. reflexivity.
  - unfold read_bits. change (available (mkReader [] 0 0 0)) with 0.
    replace ((n >? 32) || (n >? 0)) with true by lia. reflexivity.
Qed.

(* ---------- histories ---------- *)
Lemma spec_payload_fuel : forall f1 f2 u acc,
  (length u < f1)%nat -> (length u < f2)%nat -> spec_payload f1 u acc = spec_payload f2 u acc.
Proof.
  induction f1 as [|f1 IH]; intros [|f2] u acc H1 H2; try lia. cbn [spec_payload].
  destruct (zlen u <? 8) eqn:E; [reflexivity|].
  destruct (bval (firstn 8 u) =? 255); [|reflexivity].
  apply IH; rewrite skipn_length; unfold zlen in E; lia.
Qed.

Lemma exec_op_spec r o : rd_ok r -> r_buf r <> [] -> rop_ok o ->
  exists r', exec_op r o = (r', snd (spec_op (unread r) o))
    /\ rd_ok r' /\ r_buf r' = r_buf r /\ unread r' = fst (spec_op (unread r) o).
Proof.
  intros H Hne Ho.
  assert (G : forall A (op : reader -> reader * res A) sp (k : res A -> rout), sim op sp ->
     exists r', (let '(r, v) := op r in (r, k v)) = (r', snd (let '(u, v) := sp (unread r) in (u, k v)))
       /\ rd_ok r' /\ r_buf r' = r_buf r /\ unread r' = fst (let '(u, v) := sp (unread r) in (u, k v))).
  { intros A op sp k HS. destruct (HS r H Hne) as (r' & E & H' & B' & U'). rewrite E.
    destruct (sp (unread r)) as [u v]. cbn in *. exists r'; auto. }
  destruct o; cbn [exec_op spec_op rop_ok] in *.
  - exact (G _ _ _ OutZ (sim_read n ltac:(lia))).
  - exact (G _ _ _ OutZ (sim_read_byte n ltac:(lia))).
  - exact (G _ _ _ OutB sim_flag).
  - exact (G _ _ _ OutZ sim_ue).
  - exact (G _ _ _ OutZ sim_se).
  - destruct (scaling_loop_spec len true r 8 8 false H Hne) as (r' & E & H' & B' & U').
    unfold read_scaling_list. rewrite E.
    destruct (spec_scaling len true (unread r) 8 8 false) as [[u l] v]. cbn in *. exists r'; auto.
  - exact (G _ _ _ OutU (sim_skip n ltac:(lia))).
  - exact (G _ _ _ OutU sim_skip_ue).
  - exact (G _ _ _ OutU sim_trailing).
  - destruct (payload_loop_spec (bits_fuel r) r 0 H Hne ltac:(lia)) as (r' & E & H' & B' & U').
    change (0 mod 2 ^ 32) with 0 in E. unfold read_payload_param. rewrite E.
    rewrite (spec_payload_fuel (bits_fuel r) (S (length (unread r)))) in *;
      try (apply bits_fuel_ok; exact H); try lia.
    destruct (spec_payload _ (unread r) 0) as [u v]. cbn in *. exists r'; auto.
Qed.

Lemma exec_ops_spec : forall os r, rd_ok r -> r_buf r <> [] -> Forall rop_ok os ->
  exists r', exec_ops r os = (r', snd (spec_ops (unread r) os))
    /\ rd_ok r' /\ r_buf r' = r_buf r /\ unread r' = fst (spec_ops (unread r) os).
Proof.
  induction os as [|o os IH]; intros r H Hne Ho; cbn [exec_ops spec_ops].
  - exists r; auto.
  - apply Forall_cons_iff in Ho as [Ho Hos].
    destruct (exec_op_spec r o H Hne Ho) as (r1 & E & H1 & B1 & U1). rewrite E.
    destruct (spec_op (unread r) o) as [u x]. cbn [fst snd] in *.
    destruct (IH r1 H1 ltac:(congruence) Hos) as (r2 & E2 & H2 & B2 & U2). rewrite E2, U1 in *.
    destruct (spec_ops u os) as [u' xs]. cbn [fst snd] in *.
    exists r2. splits; auto; congruence.
Qed.

(* ---------- codewords ---------- *)
Lemma spec_zeroes_code z r : spec_zeroes (repeat false z ++ true :: r) = Some (z, r).
Proof. induction z as [|z IH]; cbn; [reflexivity|]. rewrite IH. reflexivity. Qed.

Lemma ue_code_shape v : 0 <= v ->
  ue_code v = repeat false (Z.to_nat (Z.log2 (v + 1))) ++ true :: bin (Z.to_nat (Z.log2 (v + 1))) (v + 1).
Proof.
  intros Hv. unfold ue_code. cbn [bin]. f_equal. f_equal.
  rewrite Z2Nat.id by apply Z.log2_nonneg. apply Z.bit_log2. lia.
Qed.

Lemma log2_bounds v : 0 <= v -> 2 ^ Z.log2 (v + 1) <= v + 1 < 2 * 2 ^ Z.log2 (v + 1).
Proof.
  intros Hv. pose proof (Z.log2_spec (v + 1) ltac:(lia)) as L.
  rewrite Z.pow_succ_r in L by apply Z.log2_nonneg. lia.
Qed.

(* exact result of reading a ue(v) codeword *)
Lemma spec_ue_code_exact v rest : 0 <= v -> Z.log2 (v + 1) <= 32 ->
  spec_ue (ue_code v ++ rest) =
  (rest, Ok ((((v + 1) - 2 ^ Z.log2 (v + 1)) mod 2 ^ acc_width rest + 2 ^ Z.log2 (v + 1) - 1) mod 2 ^ 32)).
Proof.
  intros Hv Hz. rewrite ue_code_shape by exact Hv. set (z := Z.log2 (v + 1)) in *.
  assert (0 <= z) by apply Z.log2_nonneg.
  unfold spec_ue. rewrite <- app_assoc. cbn [app]. rewrite spec_zeroes_code.
  rewrite Z2Nat.id by lia. unfold spec_read.
  rewrite zlen_app, zlen_bin. pose proof (zlen_nonneg rest).
  replace ((z >? 32) || (z >? Z.of_nat (Z.to_nat z) + zlen rest)) with false by lia.
  rewrite firstn_app_exact, skipn_app_exact by (rewrite bin_length; reflexivity).
  rewrite bval_bin, Z2Nat.id by lia.
  replace ((v + 1) mod 2 ^ z) with (v + 1 - 2 ^ z).
  2:{ pose proof (log2_bounds v Hv) as L. fold z in L.
      replace (v + 1) with (v + 1 - 2 ^ z + 1 * 2 ^ z) at 2 by lia.
      rewrite Z.mod_add by lia. rewrite Z.mod_small; lia. }
  reflexivity.
Qed.

Lemma spec_ue_code v rest : 0 <= v < 2 ^ 32 - 1 -> Z.log2 (v + 1) <= acc_width rest ->
  spec_ue (ue_code v ++ rest) = (rest, Ok v).
Proof.
  intros Hv Hw. pose proof (acc_width_bound rest).
  rewrite spec_ue_code_exact by lia. f_equal. f_equal.
  pose proof (log2_bounds v ltac:(lia)) as L.
  pose proof (Z.pow_le_mono_r 2 (Z.log2 (v+1)) (acc_width rest) ltac:(lia) Hw).
  rewrite (Z.mod_small _ (2 ^ acc_width rest)) by lia.
  rewrite Z.mod_small; lia.
Qed.

Lemma log2_26 v : 0 <= v < 2 ^ 26 - 1 -> Z.log2 (v + 1) <= 25.
Proof. intros H. assert (Z.log2 (v + 1) < 26) by (apply Z.log2_lt_pow2; lia). lia. Qed.

Lemma spec_ue_code_small v rest : 0 <= v < 2 ^ 26 - 1 -> spec_ue (ue_code v ++ rest) = (rest, Ok v).
Proof.
  intros H. apply spec_ue_code; [lia|]. pose proof (log2_26 v H). pose proof (acc_width_bound rest). lia.
Qed.

Lemma signed_of_num v : signed_of (se_num v) = v.
Proof.
  unfold signed_of, se_num. destruct (v >? 0) eqn:E.
  - replace (Z.even (2 * v - 1)) with false.
    2:{ symmetry. rewrite Z.even_sub, Z.even_mul. reflexivity. }
    replace (2 * v - 1 + 1) with (v * 2) by lia. apply Z.div_mul; lia.
  - replace (Z.even (-2 * v)) with true by (symmetry; rewrite Z.even_mul; reflexivity).
    replace (-2 * v) with ((- v) * 2) by lia. rewrite Z.div_mul; lia.
Qed.

Lemma se_num_range v : 0 <= se_num v.
Proof. unfold se_num; destruct (v >? 0) eqn:E; lia. Qed.

Lemma spec_se_code v rest : - 2 ^ 31 < v < 2 ^ 31 -> Z.log2 (se_num v + 1) <= acc_width rest ->
  spec_se (se_code v ++ rest) = (rest, Ok v).
Proof.
  intros Hv Hw. unfold spec_se, se_code.
  pose proof (se_num_range v).
  assert (se_num v < 2 ^ 32 - 1) by (unfold se_num; destruct (v >? 0) eqn:E; lia).
  rewrite spec_ue_code by (try assumption; lia).
  replace (se_num v =? 2 ^ 32 - 1) with false by lia. rewrite signed_of_num. reflexivity.
Qed.

Lemma num_of_signed k : 0 <= k -> se_num (signed_of k) = k.
Proof.
  intros H. unfold signed_of, se_num. destruct (Z.even k) eqn:E.
  - apply Z.even_spec in E as [m ->]. replace (2 * m / 2) with m by (rewrite Z.mul_comm, Z.div_mul; lia).
    destruct (- m >? 0) eqn:G; lia.
  - assert (O : Z.odd k = true) by (rewrite <- Z.negb_even, E; reflexivity). apply Z.odd_spec in O as [m ->].
    replace (2 * m + 1 + 1) with ((m + 1) * 2) by lia. rewrite Z.div_mul by lia. destruct (m + 1 >? 0) eqn:G; lia.
Qed.

Lemma spec_se_code_small v rest : - 2 ^ 25 < v < 2 ^ 25 -> spec_se (se_code v ++ rest) = (rest, Ok v).
Proof.
  intros Hv. apply spec_se_code; [lia|]. pose proof (se_num_range v).
  assert (se_num v < 2 ^ 26 - 1) by (unfold se_num; destruct (v >? 0) eqn:E; lia).
  pose proof (log2_26 (se_num v) ltac:(lia)). pose proof (acc_width_bound rest). lia.
Qed.

(* ---------- scaling lists ---------- *)
Lemma rem_mod_pos a : 0 <= a -> Z.rem a 256 = a mod 256.
Proof. intros; apply Z.rem_mod_nonneg; lia. Qed.

Lemma spec_scaling_deltas : forall n first ds lastS nextS ud l ud' ds' rest,
  0 < lastS < 256 -> 0 <= nextS < 256 -> Forall (fun d => -128 <= d <= 127) ds ->
  scaling_list n first ds lastS nextS ud = Some (l, ud', ds') ->
  spec_scaling n first (flat_map se_code ds ++ rest) lastS nextS ud
  = (flat_map se_code ds' ++ rest, l, Ok ud').
Proof.
  induction n as [|n IH]; intros first ds lastS nextS ud l ud' ds' rest HL HN HD; cbn [scaling_list spec_scaling].
  - intros E; injection E as <- <- <-. reflexivity.
  - destruct (nextS =? 0) eqn:En.
    + apply Z.eqb_eq in En; subst nextS. change (0 =? 0) with true. cbn match.
      destruct (scaling_list n false ds lastS 0 ud) as [[[l1 u1] d1]|] eqn:E1; [|discriminate].
      intros E; injection E as <- <- <-. rewrite (IH _ _ _ _ _ _ _ _ _ HL HN HD E1). reflexivity.
    + destruct ds as [|d ds]; [discriminate|]. apply Forall_cons_iff in HD as [Hd HD].
      cbn [flat_map]. rewrite <- app_assoc, spec_se_code_small by lia.
      cbv zeta. rewrite i32_small by lia. rewrite rem_mod_pos by lia.
      pose proof (Z.mod_pos_bound (lastS + d + 256) 256 ltac:(lia)) as M.
      set (nx := (lastS + d + 256) mod 256) in *. set (e := if nx =? 0 then lastS else nx).
      assert (He : 0 < e < 256) by (unfold e; destruct (nx =? 0) eqn:E; lia).
      destruct (scaling_list n false ds e nx (first && (nx =? 0))) as [[[l1 u1] d1]|] eqn:E1; [|discriminate].
      intros E; injection E as <- <- <-. rewrite (IH _ _ _ _ _ _ _ _ _ He M HD E1). reflexivity.
Qed.

(* ---------- payload parameters ---------- *)
Lemma bits_of_ff b r : firstn 8 (byte_bits b ++ r) = byte_bits b /\ skipn 8 (byte_bits b ++ r) = r.
Proof. split; reflexivity. Qed.

Lemma spec_payload_code : forall k fuel acc b rest,
  0 <= acc -> 0 <= b < 255 -> lt (length (bits_of (repeat 255 k ++ [b]) ++ rest)) fuel ->
  spec_payload fuel (bits_of (repeat 255 k ++ [b]) ++ rest) acc = (rest, Ok ((acc + 255 * Z.of_nat k + b) mod 2 ^ 32)).
Proof.
  induction k as [|k IH]; intros fuel acc b rest Ha Hb Hf; destruct fuel as [|fuel]; try lia.
  - cbn [repeat app] in *. change (bits_of [b]) with (byte_bits b ++ []) in *. rewrite app_nil_r in *.
    cbn [spec_payload]. rewrite zlen_app. change (zlen (byte_bits b)) with 8. pose proof (zlen_nonneg rest).
    replace (8 + zlen rest <? 8) with false by lia.
    destruct (bits_of_ff b rest) as [F S]. rewrite F, S, bval_byte by (unfold byte_ok; lia).
    replace (b =? 255) with false by lia. f_equal. f_equal. f_equal. lia.
  - cbn [repeat app] in *.
    change (bits_of (255 :: repeat 255 k ++ [b])) with (byte_bits 255 ++ bits_of (repeat 255 k ++ [b])) in *.
    rewrite <- app_assoc in *. set (tl := bits_of (repeat 255 k ++ [b]) ++ rest) in *.
    cbn [spec_payload]. rewrite zlen_app. change (zlen (byte_bits 255)) with 8. pose proof (zlen_nonneg tl).
    replace (8 + zlen tl <? 8) with false by lia.
    destruct (bits_of_ff 255 tl) as [F S]. rewrite F, S. change (bval (byte_bits 255) =? 255) with true. cbn match.
    unfold tl in *. rewrite IH; try lia.
    + f_equal. f_equal. f_equal. lia.
    + rewrite app_length in Hf. change (length (byte_bits 255)) with 8%nat in Hf. lia.
Qed.

(* ---------- reachable readers ---------- *)
Lemma reached_ok buf r : buf_ok buf -> buf <> [] -> reached buf r ->
  rd_ok r /\ r_buf r = buf /\ unread r = rest_bits buf (available r).
Proof.
  intros Hb Hne (os & Ho & E).
  destruct (exec_ops_spec os (new_reader buf) (new_reader_ok _ Hb) Hne Ho) as (r' & E' & H' & B' & U').
  rewrite E' in E. cbn in E. subst r'. cbn in B'. splits; auto.
  rewrite available_unread by exact H'. unfold rest_bits. rewrite zlen_unread by exact H'.
  rewrite <- B'. destruct (pos_bound r H') as [P _]. unfold unread. f_equal.
  unfold zlen in *. pose proof (pos_bound r H'). unfold zlen in *. lia.
Qed.

Lemma reached_step buf r o : reached buf r -> rop_ok o -> reached buf (fst (exec_op r o)).
Proof.
  intros (os & Ho & E) Hk. exists (os ++ [o]). split; [apply Forall_app; auto|].
  rewrite <- E. clear E Ho. generalize (new_reader buf). induction os as [|o' os IH]; intros r0; cbn [exec_ops app].
  - cbn. destruct (exec_op r0 o) as [r1 x]. reflexivity.
  - destruct (exec_op r0 o') as [r1 x]. specialize (IH r1).
    destruct (exec_ops r1 os) as [r2 xs]. destruct (exec_ops r1 (os ++ [o])) as [r3 ys]. exact IH.
Qed.

Lemma rest_bits_zlen buf a : 0 <= a <= 8 * zlen buf -> zlen (rest_bits buf a) = a.
Proof.
  intros H. unfold rest_bits. unfold zlen in *. rewrite skipn_length, bits_of_length. lia.
Qed.

Lemma good_z (v : res Z) (P : (exists x, v = Ok x) \/ v = Err ErrUnexpectedEOF) : v <> Panic /\ v <> Fuel.
Proof. destruct P as [[x ->]| ->]; split; discriminate. Qed.

Lemma spec_payload_good : forall fuel u acc, (length u < fuel)%nat ->
  (exists x, snd (spec_payload fuel u acc) = Ok x) \/ snd (spec_payload fuel u acc) = Err ErrUnexpectedEOF.
Proof.
  induction fuel as [|f IH]; intros u acc H; [lia|]. cbn [spec_payload].
  destruct (zlen u <? 8) eqn:E; [right; reflexivity|].
  destruct (bval (firstn 8 u) =? 255); [|left; eexists; reflexivity].
  apply IH. rewrite skipn_length. unfold zlen in E. lia.
Qed.

Lemma spec_op_good u o : rout_good (snd (spec_op u o)).
Proof.
  destruct o; cbn [spec_op].
  - unfold spec_read. destruct ((n >? 32) || (n >? zlen u)); cbn; split; discriminate.
  - unfold spec_read_byte, spec_read. destruct (_ || _); cbn; split; discriminate.
  - destruct u; cbn; split; discriminate.
  - destruct (spec_ue_outcomes u) as [(u' & v & ->)|(u' & ->)]; cbn; split; discriminate.
  - destruct (spec_se_outcomes u) as [(u' & v & -> & _)|(u' & ->)]; cbn; split; discriminate.
  - destruct (spec_scaling_outcomes len true u 8 8 false) as (u' & l & o & E & [(b & -> & _)|[-> _]]); rewrite E; cbn; split; discriminate.
  - unfold spec_skip. destruct ((n >? 32) || (n >? zlen u)); cbn; split; discriminate.
  - unfold spec_skip_ue. destruct (spec_zeroes u) as [[z r]|]; cbn; [|split; discriminate].
    unfold spec_skip. destruct (_ || _); cbn; split; discriminate.
  - destruct u as [|[|] u]; cbn; try (split; discriminate).
    destruct (skip_zeros _ u) as [? []]; cbn; split; discriminate.
  - pose proof (spec_payload_good (S (length u)) u 0 ltac:(lia)) as G.
    destruct (spec_payload _ u 0) as [u' v]. cbn in *. apply good_z, G.
Qed.

Lemma spec_ops_good : forall os u, Forall rout_good (snd (spec_ops u os)).
Proof.
  induction os as [|o os IH]; intros u; cbn [spec_ops]; [constructor|].
  pose proof (spec_op_good u o). destruct (spec_op u o) as [u1 x]. pose proof (IH u1).
  destruct (spec_ops u1 os). cbn in *. constructor; assumption.
Qed.

Lemma skip_zeros_spec : forall k u, (k <= length u)%nat ->
  (snd (skip_zeros k u) = true <-> exists rest, u = repeat false k ++ rest) /\
  (snd (skip_zeros k u) = true -> fst (skip_zeros k u) = skipn k u).
Proof.
  induction k as [|k IH]; intros u H; cbn [skip_zeros repeat app].
  - destruct u; cbn; (split; [split; eauto | reflexivity]).
  - destruct u as [|b u]; [cbn in H; lia|]. cbn in H. destruct b; cbn.
    + split; [split; [discriminate|intros (rest & E); discriminate]|discriminate].
    + destruct (IH u ltac:(lia)) as [A B]. split; [|exact B]. rewrite A.
      split; intros (rest & E); exists rest; [subst|injection E as E]; auto.
Qed.

Lemma reached_new buf : reached buf (new_reader buf).
Proof. exists []. split; [constructor|reflexivity]. Qed.

(* combining a simulation with reachability *)
Lemma reached_sim A (op : reader -> reader * res A) sp buf r :
  sim op sp -> buf_ok buf -> buf <> [] -> reached buf r ->
  exists r', op r = (r', snd (sp (rest_bits buf (available r)))) /\ rd_ok r' /\ r_buf r' = buf /\
    unread r' = fst (sp (rest_bits buf (available r))) /\ available r' = zlen (unread r') /\
    rest_bits buf (available r') = unread r'.
Proof.
  intros HS Hb Hne HR. destruct (reached_ok buf r Hb Hne HR) as (H & B & U).
  destruct (HS r H ltac:(congruence)) as (r' & E & H' & B' & U'). rewrite U in *.
  exists r'. splits; auto; try congruence.
  - apply available_unread; exact H'.
  - unfold rest_bits. rewrite available_unread, zlen_unread by exact H'. rewrite <- B, <- B'.
    destruct (pos_bound r' H') as [P P2]. unfold unread, zlen in *. f_equal. lia.
Qed.

Lemma spec_payload_eof : forall k fuel acc rest,
  zlen rest < 8 -> lt (length (bits_of (repeat 255 k) ++ rest)) fuel ->
  spec_payload fuel (bits_of (repeat 255 k) ++ rest) acc = (rest, Err ErrUnexpectedEOF).
Proof.
  induction k as [|k IH]; intros fuel acc rest Hr Hf; destruct fuel as [|fuel]; try lia.
  - cbn [spec_payload repeat]. change (bits_of [] ++ rest) with rest.
    replace (zlen rest <? 8) with true by lia. reflexivity.
  - cbn [repeat] in *.
    change (bits_of (255 :: repeat 255 k)) with (byte_bits 255 ++ bits_of (repeat 255 k)) in *.
    rewrite <- app_assoc in *. set (tl := bits_of (repeat 255 k) ++ rest) in *.
    cbn [spec_payload]. rewrite zlen_app. change (zlen (byte_bits 255)) with 8. pose proof (zlen_nonneg tl).
    replace (8 + zlen tl <? 8) with false by lia.
    destruct (bits_of_ff 255 tl) as [F S]. rewrite F, S. change (bval (byte_bits 255) =? 255) with true. cbn match.
    unfold tl in *; apply IH; try lia. rewrite app_length in Hf. change (length (byte_bits 255)) with 8%nat in Hf. lia.
Qed.
