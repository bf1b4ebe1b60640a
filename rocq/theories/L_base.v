(* General list / arithmetic lemmas. *)
From Verif Require Import Base.
From Coq Require Import ZifyBool ZifyNat.

Ltac splits := repeat match goal with |- _ /\ _ => split end.

Lemma byte_ok_dec b : byte_okb b = true <-> byte_ok b.
Proof. unfold byte_okb, byte_ok. lia. Qed.

Lemma bytes_okb_spec l : bytes_okb l = true <-> bytes_ok l.
Proof.
  unfold bytes_okb, bytes_ok. rewrite forallb_forall, Forall_forall.
  split; intros H x Hx; apply byte_ok_dec; auto.
Qed.

Lemma zlen_nonneg {A} (l : list A) : 0 <= zlen l.
Proof. unfold zlen; lia. Qed.

Lemma zlen_app {A} (l m : list A) : zlen (l ++ m) = zlen l + zlen m.
Proof. unfold zlen; rewrite app_length; lia. Qed.

Lemma zlen_cons {A} (x : A) l : zlen (x :: l) = zlen l + 1.
Proof. unfold zlen; cbn [length]; lia. Qed.

Lemma zlen_nil {A} : zlen (@nil A) = 0.
Proof. reflexivity. Qed.

Lemma zlen_firstn {A} n (l : list A) : zlen (firstn n l) = Z.min (Z.of_nat n) (zlen l).
Proof. unfold zlen; rewrite firstn_length; lia. Qed.

Lemma zlen_skipn {A} n (l : list A) : zlen (skipn n l) = Z.max 0 (zlen l - Z.of_nat n).
Proof. unfold zlen; rewrite skipn_length; lia. Qed.

Lemma zlen_map {A B} (f : A -> B) l : zlen (map f l) = zlen l.
Proof. unfold zlen; rewrite map_length; lia. Qed.

Lemma zlen_repeat {A} (x : A) n : zlen (repeat x n) = Z.of_nat n.
Proof. unfold zlen; rewrite repeat_length; lia. Qed.

Lemma zlen_0_nil {A} (l : list A) : zlen l = 0 -> l = [].
Proof. destruct l; [reflexivity | rewrite zlen_cons; pose proof (zlen_nonneg l); lia]. Qed.

Lemma skipn_skipn {A} (a b : nat) (l : list A) : skipn a (skipn b l) = skipn (a + b) l.
Proof.
  revert l; induction b as [|b IH]; intros l.
  - rewrite Nat.add_0_r; reflexivity.
  - replace (a + S b)%nat with (S (a + b)) by lia. destruct l as [|x l].
    + rewrite !skipn_nil; reflexivity.
    + cbn [skipn]; apply IH.
Qed.

Lemma firstn_app_exact {A} n (l m : list A) : n = length l -> firstn n (l ++ m) = l.
Proof. intros ->. rewrite firstn_app, Nat.sub_diag, firstn_all, firstn_O, app_nil_r; reflexivity. Qed.

Lemma skipn_app_exact {A} n (l m : list A) : n = length l -> skipn n (l ++ m) = m.
Proof. intros ->. rewrite skipn_app, Nat.sub_diag, skipn_all; reflexivity. Qed.

Lemma firstn_skipn_split {A} n (l : list A) : l = firstn n l ++ skipn n l.
Proof. symmetry; apply firstn_skipn. Qed.

Lemma nth_error_skipn_cons {A} (l : list A) i x :
  nth_error l i = Some x -> skipn i l = x :: skipn (S i) l.
Proof.
  revert i; induction l as [|y l IH]; intros [|i] H; cbn in *; try discriminate.
  - injection H as ->. reflexivity.
  - apply IH; exact H.
Qed.

Lemma nth_error_skipn {A} n (l : list A) k : nth_error (skipn n l) k = nth_error l (n + k).
Proof.
  revert l; induction n as [|n IH]; intros l; [reflexivity|].
  destruct l as [|x l]; cbn [skipn Nat.add nth_error]; [destruct k; reflexivity|apply IH].
Qed.

Lemma last_app_cons {A} (l : list A) x d : last (l ++ [x]) d = x.
Proof. apply last_last. Qed.

Lemma list_last_dec {A} (l : list A) : l = [] \/ exists m x, l = m ++ [x].
Proof. destruct l as [|a l] using rev_ind; [left; reflexivity|right; eauto]. Qed.

Lemma bytes_ok_app l m : bytes_ok (l ++ m) <-> bytes_ok l /\ bytes_ok m.
Proof. unfold bytes_ok; rewrite Forall_app; tauto. Qed.

Lemma bytes_ok_nth l i b : bytes_ok l -> nth_error l i = Some b -> byte_ok b.
Proof. intros H E; apply nth_error_In in E. eapply Forall_forall in H; eauto. Qed.

Lemma bytes_ok_skipn n l : bytes_ok l -> bytes_ok (skipn n l).
Proof.
  intros H. rewrite (firstn_skipn_split n l) in H. apply bytes_ok_app in H. tauto.
Qed.

Lemma bytes_ok_firstn n l : bytes_ok l -> bytes_ok (firstn n l).
Proof.
  intros H. rewrite (firstn_skipn_split n l) in H. apply bytes_ok_app in H. tauto.
Qed.

Lemma beq_eq a b : beq a b = true <-> a = b.
Proof.
  revert b; induction a as [|x a IH]; intros [|y b]; cbn; split; intros H; try congruence.
  - apply andb_true_iff in H as [H1 H2]. apply IH in H2. apply Z.eqb_eq in H1. congruence.
  - injection H as -> ->. rewrite Z.eqb_refl. cbn. apply IH; reflexivity.
Qed.

Lemma beq_refl a : beq a a = true.
Proof. apply beq_eq; reflexivity. Qed.

Lemma beq_neq a b : beq a b = false <-> a <> b.
Proof.
  destruct (beq a b) eqn:E; split; intros H; try congruence.
  - apply beq_eq in E; congruence.
  - intros E'; apply beq_eq in E'; congruence.
Qed.

(* fixed-width integers *)
Lemma u8_small z : 0 <= z < 2 ^ 8 -> u8 z = z.
Proof. intros; apply Z.mod_small; lia. Qed.
Lemma u16_small z : 0 <= z < 2 ^ 16 -> u16 z = z.
Proof. intros; apply Z.mod_small; lia. Qed.
Lemma u32_small z : 0 <= z < 2 ^ 32 -> u32 z = z.
Proof. intros; apply Z.mod_small; lia. Qed.
Lemma u64_small z : 0 <= z < 2 ^ 64 -> u64 z = z.
Proof. intros; apply Z.mod_small; lia. Qed.
Lemma i32_small z : - 2 ^ 31 <= z < 2 ^ 31 -> i32 z = z.
Proof. intros; unfold i32; rewrite Z.mod_small; lia. Qed.
Lemma i64_small z : - 2 ^ 63 <= z < 2 ^ 63 -> i64 z = z.
Proof. intros; unfold i64; rewrite Z.mod_small; lia. Qed.

(* big-endian *)
Lemma be_of_app a b : be_of (a ++ b) = be_of a * 256 ^ zlen b + be_of b.
Proof.
  unfold zlen. induction a as [|x a IH]; cbn [app be_of].
  - lia.
  - rewrite IH, app_length, Nat2Z.inj_add, Z.pow_add_r by lia. ring.
Qed.

Lemma be_of_range l : bytes_ok l -> 0 <= be_of l < 256 ^ zlen l.
Proof.
  induction l as [|b l IH]; intros H; cbn [be_of].
  - cbn; lia.
  - apply Forall_cons_iff in H as [Hb Hl]. specialize (IH Hl).
    rewrite zlen_cons, Z.pow_add_r by (unfold zlen; lia).
    fold (zlen l). unfold byte_ok in Hb. nia.
Qed.

Lemma be_put_length k z : length (be_put k z) = k.
Proof. induction k; cbn; congruence. Qed.

Lemma zlen_be_put k z : zlen (be_put k z) = Z.of_nat k.
Proof. unfold zlen. rewrite be_put_length. reflexivity. Qed.

Lemma be_put_ok k z : bytes_ok (be_put k z).
Proof.
  induction k as [|k IH]; cbn [be_put]; constructor; try exact IH.
  unfold byte_ok; apply Z.mod_pos_bound; lia.
Qed.

Lemma be_of_put k z : be_of (be_put k z) = z mod 256 ^ Z.of_nat k.
Proof.
  induction k as [|k IH]; cbn [be_put be_of].
  - cbn; symmetry; apply Z.mod_1_r.
  - rewrite be_put_length, IH.
    replace (Z.of_nat (S k)) with (Z.of_nat k + 1) by lia.
    rewrite Z.pow_add_r, Z.pow_1_r by lia.
    rewrite Z.rem_mul_r by (try lia; apply Z.pow_nonzero; lia). lia.
Qed.

Lemma be_put_of l : bytes_ok l -> be_put (length l) (be_of l) = l.
Proof.
  induction l as [|b l IH]; intros H; [reflexivity|].
  apply Forall_cons_iff in H as [Hb Hl]. cbn [length be_put be_of].
  pose proof (be_of_range l Hl) as R. unfold zlen in R. unfold byte_ok in Hb.
  f_equal.
  - rewrite Z.div_add_l by lia. rewrite Z.div_small by lia. rewrite Z.add_0_r, Z.mod_small; lia.
  - assert (G: forall k z c, (k <= length l)%nat -> be_put k (c * 256 ^ Z.of_nat (length l) + z) = be_put k z).
    { induction k as [|k IHk]; intros z c Hk; [reflexivity|]. cbn [be_put]. rewrite IHk by lia. f_equal.
      replace (Z.of_nat (length l)) with (Z.of_nat (length l - S k) + 1 + Z.of_nat k) by lia.
      rewrite !Z.pow_add_r by lia. rewrite !Z.mul_assoc.
      rewrite Z.div_add_l by (apply Z.pow_nonzero; lia).
      rewrite Z.pow_1_r. rewrite Z.add_comm, Z.mod_add; lia. }
    rewrite G by lia. exact (IH Hl).
Qed.

Lemma upd_length {A} (l : list A) i x : length (upd l i x) = length l.
Proof. revert i; induction l as [|y l IH]; intros [|i]; cbn; auto. Qed.

Lemma upd_nth_same {A} (l : list A) i x : (i < length l)%nat -> nth_error (upd l i x) i = Some x.
Proof. revert i; induction l as [|y l IH]; intros [|i] H; cbn in *; try lia; auto. apply IH; lia. Qed.

Lemma upd_nth_other {A} (l : list A) i j x : i <> j -> nth_error (upd l i x) j = nth_error l j.
Proof. revert i j; induction l as [|y l IH]; intros [|i] [|j] H; cbn in *; try reflexivity; try lia. apply IH; lia. Qed.
