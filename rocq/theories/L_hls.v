(* Lemmas about the HLS playlist model. *)
From Coq Require Import String.
From Verif Require Import Base GoStrings S_hls M_hls L_base.
From Coq Require Import ZifyBool ZifyNat.

Lemma i64_add a b : i64 (i64 a + b) = i64 (a + b).
Proof.
  unfold i64. set (m := 2 ^ 64). set (c := 2 ^ 63).
  replace ((a + c) mod m - c + b + c) with ((a + c) mod m + b) by ring.
  rewrite Zplus_mod_idemp_l. do 2 f_equal. ring.
Qed.

Definition seg_of (e : Z * Z * Z) : segment := let '(d, l, p) := e in mkSeg d (i64 p) l.

Record inv (k : nat) (uri : bytes) (h : list (Z * Z)) (pl : playlist) : Prop := mkInv {
  inv_ver : pl_version pl = 4;
  inv_uri : pl_uri pl = uri;
  inv_len : length (pl_segs pl) = k;
  inv_last : pl_last pl = match length h with O => -1 | S m => Z.of_nat (m mod k) end;
  inv_first : pl_first pl = match length h with O => -1 | n => Z.of_nat (Nat.min (n - k) k) end;
  inv_segs : forall j, (length h - k <= j < length h)%nat ->
               nth_error (pl_segs pl) (j mod k) = Some (seg_of (entry h j)) }.

Lemma mod_succ m k : (0 < k)%nat -> ((m mod k + 1) mod k = (m + 1) mod k)%nat.
Proof. intros H. rewrite Nat.add_mod_idemp_l by lia. reflexivity. Qed.

Lemma mod_window a b k : (0 < k)%nat -> (a <= b)%nat -> (b < a + k)%nat -> (a mod k = b mod k)%nat -> a = b.
Proof.
  intros Hk H1 H2 E.
  pose proof (Nat.div_mod a k ltac:(lia)) as Da. pose proof (Nat.div_mod b k ltac:(lia)) as Db.
  rewrite E in Da. assert (a / k <= b / k)%nat by (apply Nat.div_le_mono; lia).
  assert (b / k < a / k + 1)%nat by nia. assert (a / k = b / k)%nat as Q by lia. rewrite Q in Da. lia.
Qed.

Lemma entry_app h e j : (j < length h)%nat -> entry (h ++ [e]) j = entry h j.
Proof.
  intros H. unfold entry. rewrite app_nth1 by lia. rewrite firstn_app.
  replace (j - length h)%nat with 0%nat by lia. rewrite firstn_O, app_nil_r. reflexivity.
Qed.

Lemma entry_last h d l : entry (h ++ [(d, l)]) (length h) = (d, l, total h).
Proof.
  unfold entry. rewrite app_nth2, Nat.sub_diag by lia. cbn [nth]. rewrite firstn_app_exact by reflexivity. reflexivity.
Qed.

Lemma total_app a b : total (a ++ b) = total a + total b.
Proof. unfold total. induction a as [|x a IH]; cbn [app fold_right]; [lia|]. rewrite IH. lia. Qed.

Lemma inv_new k uri : inv k uri [] (new_playlist uri k).
Proof. split; cbn; try reflexivity; try lia. apply repeat_length. Qed.

Lemma inv_add k uri h pl d l : (0 < k)%nat -> inv k uri h pl ->
  exists pl', add_segment pl d l = Ok pl' /\ inv k uri (h ++ [(d, l)]) pl'.
Proof.
  intros Hk I. destruct I as [Iv Iu Il Ila If Is]. unfold add_segment.
  set (n := length h) in *.
  assert (HP : (if pl_last pl >=? 0 then let! s := index (pl_segs pl) (Z.to_nat (pl_last pl)) in Ok (i64 (seg_pos s + seg_len s)) else Ok 0)
               = Ok (i64 (total h))).
  { destruct n as [|m] eqn:En.
    - rewrite Ila. subst n. destruct h; [reflexivity|discriminate].
    - rewrite Ila. destruct (Z.of_nat (m mod k) >=? 0) eqn:G; [|lia].
      rewrite Nat2Z.id. unfold index. rewrite Is by lia. cbn [bind].
      unfold entry. destruct (nth m h (0, 0)) as [d0 l0] eqn:En'. cbn [seg_of seg_pos seg_len].
      rewrite i64_add. f_equal. f_equal.
      rewrite <- (firstn_skipn m h) at 2. rewrite total_app. f_equal.
      assert (Hm : nth_error h m = Some (d0, l0)) by (rewrite <- En'; apply nth_error_nth'; subst n; lia).
      rewrite (nth_error_skipn_cons _ _ _ Hm). rewrite (skipn_all2 (n := S m)) by (subst n; lia). cbn. lia. }
  rewrite HP. cbn [bind].
  destruct (Z.eqb_spec (zlen (pl_segs pl)) 0) as [Z0|_]; [unfold zlen in Z0; lia|].
  assert (HL : (pl_last pl + 1) mod zlen (pl_segs pl) = Z.of_nat (n mod k)).
  { unfold zlen. rewrite Il, Ila. destruct n as [|m].
    - rewrite Nat.mod_0_l by lia. apply Z.mod_0_l. lia.
    - replace (S m) with (m + 1)%nat by lia. rewrite <- (mod_succ m k Hk).
      rewrite Nat2Z.inj_mod. f_equal. lia. }
  rewrite HL. rewrite Nat2Z.id. eexists. split; [reflexivity|].
  pose proof (Nat.mod_upper_bound n k ltac:(lia)) as Hmod.
  assert (Ln : length (h ++ [(d, l)]) = S n) by (rewrite app_length; cbn; lia).
  split; cbn [pl_version pl_uri pl_segs pl_first pl_last]; rewrite ?Ln; trivial.
  - rewrite upd_length; exact Il.
  - rewrite If. destruct n as [|m] eqn:En.
    + rewrite Nat.mod_0_l by lia. cbn [Z.of_nat]. cbn [Z.eqb Z.ltb Z.compare]. lia.
    + assert (C : (S m < k \/ k <= S m < 2 * k \/ 2 * k <= S m)%nat) by lia. destruct C as [C|[C|C]].
      * rewrite (Nat.mod_small (S m) k) by lia. replace (Nat.min (S m - k) k) with 0%nat by lia.
        replace (Nat.min (S (S m) - k) k) with 0%nat by lia.
        destruct (Z.eqb_spec (Z.of_nat 0) (Z.of_nat (S m))); [lia|reflexivity].
      * assert (E : (S m mod k = S m - k)%nat).
        { symmetry. apply (Nat.mod_unique (S m) k 1); lia. }
        rewrite E. replace (Nat.min (S m - k) k) with (S m - k)%nat by lia. rewrite Z.eqb_refl. lia.
      * replace (Nat.min (S m - k) k) with k by lia. replace (Nat.min (S (S m) - k) k) with k by lia.
        destruct (Z.eqb_spec (Z.of_nat k) (Z.of_nat (S m mod k))); [lia|].
        destruct (Z.ltb_spec (Z.of_nat k) 0); [lia|reflexivity].
  - intros j Hj. destruct (Nat.eq_dec j n) as [->|Hn].
    + rewrite upd_nth_same by lia. f_equal. subst n. rewrite entry_last. reflexivity.
    + rewrite upd_nth_other.
      * rewrite Is by lia. subst n. rewrite entry_app by lia. reflexivity.
      * intros E. symmetry in E. apply Hn. apply (mod_window j n k); lia.
Qed.

Lemma inv_all k uri : (0 < k)%nat -> forall h2 h1 pl, inv k uri h1 pl ->
  exists pl', add_all pl h2 = Ok pl' /\ inv k uri (h1 ++ h2) pl'.
Proof.
  intros Hk. induction h2 as [|[d l] h2 IH]; intros h1 pl I.
  - exists pl. rewrite app_nil_r. auto.
  - destruct (inv_add k uri h1 pl d l Hk I) as (pl1 & E1 & I1).
    destruct (IH _ _ I1) as (pl2 & E2 & I2). exists pl2. cbn [add_all]. rewrite E1. cbn [bind].
    split; [exact E2|]. rewrite <- app_assoc in I2. exact I2.
Qed.

Lemma history k uri h : (0 < k)%nat -> exists pl, add_all (new_playlist uri k) h = Ok pl /\ inv k uri h pl.
Proof. intros Hk. exact (inv_all k uri Hk h [] _ (inv_new k uri)). Qed.

Definition wrap_entry (e : Z * Z * Z) : Z * Z * Z := let '(d, l, p) := e in (d, l, i64 p).

Lemma render_loop_spec k uri h pl fmt : (0 < k)%nat -> inv k uri h pl -> forall c j fuel,
  (length h = j + S c)%nat -> (length h - k <= j)%nat -> (c < fuel)%nat ->
  render_loop fuel fmt pl (Z.of_nat (j mod k)) = Ok (flat_map (fun j => entry_text fmt uri (wrap_entry (entry h j))) (seq j (S c))).
Proof.
  intros Hk I. induction c as [|c IH]; intros j fuel Hn Hj Hf; (destruct fuel as [|fuel]; [lia|]); cbn [render_loop].
  - destruct (Z.ltb_spec (Z.of_nat (j mod k)) 0); [lia|]. rewrite Nat2Z.id. unfold index.
    rewrite (inv_segs _ _ _ _ I) by lia. cbn [bind]. rewrite (inv_last _ _ _ _ I).
    destruct (length h) as [|m]; [lia|]. replace m with j by lia. rewrite Z.eqb_refl.
    cbn [seq flat_map]. rewrite app_nil_r. rewrite (inv_uri _ _ _ _ I).
    destruct (entry h j) as [[d l] p]. reflexivity.
  - destruct (Z.ltb_spec (Z.of_nat (j mod k)) 0); [lia|]. rewrite Nat2Z.id. unfold index.
    rewrite (inv_segs _ _ _ _ I) by lia. cbn [bind]. rewrite (inv_last _ _ _ _ I).
    destruct (length h) as [|m] eqn:El; [lia|].
    destruct (Z.eqb_spec (Z.of_nat (j mod k)) (Z.of_nat (m mod k))) as [E|E].
    { apply Nat2Z.inj in E. apply mod_window in E; lia. }
    unfold zlen. rewrite (inv_len _ _ _ _ I).
    replace ((Z.of_nat (j mod k) + 1) mod Z.of_nat k) with (Z.of_nat (S j mod k)).
    2:{ replace (S j) with (j + 1)%nat by lia. rewrite <- (mod_succ j k Hk), Nat2Z.inj_mod. f_equal. lia. }
    rewrite IH by lia. cbn [bind]. rewrite (inv_uri _ _ _ _ I).
    change (seq j (S (S c))) with (j :: seq (S j) (S c)). cbn [flat_map].
    destruct (entry h j) as [[d l] p]. reflexivity.
Qed.

Lemma flat_map_map {A B C} (f : B -> list C) (g : A -> B) l : flat_map f (map g l) = flat_map (fun x => f (g x)) l.
Proof. induction l; cbn; congruence. Qed.

Lemma render_spec k uri h pl fmt : (0 < k)%nat -> inv k uri h pl -> h <> [] ->
  render fmt pl = if (length h <? 2 * k)%nat
    then Ok (playlist_text fmt uri (map (fun j => wrap_entry (entry h j)) (shown (length h) k)))
    else Panic.
Proof.
  intros Hk I Hh. unfold render. rewrite (inv_first _ _ _ _ I), (inv_len _ _ _ _ I), (inv_ver _ _ _ _ I).
  destruct (length h) as [|m] eqn:El; [destruct h; [congruence|discriminate]|].
  destruct (Z.of_nat (Nat.min (S m - k) k) >=? 0) eqn:G; [|lia].
  destruct (Nat.ltb_spec (S m) (2 * k)) as [H|H].
  - assert (E : (Nat.min (S m - k) k = (S m - k) mod k)%nat) by (rewrite Nat.mod_small by lia; lia).
    rewrite E. rewrite (render_loop_spec k uri h pl fmt Hk I (Nat.min (S m) k - 1)) by lia.
    cbn [bind]. f_equal. unfold playlist_text, shown. rewrite flat_map_map.
    replace (S (Nat.min (S m) k - 1)) with (Nat.min (S m) k) by lia. cbn [bs app]. reflexivity.
  - replace (Nat.min (S m - k) k) with k by lia. cbn [render_loop].
    destruct (Z.ltb_spec (Z.of_nat k) 0); [lia|]. rewrite Nat2Z.id. unfold index.
    assert (N : nth_error (pl_segs pl) k = None) by (apply nth_error_None; rewrite (inv_len _ _ _ _ I); lia).
    rewrite N. reflexivity.
Qed.

Lemma entry_step h j : (S j < length h)%nat ->
  seg_pos (seg_of (entry h (S j))) = i64 (seg_pos (seg_of (entry h j)) + seg_len (seg_of (entry h j))).
Proof.
  intros H. unfold entry. destruct (nth j h (0, 0)) as [d l] eqn:E. destruct (nth (S j) h (0, 0)) as [d' l'].
  cbn [seg_of seg_pos seg_len]. rewrite i64_add. f_equal.
  assert (Hm : nth_error h j = Some (d, l)) by (rewrite <- E; apply nth_error_nth'; lia).
  replace (firstn (S j) h) with (firstn j h ++ [(d, l)]); [rewrite total_app; cbn; lia|].
  rewrite <- (firstn_skipn j h) at 2. rewrite (nth_error_skipn_cons _ _ _ Hm), firstn_app.
  rewrite firstn_length. replace (S j - Nat.min j (length h))%nat with 1%nat by lia.
  rewrite (firstn_all2 (n := S j)) by (rewrite firstn_length; lia). reflexivity.
Qed.

Lemma total_nonneg h : Forall (fun e => 0 <= snd e) h -> 0 <= total h.
Proof. unfold total. induction 1 as [|e h H _ IH]; cbn [fold_right]; lia. Qed.

Lemma file_wrap h j : file_ok h -> wrap_entry (entry h j) = entry h j.
Proof.
  intros [F T]. unfold entry. destruct (nth j h (0, 0)) as [d l]. cbn [wrap_entry]. f_equal. apply i64_small.
  rewrite <- (firstn_skipn j h) in T. rewrite total_app in T.
  rewrite <- (firstn_skipn j h) in F. apply Forall_app in F as [F1 F2].
  apply total_nonneg in F1, F2. lia.
Qed.
