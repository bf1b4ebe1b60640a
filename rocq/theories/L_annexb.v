(* Lemmas for annexb.go *)
From Verif Require Import Base S_annexb M_annexb L_base.
From Coq Require Import ZifyBool ZifyNat.

(* ---------- strong induction on length ---------- *)
Lemma list_ind_len {A} (P : list A -> Prop) :
  (forall l, (forall m, (length m < length l)%nat -> P m) -> P l) -> forall l, P l.
Proof.
  intros H l. remember (length l) as n eqn:E. assert (Hn : (length l <= n)%nat) by lia. clear E.
  revert l Hn. induction n as [|n IH]; intros l Hn; apply H; intros m Hm; [lia|]. apply IH. lia.
Qed.

(* ---------- ebsp_to_raw ---------- *)
Lemma raw_cons a r : ebsp_to_raw (a :: r) =
  match r with
  | b :: c :: r3 => if (a =? 0) && (b =? 0) && (c =? 3) then 0 :: 0 :: ebsp_to_raw r3 else a :: ebsp_to_raw r
  | _ => a :: ebsp_to_raw r
  end.
Proof. destruct r as [|b [|c r]]; reflexivity. Qed.

Lemma raw_nz a r : a <> 0 -> ebsp_to_raw (a :: r) = a :: ebsp_to_raw r.
Proof.
  intros H. rewrite raw_cons. replace (a =? 0) with false by lia. destruct r as [|b [|c r]]; reflexivity.
Qed.

Lemma raw_0nz b r : b <> 0 -> ebsp_to_raw (0 :: b :: r) = 0 :: b :: ebsp_to_raw r.
Proof.
  intros H. rewrite raw_cons. replace (b =? 0) with false by lia. rewrite <- (raw_nz b r H).
  destruct r as [|c r]; reflexivity.
Qed.

Lemma raw_003 r : ebsp_to_raw (0 :: 0 :: 3 :: r) = 0 :: 0 :: ebsp_to_raw r.
Proof. reflexivity. Qed.

Lemma raw_00n c r : c <> 3 -> ebsp_to_raw (0 :: 0 :: c :: r) = 0 :: ebsp_to_raw (0 :: c :: r).
Proof. intros H. rewrite raw_cons. replace (c =? 3) with false by lia. reflexivity. Qed.

Lemma raw_00 : ebsp_to_raw [0; 0] = [0; 0].
Proof. reflexivity. Qed.

Lemma raw_nil_inv l : ebsp_to_raw l = [] -> l = [].
Proof.
  destruct l as [|a r]; [reflexivity|]. rewrite raw_cons.
  destruct r as [|b [|c r]]; try discriminate. destruct (_ && _ && _); discriminate.
Qed.

Lemma bytes_ok_raw l : bytes_ok l -> bytes_ok (ebsp_to_raw l).
Proof.
  induction l as [l IH] using list_ind_len. intros H. destruct l as [|a r]; [exact H|].
  rewrite raw_cons. apply Forall_cons_iff in H as [Ha Hr].
  destruct r as [|b [|c r]].
  - constructor; [exact Ha|constructor].
  - constructor; [exact Ha|]. apply (IH [b]); [cbn; lia|exact Hr].
  - destruct (_ && _ && _).
    + apply Forall_cons_iff in Hr as [Hb Hr]. apply Forall_cons_iff in Hr as [Hc Hr].
      constructor; [unfold byte_ok; lia|]. constructor; [unfold byte_ok; lia|]. apply IH; [cbn; lia|exact Hr].
    + constructor; [exact Ha|]. apply (IH (b :: c :: r)); [cbn; lia|exact Hr].
Qed.

(* ---------- the standard's encapsulation ---------- *)
Lemma trail_zeros_app_nz a b r : b <> 0 -> trail_zeros (a ++ b :: r) = trail_zeros r.
Proof.
  intros H. unfold trail_zeros. rewrite rev_app_distr. cbn [rev].
  rewrite <- app_assoc. cbn [app]. generalize (rev r) as m. induction m as [|x m IH]; cbn.
  - replace (b =? 0) with false by lia. reflexivity.
  - destruct (x =? 0); [|reflexivity]. rewrite IH. reflexivity.
Qed.

Lemma trail_zeros_cons_nz b r : b <> 0 -> trail_zeros (b :: r) = trail_zeros r.
Proof. apply (trail_zeros_app_nz []). Qed.

Lemma trail_zeros_repeat z : trail_zeros (repeat 0 z) = z.
Proof.
  unfold trail_zeros. replace (rev (repeat 0 z)) with (repeat 0 z).
  - induction z as [|z IH]; cbn; auto.
  - induction z as [|z IH]; [reflexivity|]. cbn [repeat rev]. rewrite <- IH. apply repeat_cons.
Qed.

Lemma odd_trail_3 r : Nat.odd (trail_zeros (0 :: 0 :: 0 :: r)) = Nat.odd (trail_zeros (0 :: r)).
Proof.
  unfold trail_zeros. cbn [rev]. rewrite <- !app_assoc.
  generalize (rev r) as m. induction m as [|x m IH]; [reflexivity|]. cbn [app lead_zeros].
  destruct (x =? 0); [|reflexivity]. rewrite !Nat.odd_succ, <- !Nat.negb_odd. cbn [app] in IH. rewrite IH. reflexivity.
Qed.

(* state: z zeros just emitted, z <= 2; what has been emitted of the current run is repeat 0 z *)
Lemma raw_enc_body tail : tail = [] \/ tail = [3] -> forall l z,
  bytes_ok l -> (z <= 2)%nat ->
  ebsp_to_raw (repeat 0 z ++ enc_body tail z l) =
  repeat 0 z ++ l ++ (if (0 <? length tail)%nat && Nat.odd (trail_zeros (repeat 0 z ++ l)) then [3] else []).
Proof.
  intros Ht l z Hok. revert z. induction l as [|b r IH]; intros z Hz.
  - cbn [enc_body]. rewrite app_nil_r, trail_zeros_repeat.
    destruct Ht as [-> | ->]; destruct z as [|[|[|z]]]; try lia; reflexivity.
  - apply Forall_cons_iff in Hok as [Hb Hr]. specialize (IH Hr). cbn [enc_body]. unfold byte_ok in Hb.
    destruct (b =? 0) eqn:E0.
    + apply Z.eqb_eq in E0. subst b. destruct z as [|[|[|z]]]; try lia; cbn [Nat.leb andb].
      * exact (IH 1%nat ltac:(lia)).
      * exact (IH 2%nat ltac:(lia)).
      * change (0 <=? 3) with true. cbn match. cbn [repeat app].
        rewrite raw_003, odd_trail_3. specialize (IH 1%nat ltac:(lia)). cbn [repeat app] in IH.
        rewrite IH. reflexivity.
    + assert (Hn : b <> 0) by lia.
      assert (Hraw : forall t, ebsp_to_raw (b :: t) = b :: ebsp_to_raw t) by (intros; apply raw_nz; exact Hn).
      rewrite (trail_zeros_app_nz _ b r Hn). specialize (IH 0%nat ltac:(lia)). cbn [repeat app] in IH.
      destruct z as [|[|[|z]]]; try lia; cbn [Nat.leb andb repeat app].
      * rewrite Hraw, IH. reflexivity.
      * rewrite raw_0nz by exact Hn. rewrite IH. reflexivity.
      * destruct (b <=? 3) eqn:E3.
        -- rewrite raw_003, Hraw, IH. reflexivity.
        -- rewrite raw_00n, raw_0nz by lia. rewrite IH. reflexivity.
Qed.

(* ---------- forbidden patterns ---------- *)
Fixpoint clean (l : bytes) : bool :=
  match l with
  | [] => true
  | a :: r => match r with
              | b :: c :: _ => negb ((a =? 0) && (b =? 0) && (0 <=? c) && (c <=? 2)) && clean r
              | _ => true
              end
  end.

Lemma clean_cons a r : clean (a :: r) =
  match r with
  | b :: c :: _ => negb ((a =? 0) && (b =? 0) && (0 <=? c) && (c <=? 2)) && clean r
  | _ => true
  end.
Proof. destruct r as [|b [|c r]]; reflexivity. Qed.

Lemma contains_cons pat a r : contains pat (a :: r) <-> (exists t, a :: r = pat ++ t) \/ contains pat r.
Proof.
  split.
  - intros ([|x p] & t & E).
    + left; exists t; exact E.
    + right. injection E as -> ->. exists p, t; reflexivity.
  - intros [(t & E)|(p & t & ->)].
    + exists [], t; exact E.
    + exists (a :: p), t; reflexivity.
Qed.

Lemma clean_spec l : clean l = true <-> ~ forbidden l.
Proof.
  induction l as [|a r IH].
  - split; [|reflexivity]. intros _ (x & _ & p & t & E). destruct p; discriminate.
  - assert (F : forbidden (a :: r) <-> (exists x t, 0 <= x <= 2 /\ a :: r = 0 :: 0 :: x :: t) \/ forbidden r).
    { unfold forbidden. split.
      - intros (x & Hx & C). apply contains_cons in C as [(t & E)|C].
        + left. exists x, t. split; [exact Hx|exact E].
        + right. exists x. split; assumption.
      - intros [(x & t & Hx & E)|(x & Hx & C)]; exists x; (split; [exact Hx|]); apply contains_cons.
        + left. exists t. exact E.
        + right. exact C. }
    rewrite F, clean_cons. destruct r as [|b [|c r]].
    + split; [|reflexivity]. intros _ [(x & t & _ & E)|(x & _ & p & t & E)]; [discriminate|]. destruct p; discriminate.
    + split; [|reflexivity]. intros _ [(x & t & _ & E)|(x & _ & p & t & E)]; [discriminate|].
      destruct p as [|? [|? ?]]; discriminate.
    + rewrite andb_true_iff, IH. split.
      * intros [H1 H2] [(x & t & Hx & E)|H]; [|tauto]. injection E as -> -> -> ->. cbn in H1. lia.
      * intros H. split; [|tauto]. destruct ((a =? 0) && (b =? 0) && (0 <=? c) && (c <=? 2)) eqn:E; [|reflexivity].
        exfalso. apply H. left. exists c, r. split; [lia|]. f_equal; [lia|]. f_equal; lia.
Qed.

(* clean output of the encapsulation, at any state *)
Lemma clean_enc_body tail : tail = [] \/ tail = [3] -> forall l z,
  bytes_ok l -> (z <= 2)%nat -> clean (repeat 0 z ++ enc_body tail z l) = true.
Proof.
  intros Ht l z Hok. revert z. induction l as [|b r IH]; intros z Hz.
  - cbn [enc_body]. destruct Ht as [-> | ->]; destruct z as [|[|[|z]]]; try lia; reflexivity.
  - apply Forall_cons_iff in Hok as [Hb Hr]. specialize (IH Hr). cbn [enc_body]. unfold byte_ok in Hb.
    assert (NZ : forall x t, x <> 0 -> clean (x :: t) = clean t).
    { intros x t Hx. rewrite clean_cons. destruct t as [|y [|w t]]; try reflexivity.
      replace (x =? 0) with false by lia. reflexivity. }
    destruct (b =? 0) eqn:E0.
    + apply Z.eqb_eq in E0. subst b. destruct z as [|[|[|z]]]; try lia; cbn [Nat.leb andb].
      * exact (IH 1%nat ltac:(lia)).
      * exact (IH 2%nat ltac:(lia)).
      * change (0 <=? 3) with true. cbn match. cbn [repeat app].
        rewrite clean_cons. cbn [Z.eqb Z.leb andb negb]. rewrite clean_cons. cbn [Z.eqb Z.leb andb negb].
        rewrite NZ by lia. exact (IH 1%nat ltac:(lia)).
    + assert (Hn : b <> 0) by lia. specialize (IH 0%nat ltac:(lia)). cbn [repeat app] in IH.
      assert (Z1 : forall t, clean t = true -> clean (0 :: b :: t) = true).
      { intros t Hc. rewrite clean_cons. destruct t as [|y t]; [reflexivity|].
        replace (b =? 0) with false by lia. cbn [andb negb Z.eqb]. rewrite NZ; assumption. }
      destruct z as [|[|[|z]]]; try lia; cbn [Nat.leb andb repeat app].
      * rewrite NZ by exact Hn. exact IH.
      * apply Z1, IH.
      * destruct (b <=? 3) eqn:E3.
        -- rewrite clean_cons. cbn [Z.eqb Z.leb andb negb]. rewrite clean_cons.
           cbn [Z.eqb Z.leb andb negb]. rewrite !NZ by lia. exact IH.
        -- rewrite clean_cons. replace (b <=? 2) with false by lia. rewrite andb_false_r. cbn [negb andb]. apply Z1, IH.
Qed.

Lemma enc_body_ne l z : enc_body [3] (S z) l <> [].
Proof. destruct l as [|b r]; cbn [enc_body]; [discriminate|]. destruct (_ && _); discriminate. Qed.

Lemma enc_body_last l z : last (enc_body [3] z l) 1 <> 0.
Proof.
  revert z. induction l as [|b r IH]; intros z.
  - destruct z; cbn; lia.
  - assert (L : forall x t, t <> [] -> last (x :: t) 1 = last t 1) by (intros x [|y t]; [congruence|reflexivity]).
    cbn [enc_body]. destruct ((2 <=? z)%nat && (b <=? 3)) eqn:E.
    + rewrite L by discriminate.
      destruct (b =? 0) eqn:E0.
      * rewrite L; [apply IH|apply enc_body_ne].
      * destruct (enc_body [3] 0 r) as [|y t] eqn:Er; [cbn; lia|]. rewrite L by discriminate. rewrite <- Er. apply IH.
    + destruct (b =? 0) eqn:E0.
      * rewrite L; [apply IH|apply enc_body_ne].
      * destruct (enc_body [3] 0 r) as [|y t] eqn:Er; [cbn; lia|]. rewrite L by discriminate. rewrite <- Er. apply IH.
Qed.

Lemma encapsulate_nonempty l : l <> [] -> encapsulate l <> [].
Proof. destruct l as [|b r]; [congruence|]. intros _. cbn. discriminate. Qed.

(* ---------- SplitAnnexB as a naive scanner ---------- *)
(* pieces between start codes; [cur] = buf[prev:off] *)
Definition emit (cur : bytes) : list bytes :=
  let t := if last cur 1 =? 0 then removelast cur else cur in
  match t with [] => [] | _ => [t] end.

Fixpoint scan (cur l : bytes) : list bytes :=
  match l with
  | [] => [cur]
  | a :: r =>
      match r with
      | b :: c :: ((_ :: _) as r3) =>
          if (a =? 0) && (b =? 0) && (c =? 1) then emit cur ++ scan [] r3 else scan (cur ++ [a]) r
      | _ => scan (cur ++ [a]) r
      end
  end.

Lemma scan_short l : (length l <= 3)%nat -> forall cur, scan cur l = [cur ++ l].
Proof.
  intros H cur. destruct l as [|a [|b [|c [|d l]]]]; cbn in *; try lia; try rewrite app_nil_r; rewrite <- ?app_assoc; reflexivity.
Qed.

Lemma scan_step cur a b c d r : ~ (a = 0 /\ b = 0 /\ c = 1) ->
  scan cur (a :: b :: c :: d :: r) = scan (cur ++ [a]) (b :: c :: d :: r).
Proof.
  intros H. cbn [scan]. destruct ((a =? 0) && (b =? 0) && (c =? 1)) eqn:E; [|reflexivity]. exfalso; apply H; lia.
Qed.

Lemma scan_step' cur a r : (forall r3, r <> 0 :: 1 :: r3) \/ a <> 0 \/ (length r <= 2)%nat ->
  scan cur (a :: r) = scan (cur ++ [a]) r.
Proof.
  intros H. destruct r as [|b [|c [|d r]]]; try reflexivity.
  apply scan_step. intros (-> & -> & ->). destruct H as [H|[H|H]]; [eapply H; reflexivity | congruence | cbn in H; lia].
Qed.

Lemma scan_code cur d r : scan cur (0 :: 0 :: 1 :: d :: r) = emit cur ++ scan [] (d :: r).
Proof. reflexivity. Qed.


Lemma index_app {A} (p s : list A) i x : nth_error s (i - length p) = Some x -> (length p <= i)%nat -> index (p ++ s) i = Ok x.
Proof. intros H L. unfold index. rewrite nth_error_app2 by exact L. rewrite H. reflexivity. Qed.

Lemma split_loop_scan : forall fuel pre cur suf units,
  pre = [] \/ (exists p, pre = p ++ [1]) ->
  (length suf <= fuel + 3)%nat ->
  exists prev' units',
    split_loop fuel (pre ++ cur ++ suf) (zlen (pre ++ cur ++ suf) - 3) (zlen (pre ++ cur)) (zlen pre) units
      = Ok (Z.of_nat prev', units') /\ (prev' <= length (pre ++ cur ++ suf))%nat /\
    units' ++ [ebsp_to_raw (skipn prev' (pre ++ cur ++ suf))] = units ++ map ebsp_to_raw (scan cur suf).
Proof.
  induction fuel as [|fuel IH]; intros pre cur suf units Hpre Hf.
  - exists (length pre), units. cbn [split_loop].
    replace (zlen (pre ++ cur) <? zlen (pre ++ cur ++ suf) - 3) with false by (rewrite !zlen_app; unfold zlen in *; lia).
    splits; [reflexivity|rewrite app_length; lia|].
    rewrite skipn_app_exact by reflexivity. rewrite scan_short by lia. reflexivity.
  - cbn [split_loop].
    destruct (zlen (pre ++ cur) <? zlen (pre ++ cur ++ suf) - 3) eqn:El.
    2:{ exists (length pre), units. splits; [reflexivity|rewrite app_length; lia|].
        rewrite skipn_app_exact by reflexivity. rewrite scan_short; [reflexivity|].
        rewrite !zlen_app in El; unfold zlen in *; lia. }
    destruct suf as [|a [|b [|c [|d suf]]]]; try (exfalso; rewrite !zlen_app in El; unfold zlen in *; cbn [length] in *; lia).
    assert (IX : forall k x, nth_error (a :: b :: c :: d :: suf) k = Some x ->
       index (pre ++ cur ++ a :: b :: c :: d :: suf) (Z.to_nat (zlen (pre ++ cur) + Z.of_nat k)) = Ok x).
    { intros k x Hk. rewrite app_assoc. apply index_app; unfold zlen; [|lia].
      replace (Z.to_nat (Z.of_nat (length (pre ++ cur)) + Z.of_nat k) - length (pre ++ cur))%nat with k by lia. exact Hk. }
    pose proof (IX 2%nat c eq_refl) as I2. change (Z.of_nat 2) with 2 in I2. rewrite I2. cbn [bind].
    destruct (c >? 1) eqn:Ec.
    + destruct (IH pre (cur ++ [a; b; c]) (d :: suf) units Hpre ltac:(cbn [length] in *; lia)) as (p' & u' & E & Hp & R).
      exists p', u'. rewrite <- !app_assoc in *. cbn [app] in *. splits; [|exact Hp|].
      * replace (zlen (pre ++ cur) + 3) with (zlen (pre ++ cur ++ [a; b; c])); [exact E|].
        rewrite !zlen_app. unfold zlen. cbn [length]. lia.
      * rewrite R. f_equal. f_equal.
        rewrite (scan_step' cur a) by (left; intros r3 X; injection X as X1 X2 X3; lia).
        rewrite (scan_step' _ b) by (left; intros r3 X; injection X as X1 X2; lia).
        rewrite (scan_step' _ c) by (right; left; lia).
        rewrite <- !app_assoc. reflexivity.
    + pose proof (IX 1%nat b eq_refl) as I1. change (Z.of_nat 1) with 1 in I1. rewrite I1. cbn [bind].
      pose proof (IX 0%nat a eq_refl) as I0. change (Z.of_nat 0) with 0 in I0. rewrite Z.add_0_r in I0. rewrite I0. cbn [bind].
      destruct ((c =? 1) && (b =? 0) && (a =? 0)) eqn:Ecode.
      * assert (a = 0 /\ b = 0 /\ c = 1) as (-> & -> & ->) by lia.
        assert (GO : forall us, exists prev' units',
           split_loop fuel (pre ++ cur ++ 0 :: 0 :: 1 :: d :: suf) (zlen (pre ++ cur ++ 0 :: 0 :: 1 :: d :: suf) - 3)
             (zlen (pre ++ cur) + 3) (zlen (pre ++ cur) + 3) us = Ok (Z.of_nat prev', units') /\
           (prev' <= length (pre ++ cur ++ 0%Z :: 0%Z :: 1%Z :: d :: suf))%nat /\
           units' ++ [ebsp_to_raw (skipn prev' (pre ++ cur ++ 0 :: 0 :: 1 :: d :: suf))] =
             us ++ map ebsp_to_raw (scan [] (d :: suf))).
        { intros us. destruct (IH (pre ++ cur ++ [0; 0; 1]) [] (d :: suf) us) as (p' & u' & E & Hp & R).
          - right. exists (pre ++ cur ++ [0; 0]). rewrite <- !app_assoc. reflexivity.
          - cbn [length] in *; lia.
          - exists p', u'. cbn [app] in *. rewrite app_nil_r, <- !app_assoc in *. cbn [app] in *. splits; [|exact Hp|exact R].
            replace (zlen (pre ++ cur) + 3) with (zlen (pre ++ cur ++ [0; 0; 1])); [exact E|].
            rewrite !zlen_app. unfold zlen. cbn [length]. lia. }
        rewrite scan_code. rewrite map_app, (app_assoc units).
        destruct (list_last_dec cur) as [-> | (m & x & ->)].
        -- (* empty piece *)
           rewrite app_nil_r in *. change (map ebsp_to_raw (emit [])) with (@nil bytes). rewrite app_nil_r.
           assert (Z : (if zlen pre >? 0 then let! p := index (pre ++ [] ++ 0 :: 0 :: 1 :: d :: suf) (Z.to_nat (zlen pre - 1)) in Ok (p =? 0) else Ok false) = Ok false).
           { destruct Hpre as [-> | (p & ->)]; [reflexivity|].
             rewrite zlen_app. unfold zlen. cbn [length].
             replace (Z.of_nat (length p) + Z.of_nat 1 >? 0) with true by lia.
             rewrite <- app_assoc. rewrite (index_app _ _ _ 1); [reflexivity| |lia].
             replace (Z.to_nat _ - length p)%nat with 0%nat by lia. reflexivity. }
           rewrite Z. cbn [bind]. replace (zlen pre >? zlen pre) with false by lia. cbn [bind]. apply GO.
        -- assert (Zp : index (pre ++ (m ++ [x]) ++ 0 :: 0 :: 1 :: d :: suf) (Z.to_nat (zlen (pre ++ m ++ [x]) - 1)) = Ok x).
           { rewrite <- app_assoc, app_assoc. apply index_app.
             - rewrite !zlen_app. unfold zlen. cbn [length]. rewrite app_length.
               replace (Z.to_nat _ - _)%nat with 0%nat by lia. reflexivity.
             - rewrite !zlen_app. unfold zlen. cbn [length]. rewrite app_length. lia. }
           replace (zlen (pre ++ m ++ [x]) >? 0) with true by (rewrite !zlen_app; unfold zlen; cbn [length]; lia).
           rewrite Zp. cbn [bind]. unfold emit. rewrite last_last, removelast_last.
           destruct (x =? 0) eqn:Ex.
           ++ destruct m as [|y m].
              ** replace (zlen (pre ++ [] ++ [x]) >? zlen pre + 1) with false
                   by (rewrite !zlen_app; unfold zlen; cbn [length app]; lia).
                 cbn [bind map]. rewrite app_nil_r. apply GO.
              ** replace (zlen (pre ++ (y :: m) ++ [x]) >? zlen pre + 1) with true
                   by (rewrite !zlen_app; unfold zlen; cbn [length app]; lia).
                 assert (SL : slice (pre ++ ((y :: m) ++ [x]) ++ 0 :: 0 :: 1 :: d :: suf) (Z.to_nat (zlen pre)) (Z.to_nat (zlen (pre ++ (y :: m) ++ [x]) - 1)) = Ok (y :: m)).
                 { unfold slice. rewrite !zlen_app. unfold zlen. rewrite !app_length.
                   replace ((_ <=? _)%nat && (_ <=? _)%nat) with true by (cbn [length]; lia).
                   rewrite Nat2Z.id, skipn_app_exact by reflexivity. rewrite <- app_assoc. rewrite firstn_app_exact; [reflexivity|].
                   cbn [length]; lia. }
                 rewrite SL. cbn [bind map]. apply GO.
           ++ replace (zlen (pre ++ m ++ [x]) >? zlen pre) with true
                by (rewrite !zlen_app; unfold zlen; cbn [length app]; lia).
              assert (SL : slice (pre ++ (m ++ [x]) ++ 0 :: 0 :: 1 :: d :: suf) (Z.to_nat (zlen pre)) (Z.to_nat (zlen (pre ++ m ++ [x]))) = Ok (m ++ [x])).
              { unfold slice. unfold zlen. rewrite !app_length.
                replace ((_ <=? _)%nat && (_ <=? _)%nat) with true by (cbn [length]; lia).
                rewrite !Nat2Z.id, skipn_app_exact by reflexivity. rewrite firstn_app_exact; [reflexivity|].
                rewrite !app_length. cbn [length]; lia. }
              rewrite SL. cbn [bind]. destruct (m ++ [x]) as [|y t] eqn:Em; [destruct m; discriminate|].
              cbn [map]. rewrite <- Em in *. apply GO.
      * destruct (IH pre (cur ++ [a]) (b :: c :: d :: suf) units Hpre ltac:(cbn [length] in *; lia)) as (p' & u' & E & Hp & R).
        exists p', u'. rewrite <- !app_assoc in *. cbn [app] in *. splits; [|exact Hp|].
        -- replace (zlen (pre ++ cur) + 1) with (zlen (pre ++ cur ++ [a])); [exact E|].
           rewrite !zlen_app. unfold zlen. cbn [length]. lia.
        -- rewrite R. f_equal. f_equal. symmetry. apply scan_step. lia.
Qed.

Lemma split_annexb_scan buf : split_annexb buf = Ok (map ebsp_to_raw (scan [] buf)).
Proof.
  unfold split_annexb.
  destruct (split_loop_scan (length buf) [] [] buf [] (or_introl eq_refl) ltac:(lia)) as (p & u & E & Hp & R).
  cbn [app] in *. change (zlen (@nil Z)) with 0 in *. rewrite E. cbn [bind].
  unfold slice_from. rewrite Nat2Z.id. replace (p <=? length buf)%nat with true by lia. cbn [bind]. rewrite R. reflexivity.
Qed.

(* ---------- scanning a byte stream ---------- *)
Definition no_start (l : bytes) : Prop := ~ contains [0; 0; 1] l.

Lemma no_start_cons a l : no_start (a :: l) -> no_start l /\ (forall t, a :: l <> 0 :: 0 :: 1 :: t).
Proof.
  unfold no_start. rewrite contains_cons. intros H. split; [tauto|]. intros t E. apply H. left. exists t. exact E.
Qed.

Lemma scan_none : forall l cur, no_start l -> scan cur l = [cur ++ l].
Proof.
  induction l as [|a r IH]; intros cur H; [rewrite app_nil_r; reflexivity|].
  destruct (no_start_cons _ _ H) as [H1 H2].
  replace (cur ++ a :: r) with ((cur ++ [a]) ++ r) by (rewrite <- app_assoc; reflexivity).
  rewrite <- IH by exact H1. destruct r as [|b [|c [|d r]]]; try reflexivity.
  apply scan_step. intros (-> & -> & ->). eapply H2; reflexivity.
Qed.

Definition piece (t : bytes) : list bytes := match t with [] => [] | _ => [t] end.

Lemma scan_unit : forall e cur long d r, no_start e -> last e 1 <> 0 -> (e = [] -> last cur 1 <> 0) ->
  scan cur (e ++ start_code long ++ d :: r) =
  piece (cur ++ e) ++ scan [] (d :: r).
Proof.
  induction e as [|a e IH]; intros cur long d r Hn Hl Hc.
  - specialize (Hc eq_refl). rewrite app_nil_r. cbn [app]. destruct long; cbn [start_code app].
    + rewrite (scan_step' cur 0) by (left; intros r3 X; injection X; lia).
      rewrite scan_code. f_equal. unfold emit. rewrite last_last, removelast_last. destruct cur; reflexivity.
    + rewrite scan_code. unfold emit. replace (last cur 1 =? 0) with false by lia. destruct cur; reflexivity.
  - destruct (no_start_cons _ _ Hn) as [H1 H2].
    replace (cur ++ a :: e) with ((cur ++ [a]) ++ e) by (rewrite <- app_assoc; reflexivity).
    assert (Hl' : last e 1 <> 0) by (destruct e; [cbn; lia|exact Hl]).
    rewrite <- (IH (cur ++ [a]) long d r H1 Hl').
    2:{ intros ->. rewrite last_last. exact Hl. }
    cbn [app]. apply scan_step'.
    destruct (Z.eq_dec a 0) as [-> |]; [|right; left; assumption].
    left. intros r3 X. destruct e as [|b [|c e]].
    + cbn in Hl. lia.
    + cbn in Hl. injection X as X1 X2. lia.
    + cbn [app] in X. injection X as -> -> X. eapply H2; reflexivity.
Qed.

Lemma forbidden_start l : ~ forbidden l -> no_start l.
Proof. intros H C. apply H. exists 1. split; [lia|exact C]. Qed.

Lemma encapsulate_props u : bytes_ok u -> no_start (encapsulate u) /\ last (encapsulate u) 1 <> 0.
Proof.
  intros H. split; [|apply enc_body_last]. apply forbidden_start, clean_spec.
  exact (clean_enc_body [3] (or_intror eq_refl) u 0 H ltac:(lia)).
Qed.

Lemma byte_stream_cons l u us : byte_stream ((l, u) :: us) = start_code l ++ encapsulate u ++ byte_stream us.
Proof. unfold byte_stream. cbn [flat_map fst snd]. rewrite <- app_assoc. reflexivity. Qed.

Lemma scan_code_any cur long d r : last cur 1 <> 0 ->
  scan cur (start_code long ++ d :: r) = piece cur ++ scan [] (d :: r).
Proof.
  intros H. pose proof (scan_unit [] cur long d r) as S. cbn [app] in S. rewrite app_nil_r in S. apply S; auto.
  - intros (a & b & X); destruct a; discriminate.
  - cbn; lia.
Qed.

Lemma scan_stream : forall us cur long u,
  Forall (fun u => bytes_ok (snd u) /\ snd u <> []) ((long, u) :: us) -> last cur 1 <> 0 ->
  scan cur (byte_stream ((long, u) :: us)) = piece cur ++ map (fun u => encapsulate (snd u)) ((long, u) :: us).
Proof.
  induction us as [|[l2 u2] us IH]; intros cur long u HF Hc; apply Forall_cons_iff in HF as [[Hu Hne] HF]; cbn [fst snd] in *;
    destruct (encapsulate_props u Hu) as [P1 P2]; pose proof (encapsulate_nonempty u Hne) as P3;
    rewrite byte_stream_cons; cbn [map snd]; destruct (encapsulate u) as [|d e] eqn:Ee; try congruence.
  - change (byte_stream []) with (@nil Z). rewrite app_nil_r.
    rewrite scan_code_any by exact Hc. rewrite scan_none by exact P1. reflexivity.
  - cbn [app]. rewrite scan_code_any by exact Hc. f_equal.
    pose proof (proj1 (Forall_forall _ _) HF (l2, u2) (or_introl eq_refl)) as [H2 N2]. cbn [snd] in *.
    specialize (IH [] l2 u2 HF ltac:(cbn; lia)). rewrite byte_stream_cons in *.
    destruct (encapsulate u2) as [|d2 e2] eqn:E2; [pose proof (encapsulate_nonempty u2 N2); congruence|].
    cbn [app] in *. rewrite scan_code_any in IH by (cbn; lia).
    pose proof (scan_unit (d :: e) [] l2 d2 (e2 ++ byte_stream us) P1 P2 ltac:(discriminate)) as SU. cbn [app] in SU. rewrite SU.
    cbn [piece app] in *. rewrite IH. cbn [map snd]. rewrite E2. reflexivity.
Qed.

(* ---------- RBSPToEncapsulated ---------- *)
Notation enc := rbsp_to_encapsulated.

Lemma enc_nz b r : b <> 0 -> enc (b :: r) = let! t := enc r in Ok (b :: t).
Proof. intros H. cbn [enc]. replace (b =? 0) with false by lia. destruct r; reflexivity. Qed.

Lemma enc_0nz b r : b <> 0 -> enc (0 :: b :: r) = let! t := enc r in Ok (0 :: b :: t).
Proof.
  intros H. transitivity (let! t := enc (b :: r) in Ok (0 :: t)).
  - cbn [enc]. replace (b =? 0) with false by lia. reflexivity.
  - rewrite enc_nz by exact H. destruct (enc r); reflexivity.
Qed.

Lemma enc_00small c r : c <= 3 -> enc (0 :: 0 :: c :: r) = let! t := enc r in Ok (0 :: 0 :: 3 :: c :: t).
Proof. intros H. cbn [enc Z.eqb andb]. replace (c <=? 3) with true by lia. reflexivity. Qed.

Lemma enc_00big c r : 3 < c -> enc (0 :: 0 :: c :: r) = let! t := enc r in Ok (0 :: 0 :: c :: t).
Proof.
  intros H. transitivity (let! t := enc (0 :: c :: r) in Ok (0 :: t)).
  - cbn [enc Z.eqb andb]. replace (c <=? 3) with false by lia. reflexivity.
  - rewrite enc_0nz by lia. destruct (enc r); reflexivity.
Qed.

(* the ways a payload can begin *)
Lemma enc_cases l :
  l = [] \/ l = [0] \/ l = [0; 0] \/
  (exists b r, l = b :: r /\ b <> 0) \/
  (exists b r, l = 0 :: b :: r /\ b <> 0) \/
  (exists c r, l = 0 :: 0 :: c :: r /\ c <= 3) \/
  (exists c r, l = 0 :: 0 :: c :: r /\ 3 < c).
Proof.
  destruct l as [|a l]; [tauto|]. destruct (Z.eq_dec a 0) as [-> |]; [|right; right; right; left; eauto].
  destruct l as [|b l]; [tauto|]. destruct (Z.eq_dec b 0) as [-> |]; [|do 4 right; left; eauto].
  destruct l as [|c l]; [tauto|]. destruct (Z_le_gt_dec c 3); [do 5 right; left|do 6 right]; exists c, l; split; auto; lia.
Qed.

Lemma trail_zeros_000 r : (trail_zeros (0%Z :: 0%Z :: 0%Z :: r) mod 3 = trail_zeros r mod 3)%nat.
Proof.
  unfold trail_zeros. cbn [rev]. rewrite <- !app_assoc. cbn [app].
  assert (G : forall m, lead_zeros (m ++ [0; 0; 0]) = (if forallb (Z.eqb 0) m then lead_zeros m + 3 else lead_zeros m)%nat).
  { induction m as [|x m IH]; [reflexivity|]. cbn [app lead_zeros forallb].
    rewrite (Z.eqb_sym 0 x). destruct (x =? 0); [|reflexivity]. rewrite IH. cbn. destruct (forallb _ m); lia. }
  rewrite G. destruct (forallb _ _); [|reflexivity].
  replace (lead_zeros (rev r) + 3)%nat with (lead_zeros (rev r) + 1 * 3)%nat by lia. apply Nat.mod_add. lia.
Qed.

Lemma enc_total l : (exists e, enc l = Ok e) /\ (trail_zeros l mod 3 <> 2)%nat \/
                    enc l = Panic /\ (trail_zeros l mod 3 = 2)%nat.
Proof.
  induction l as [l IH] using list_ind_len.
  destruct (enc_cases l) as [-> |[-> |[-> |[(b & r & -> & H)|[(b & r & -> & H)|[(c & r & -> & H)|(c & r & -> & H)]]]]]].
  - left. split; [eexists; reflexivity|cbn; lia].
  - left. split; [eexists; reflexivity|cbn; lia].
  - right. split; reflexivity.
  - rewrite enc_nz, trail_zeros_cons_nz by exact H.
    destruct (IH r ltac:(cbn; lia)) as [[(e & ->) X]|[-> X]]; [left; split; [eexists; reflexivity|exact X]|right; split; [reflexivity|exact X]].
  - rewrite enc_0nz by exact H. change (0 :: b :: r) with ([0] ++ b :: r). rewrite trail_zeros_app_nz by exact H.
    destruct (IH r ltac:(cbn; lia)) as [[(e & ->) X]|[-> X]]; [left; split; [eexists; reflexivity|exact X]|right; split; [reflexivity|exact X]].
  - rewrite enc_00small by exact H.
    assert (T : (trail_zeros (0%Z :: 0%Z :: c :: r) mod 3 = trail_zeros r mod 3)%nat).
    { destruct (Z.eq_dec c 0) as [-> |N]; [apply trail_zeros_000|].
      change (0 :: 0 :: c :: r) with ([0; 0] ++ c :: r). rewrite trail_zeros_app_nz by exact N. reflexivity. }
    rewrite T.
    destruct (IH r ltac:(cbn; lia)) as [[(e & ->) X]|[-> X]]; [left; split; [eexists; reflexivity|exact X]|right; split; [reflexivity|exact X]].
  - rewrite enc_00big by exact H. change (0 :: 0 :: c :: r) with ([0; 0] ++ c :: r). rewrite trail_zeros_app_nz by lia.
    destruct (IH r ltac:(cbn; lia)) as [[(e & ->) X]|[-> X]]; [left; split; [eexists; reflexivity|exact X]|right; split; [reflexivity|exact X]].
Qed.

(* round trip: where it is lost *)
Fixpoint lossyb (z : Z) (l : bytes) : bool :=
  match l with
  | [] => false
  | b :: r => ((b =? 3) && (4 <=? z) && (z mod 3 =? 1)) || lossyb (if b =? 0 then z + 1 else 0) r
  end.

Definition carry (z : Z) : bytes := if 0 <? z then [0] else [].

Lemma enc_bind_inv r (f : bytes -> bytes) e : (let! t := enc r in Ok (f t)) = Ok e -> exists t, enc r = Ok t /\ e = f t.
Proof. destruct (enc r) as [t| | |]; cbn; intros X; try discriminate. injection X as <-. eauto. Qed.

Lemma carry_raw_nz z b t : b <> 0 -> ebsp_to_raw (carry z ++ b :: t) = carry z ++ b :: ebsp_to_raw t.
Proof. intros H. unfold carry. destruct (0 <? z); cbn [app]; [apply raw_0nz|apply raw_nz]; exact H. Qed.

Lemma carry_raw_00 z x t : x <> 3 \/ True -> ebsp_to_raw (carry z ++ 0 :: 0 :: x :: t) = carry z ++ ebsp_to_raw (0 :: 0 :: x :: t).
Proof. intros _. unfold carry. destruct (0 <? z); cbn [app]; [|reflexivity]. apply raw_00n. lia. Qed.

Lemma enc_lossy : forall l z e, 0 <= z -> z mod 3 = 0 -> bytes_ok l -> enc l = Ok e ->
  (length (ebsp_to_raw (carry z ++ e)) <= length (carry z) + length l)%nat /\
  (ebsp_to_raw (carry z ++ e) = carry z ++ l <-> lossyb z l = false).
Proof.
  induction l as [l IH] using list_ind_len. intros z e Hz Hm Hok.
  destruct (enc_cases l) as [-> |[-> |[-> |[(b & r & -> & H)|[(b & r & -> & H)|[(c & r & -> & H)|(c & r & -> & H)]]]]]].
  - intros X; injection X as <-. rewrite app_nil_r. unfold carry. destruct (0 <? z); cbn; split; try lia; tauto.
  - intros X; injection X as <-. unfold carry. destruct (0 <? z); cbn; split; try lia; tauto.
  - discriminate.
  - rewrite enc_nz by exact H. intros X. apply enc_bind_inv in X as (t & Et & ->).
    apply Forall_cons_iff in Hok as [_ Hok].
    destruct (IH r ltac:(cbn; lia) 0 t ltac:(lia) eq_refl Hok Et) as [L I]. cbn [app carry Z.ltb Z.compare length] in *.
    rewrite carry_raw_nz by exact H. rewrite app_length. cbn [length lossyb].
    replace (z mod 3 =? 1) with false by lia. rewrite andb_false_r. cbn [orb]. replace (b =? 0) with false by lia.
    split; [lia|]. rewrite <- I. split; intros E; [|congruence]. apply app_inv_head in E. congruence.
  - rewrite enc_0nz by exact H. intros X. apply enc_bind_inv in X as (t & Et & ->).
    apply Forall_cons_iff in Hok as [_ Hok]. apply Forall_cons_iff in Hok as [_ Hok].
    destruct (IH r ltac:(cbn; lia) 0 t ltac:(lia) eq_refl Hok Et) as [L I]. cbn [app carry Z.ltb Z.compare length] in *.
    cbn [lossyb Z.eqb andb orb]. replace (b =? 0) with false by lia.
    assert (M : (z + 1) mod 3 = 1) by (rewrite Z.add_mod, Hm by lia; reflexivity).
    rewrite M. change (1 =? 1) with true. rewrite andb_true_r.
    unfold carry. destruct (0 <? z) eqn:Ez; cbn [app length].
    + assert (3 <= z). { pose proof (Z.div_mod z 3 ltac:(lia)). lia. }
      replace (4 <=? z + 1) with true by lia. rewrite andb_true_r.
      destruct (Z.eq_dec b 3) as [-> |N].
      * rewrite raw_003. cbn [length Z.eqb Pos.eqb orb]. split; [lia|]. split; [|discriminate].
        intros E. injection E as E. rewrite E in L. cbn in L. lia.
      * rewrite raw_00n, raw_0nz by assumption. cbn [length]. replace (b =? 3) with false by lia. cbn [orb].
        split; [lia|]. rewrite <- I. split; congruence.
    + replace (4 <=? z + 1) with false by lia. rewrite andb_false_r. cbn [orb].
      rewrite raw_0nz by exact H. cbn [length]. split; [lia|]. rewrite <- I. split; congruence.
  - rewrite enc_00small by exact H. intros X. apply enc_bind_inv in X as (t & Et & ->).
    apply Forall_cons_iff in Hok as [_ Hok]. apply Forall_cons_iff in Hok as [_ Hok]. apply Forall_cons_iff in Hok as [_ Hok].
    rewrite carry_raw_00 by auto. rewrite raw_003, app_length. cbn [length lossyb Z.eqb andb orb].
    destruct (Z.eq_dec c 0) as [-> |N].
    + destruct (IH r ltac:(cbn; lia) (z + 3) t ltac:(lia) ltac:(rewrite Z.add_mod, Hm by lia; reflexivity) Hok Et) as [L I].
      unfold carry in L, I at 1 2. replace (0 <? z + 3) with true in * by lia. cbn [app length Z.eqb andb orb] in *.
      replace (z + 1 + 1 + 1) with (z + 3) by lia. split; [lia|]. rewrite <- I.
      split; intros E; [|congruence]. apply app_inv_head in E. congruence.
    + destruct (IH r ltac:(cbn; lia) 0 t ltac:(lia) eq_refl Hok Et) as [L I]. cbn [app carry Z.ltb Z.compare length] in *.
      rewrite raw_nz by exact N. cbn [length].
      replace ((z + 1 + 1) mod 3 =? 1) with false.
      2:{ replace (z + 1 + 1) with (z + 2) by lia. rewrite Z.add_mod, Hm by lia. reflexivity. }
      rewrite andb_false_r. cbn [orb]. replace (c =? 0) with false by lia.
      split; [lia|]. rewrite <- I. split; intros E; [|congruence]. apply app_inv_head in E. congruence.
  - rewrite enc_00big by exact H. intros X. apply enc_bind_inv in X as (t & Et & ->).
    apply Forall_cons_iff in Hok as [_ Hok]. apply Forall_cons_iff in Hok as [_ Hok]. apply Forall_cons_iff in Hok as [_ Hok].
    rewrite carry_raw_00 by auto. rewrite raw_00n, raw_0nz, app_length by lia. cbn [length lossyb Z.eqb andb orb].
    destruct (IH r ltac:(cbn; lia) 0 t ltac:(lia) eq_refl Hok Et) as [L I]. cbn [app carry Z.ltb Z.compare length] in *.
    replace (c =? 3) with false by lia. replace (c =? 0) with false by lia. cbn [andb orb].
    split; [lia|]. rewrite <- I. split; intros E; [|congruence]. apply app_inv_head in E. congruence.
Qed.

Lemma lossyb_spec : forall l z, 0 <= z ->
  lossyb z l = true <->
  (exists j b, l = repeat 0 j ++ 3 :: b /\ 4 <= z + Z.of_nat j /\ (z + Z.of_nat j) mod 3 = 1) \/
  (exists a j b, l = a ++ repeat 0 j ++ 3 :: b /\ a <> [] /\ last a 0 <> 0 /\ 4 <= Z.of_nat j /\ Z.of_nat j mod 3 = 1).
Proof.
  induction l as [|x r IH]; intros z Hz; cbn [lossyb].
  - split; [discriminate|]. intros [(j & b & E & _)|(a & j & b & E & _)]; [destruct j|destruct a; [|discriminate]; destruct j]; discriminate.
  - destruct (Z.eq_dec x 0) as [-> |N].
    + cbn [Z.eqb andb orb]. rewrite IH by lia. split.
      * intros [(j & b & -> & H1 & H2)|(a & j & b & -> & Ha & Hl & H1 & H2)].
        -- left. exists (S j), b. splits; [reflexivity| |].
           ++ lia.
           ++ replace (z + Z.of_nat (S j)) with (z + 1 + Z.of_nat j) by lia. exact H2.
        -- right. exists (0 :: a), j, b. splits; auto; [discriminate|]. destruct a; [congruence|exact Hl].
      * intros [([|j] & b & E & H1 & H2)|(a & j & b & E & Ha & Hl & H1 & H2)].
        -- discriminate.
        -- injection E as ->. left. exists j, b. splits; [reflexivity|lia|].
           replace (z + 1 + Z.of_nat j) with (z + Z.of_nat (S j)) by lia. exact H2.
        -- destruct a as [|y a]; [congruence|]. injection E as <- ->.
           right. exists a, j, b. destruct a as [|w a]; [cbn in Hl; congruence|]. splits; auto; discriminate.
    + replace (x =? 0) with false by lia. rewrite orb_true_iff, IH by lia. split.
      * intros [H|[(j & b & -> & H1 & H2)|(a & j & b & -> & Ha & Hl & H1 & H2)]].
        -- left. exists 0%nat, r. assert (x = 3) as -> by lia. splits; [reflexivity|lia|]. rewrite Z.add_0_r. lia.
        -- right. exists [x], j, b. splits; auto; discriminate.
        -- right. exists (x :: a), j, b. splits; auto; [discriminate|]. destruct a; [congruence|exact Hl].
      * intros [([|j] & b & E & H1 & H2)|(a & j & b & E & Ha & Hl & H1 & H2)].
        -- injection E as -> ->. left. rewrite Z.add_0_r in *. lia.
        -- injection E as -> ->. congruence.
        -- destruct a as [|y a]; [congruence|]. injection E as <- ->. right.
           destruct a as [|w a].
           ++ left. exists j, b. auto.
           ++ right. exists (w :: a), j, b. splits; auto; discriminate.
Qed.

Lemma lossy_run_spec l : lossy_run l <-> lossyb 0 l = true.
Proof.
  rewrite lossyb_spec by lia. split.
  - intros (a & k & b & E & Ha).
    assert (M : Z.of_nat (3 * k + 4) mod 3 = 1).
    { replace (Z.of_nat (3 * k + 4)) with (1 + (Z.of_nat k + 1) * 3) by lia. rewrite Z.mod_add by lia. reflexivity. }
    destruct a as [|x a].
    + left. exists (3 * k + 4)%nat, b. splits; auto; lia.
    + right. exists (x :: a), (3 * k + 4)%nat, b. destruct Ha as [?|Ha]; [discriminate|]. splits; auto; [discriminate|lia].
  - assert (K : forall j, 4 <= Z.of_nat j -> Z.of_nat j mod 3 = 1 -> exists k, j = (3 * k + 4)%nat).
    { intros j H1 H2. exists (Z.to_nat (Z.of_nat j / 3) - 1)%nat.
      pose proof (Z.div_mod (Z.of_nat j) 3 ltac:(lia)). lia. }
    intros [(j & b & -> & H1 & H2)|(a & j & b & -> & Ha & Hl & H1 & H2)];
      (destruct (K j) as (k & ->); [lia|auto|]).
    + exists [], k, b. auto.
    + exists a, k, b. auto.
Qed.

(* forbidden patterns in the output *)
Fixpoint quad (z : Z) (l : bytes) : bool :=
  match l with
  | [] => false
  | b :: r => ((4 <=? z) && (0 <=? b) && (b <=? 2)) || quad (if b =? 0 then z + 1 else 0) r
  end.

Lemma quad_4 l : forall z, 4 <= z -> quad z (0 :: l) = true.
Proof. intros z H. cbn [quad Z.leb Z.compare]. replace (4 <=? z) with true by lia. reflexivity. Qed.

Lemma clean_nz x t : x <> 0 -> clean (x :: t) = clean t.
Proof.
  intros Hx. rewrite clean_cons. destruct t as [|y [|w t]]; try reflexivity.
  replace (x =? 0) with false by lia. reflexivity.
Qed.

Lemma clean_0nz b t : b <> 0 -> clean (0 :: b :: t) = clean t.
Proof.
  intros H. rewrite clean_cons. destruct t as [|y t]; [reflexivity|].
  replace (b =? 0) with false by lia. cbn [andb negb Z.eqb]. apply clean_nz; assumption.
Qed.

Lemma clean_00 b t : b <> 0 -> clean (0 :: 0 :: b :: t) = negb ((0 <=? b) && (b <=? 2)) && clean t.
Proof. intros H. rewrite clean_cons. cbn [Z.eqb andb]. rewrite clean_0nz by exact H. reflexivity. Qed.

Lemma enc_clean : forall l z e, z = 0 \/ z = 3 -> bytes_ok l -> enc l = Ok e ->
  clean (carry z ++ e) = negb (quad z l).
Proof.
  induction l as [l IH] using list_ind_len. intros z e Hz Hok.
  destruct (enc_cases l) as [-> |[-> |[-> |[(b & r & -> & H)|[(b & r & -> & H)|[(c & r & -> & H)|(c & r & -> & H)]]]]]].
  - intros X; injection X as <-. destruct Hz as [-> | ->]; reflexivity.
  - intros X; injection X as <-. destruct Hz as [-> | ->]; reflexivity.
  - discriminate.
  - rewrite enc_nz by exact H. intros X. apply enc_bind_inv in X as (t & Et & ->).
    apply Forall_cons_iff in Hok as [_ Hok].
    pose proof (IH r ltac:(cbn; lia) 0 t (or_introl eq_refl) Hok Et) as I. cbn [app carry Z.ltb Z.compare] in I.
    cbn [quad]. replace (b =? 0) with false by lia. replace (4 <=? z) with false by lia. cbn [andb orb].
    rewrite <- I. destruct Hz as [-> | ->]; cbn [app carry Z.ltb Z.compare]; [apply clean_nz|apply clean_0nz]; exact H.
  - rewrite enc_0nz by exact H. intros X. apply enc_bind_inv in X as (t & Et & ->).
    apply Forall_cons_iff in Hok as [_ Hok]. apply Forall_cons_iff in Hok as [_ Hok].
    pose proof (IH r ltac:(cbn; lia) 0 t (or_introl eq_refl) Hok Et) as I. cbn [app carry Z.ltb Z.compare] in I.
    cbn [quad Z.eqb]. replace (b =? 0) with false by lia. replace (4 <=? z) with false by lia. cbn [andb orb].
    destruct Hz as [-> | ->]; cbn [app carry Z.ltb Z.compare].
    + change (4 <=? 0 + 1) with false. cbn [andb orb]. rewrite <- I. apply clean_0nz; exact H.
    + change (4 <=? 3 + 1) with true. cbn [andb]. rewrite negb_orb, <- I. apply clean_00; exact H.
  - rewrite enc_00small by exact H. intros X. apply enc_bind_inv in X as (t & Et & ->).
    apply Forall_cons_iff in Hok as [_ Hok]. apply Forall_cons_iff in Hok as [_ Hok]. apply Forall_cons_iff in Hok as [Hc Hok].
    unfold byte_ok in Hc.
    destruct Hz as [-> | ->]; cbn [app carry Z.ltb Z.compare].
    + rewrite clean_00 by lia. cbn [Z.leb Z.compare Pos.compare Pos.compare_cont andb negb].
      cbn [quad Z.eqb Z.add Z.leb Z.compare Pos.compare Pos.compare_cont andb orb Pos.add Pos.succ].
      destruct (Z.eq_dec c 0) as [-> |N].
      * pose proof (IH r ltac:(cbn; lia) 3 t (or_intror eq_refl) Hok Et) as I. exact I.
      * pose proof (IH r ltac:(cbn; lia) 0 t (or_introl eq_refl) Hok Et) as I.
        replace (c =? 0) with false by lia. rewrite <- I. apply clean_nz; exact N.
    + reflexivity.
  - rewrite enc_00big by exact H. intros X. apply enc_bind_inv in X as (t & Et & ->).
    apply Forall_cons_iff in Hok as [_ Hok]. apply Forall_cons_iff in Hok as [_ Hok]. apply Forall_cons_iff in Hok as [Hc Hok].
    pose proof (IH r ltac:(cbn; lia) 0 t (or_introl eq_refl) Hok Et) as I.
    destruct Hz as [-> | ->]; cbn [app carry Z.ltb Z.compare].
    + rewrite clean_00 by lia. replace (c <=? 2) with false by lia. rewrite andb_false_r. cbn [negb andb].
      cbn [quad Z.eqb Z.add Z.leb Z.compare Pos.compare Pos.compare_cont andb orb Pos.add Pos.succ].
      replace (c =? 0) with false by lia. exact I.
    + reflexivity.
Qed.

Definition quad_pat (l : bytes) : Prop := exists x, 0 <= x <= 2 /\ contains [0; 0; 0; 0; x] l.

Lemma quad_pat_cons a r : quad_pat (a :: r) <->
  (exists x t, 0 <= x <= 2 /\ a :: r = 0 :: 0 :: 0 :: 0 :: x :: t) \/ quad_pat r.
Proof.
  unfold quad_pat. split.
  - intros (x & Hx & C). apply contains_cons in C as [(t & E)|C].
    + left. exists x, t. split; [exact Hx|exact E].
    + right. exists x. split; assumption.
  - intros [(x & t & Hx & E)|(x & Hx & C)]; exists x; (split; [exact Hx|]); apply contains_cons.
    + left. exists t. exact E.
    + right. exact C.
Qed.

Lemma quad_pat_nz b r : b <> 0 -> (quad_pat (b :: r) <-> quad_pat r).
Proof. intros H. rewrite quad_pat_cons. split; [|tauto]. intros [(x & t & _ & E)|?]; [congruence|assumption]. Qed.

Lemma quad_pat_run b r : b <> 0 -> forall k, (k <= 4)%nat ->
  (quad_pat (repeat 0 k ++ b :: r) <-> (k = 4%nat /\ 0 <= b <= 2) \/ quad_pat r).
Proof.
  intros H. induction k as [|k IH]; intros Hk.
  - cbn [repeat app]. rewrite quad_pat_nz by exact H. split; [tauto|]. intros [[? _]|?]; [discriminate|assumption].
  - cbn [repeat app]. rewrite quad_pat_cons, IH by lia. split.
    + intros [(x & t & Hx & E)|[[-> ?]|?]]; [|lia|tauto].
      destruct k as [|[|[|[|k]]]]; cbn [repeat app] in E; injection E; intros; subst; try congruence; try lia.
    + intros [[E ?]|?]; [|tauto]. injection E as ->. left. exists b, r. split; [assumption|reflexivity].
Qed.

Lemma quad_spec : forall l z, 0 <= z -> (quad z l = true <-> quad_pat (repeat 0 (Nat.min (Z.to_nat z) 4) ++ l)).
Proof.
  induction l as [|b r IH]; intros z Hz.
  - cbn [quad]. split; [discriminate|]. rewrite app_nil_r. intros (x & Hx & p & t & E).
    apply (f_equal (@length Z)) in E. rewrite repeat_length, !app_length in E. cbn [length] in E. lia.
  - cbn [quad]. destruct (Z.eq_dec b 0) as [-> |N].
    + change (0 =? 0) with true. cbn match. destruct (4 <=? z) eqn:E4.
      * replace (Nat.min (Z.to_nat z) 4) with 4%nat by lia. cbn [Z.leb Z.compare andb orb repeat app].
        split; [intros _|reflexivity]. exists 0. split; [lia|]. exists [], r. reflexivity.
      * cbn [andb orb]. rewrite IH by lia.
        replace (Nat.min (Z.to_nat (z + 1)) 4) with (S (Nat.min (Z.to_nat z) 4)) by lia.
        cbn [repeat]. rewrite repeat_cons, <- app_assoc. reflexivity.
    + replace (b =? 0) with false by lia. rewrite quad_pat_run by (try exact N; lia).
      rewrite orb_true_iff, IH by lia. cbn [Z.to_nat Nat.min repeat app]. 
      split; (intros [H|H]; [left; lia|right; exact H]).
Qed.

Lemma enc_forbidden l e : bytes_ok l -> enc l = Ok e -> (forbidden e <-> quad_pat l).
Proof.
  intros Hok He. pose proof (enc_clean l 0 e (or_introl eq_refl) Hok He) as C. cbn [carry Z.ltb Z.compare app] in C.
  pose proof (clean_spec e) as S. pose proof (quad_spec l 0 ltac:(lia)) as Q. cbn [Z.to_nat Nat.min repeat app] in Q.
  rewrite <- Q. rewrite C in S. destruct (quad 0 l); cbn [negb] in S.
  - split; [reflexivity|]. intros _. destruct (clean e) eqn:E; [discriminate C|].
    (* decidability of [forbidden] through [clean] *)
    clear - E. revert E. induction e as [|a r IH]; [discriminate|]. rewrite clean_cons.
    destruct r as [|b [|c r]]; try discriminate.
    destruct ((a =? 0) && (b =? 0) && (0 <=? c) && (c <=? 2)) eqn:P; cbn [negb andb].
    + intros _. exists c. split; [lia|]. exists [], r. cbn [app]. f_equal; [lia|]. f_equal; lia.
    + intros E. destruct (IH E) as (x & Hx & p & t & Ep). exists x. split; [exact Hx|]. exists (a :: p), t. rewrite Ep. reflexivity.
  - split; [|discriminate]. intros F. exfalso. apply S; [reflexivity|exact F].
Qed.

(* payloads without four consecutive zeros: the output is the standard's encapsulation *)
Lemma no4_cons a r : ~ contains [0; 0; 0; 0] (a :: r) -> ~ contains [0; 0; 0; 0] r.
Proof. intros H C. apply H, contains_cons. right; exact C. Qed.

Lemma enc_standard : forall l e, bytes_ok l -> enc l = Ok e -> ~ contains [0; 0; 0; 0] l -> e = enc_body [] 0 l.
Proof.
  induction l as [l IH] using list_ind_len. intros e Hok.
  destruct (enc_cases l) as [-> |[-> |[-> |[(b & r & -> & H)|[(b & r & -> & H)|[(c & r & -> & H)|(c & r & -> & H)]]]]]].
  - intros X; injection X as <-. reflexivity.
  - intros X; injection X as <-. reflexivity.
  - discriminate.
  - rewrite enc_nz by exact H. intros X N. apply enc_bind_inv in X as (t & Et & ->).
    apply Forall_cons_iff in Hok as [_ Hok]. cbn [enc_body Nat.leb andb]. replace (b =? 0) with false by lia.
    f_equal. apply IH; auto. apply no4_cons in N; exact N.
  - rewrite enc_0nz by exact H. intros X N. apply enc_bind_inv in X as (t & Et & ->).
    apply Forall_cons_iff in Hok as [_ Hok]. apply Forall_cons_iff in Hok as [_ Hok].
    cbn [enc_body Nat.leb andb Z.eqb]. replace (b =? 0) with false by lia.
    do 2 f_equal. apply IH; auto; [cbn; lia|]. do 2 apply no4_cons in N; exact N.
  - rewrite enc_00small by exact H. intros X N. apply enc_bind_inv in X as (t & Et & ->).
    apply Forall_cons_iff in Hok as [_ Hok]. apply Forall_cons_iff in Hok as [_ Hok]. apply Forall_cons_iff in Hok as [Hc Hok].
    cbn [enc_body Nat.leb andb Z.eqb]. replace (c <=? 3) with true by lia.
    destruct (Z.eq_dec c 0) as [-> |Nc].
    + change (0 =? 0) with true. cbn match. do 4 f_equal.
      destruct r as [|b r]; [injection Et as <-; reflexivity|].
      assert (Nb : b <> 0) by (intros ->; apply N; exists [], r; reflexivity).
      rewrite enc_nz in Et by exact Nb. apply enc_bind_inv in Et as (t' & Et & ->).
      apply Forall_cons_iff in Hok as [_ Hok].
      cbn [enc_body Nat.leb andb]. replace (b =? 0) with false by lia. f_equal.
      apply IH; auto; [cbn; lia|]. do 4 apply no4_cons in N; exact N.
    + replace (c =? 0) with false by lia. do 4 f_equal. apply IH; auto; [cbn; lia|]. do 3 apply no4_cons in N; exact N.
  - rewrite enc_00big by exact H. intros X N. apply enc_bind_inv in X as (t & Et & ->).
    apply Forall_cons_iff in Hok as [_ Hok]. apply Forall_cons_iff in Hok as [_ Hok]. apply Forall_cons_iff in Hok as [Hc Hok].
    cbn [enc_body Nat.leb andb Z.eqb]. replace (c <=? 3) with false by lia. replace (c =? 0) with false by lia.
    do 3 f_equal. apply IH; auto; [cbn; lia|]. do 3 apply no4_cons in N; exact N.
Qed.

(* ---------- pieces are well-formed slices of the buffer ---------- *)
Lemma emit_in cur s : In s (emit cur) -> s <> [] /\ exists t, cur = s ++ t.
Proof.
  unfold emit. destruct (list_last_dec cur) as [-> |(m & x & ->)].
  - cbn. tauto.
  - rewrite last_last, removelast_last. destruct (x =? 0).
    + destruct m as [|y m]; [intros []|]. intros [<- |[]]. split; [discriminate|eauto].
    + destruct (m ++ [x]) as [|y t] eqn:E; [intros []|]. intros [<- |[]]. split; [discriminate|]. exists []. rewrite app_nil_r. reflexivity.
Qed.

Definition code_free (s : bytes) : Prop := forall x, ~ contains [0; 0; 1; x] s.

Lemma scan_pieces : forall l pre cur buf,
  buf = pre ++ cur ++ l ->
  (forall a x b, cur ++ l = a ++ [0; 0; 1; x] ++ b -> (length cur <= length a)%nat) ->
  cur ++ l <> [] ->
  scan cur l <> [] /\ Forall (fun s => s <> [] /\ contains s buf /\ code_free s) (scan cur l).
Proof.
  induction l as [l IH] using list_ind_len. intros pre cur buf Hb HI Hne.
  assert (CF : forall s t, cur = s ++ t -> code_free s).
  { intros s t -> x (a & b & E). specialize (HI a x (b ++ t ++ l)).
    rewrite E, <- !app_assoc in HI. cbn [app] in HI. specialize (HI eq_refl).
    rewrite !app_length in HI. cbn [length] in HI. lia. }
  assert (ST : forall a r, l = a :: r -> ~ (exists d t, l = 0 :: 0 :: 1 :: d :: t) ->
     scan (cur ++ [a]) r <> [] /\ Forall (fun s => s <> [] /\ contains s buf /\ code_free s) (scan (cur ++ [a]) r)).
  { intros a r -> Hn. apply IH with (pre := pre).
    - cbn; lia.
    - rewrite Hb, <- app_assoc. reflexivity.
    - intros p x q E. rewrite <- app_assoc in E. cbn [app] in E. specialize (HI p x q E).
      rewrite app_length. cbn [length]. destruct (Nat.eq_dec (length p) (length cur)) as [Eq|Nq]; [|lia].
      exfalso. apply Hn. exists x, q. 
      assert (skipn (length p) (cur ++ a :: r) = 0 :: 0 :: 1 :: x :: q) as K by (rewrite E, skipn_app_exact by reflexivity; reflexivity).
      rewrite Eq, skipn_app_exact in K by reflexivity. exact K.
    - intros X. apply (f_equal (@length Z)) in X. rewrite !app_length in X. cbn in X. lia. }
  destruct l as [|a l].
  - cbn [scan]. rewrite app_nil_r in *. split; [discriminate|]. constructor; [|constructor]. splits; auto.
    + exists pre, []. rewrite app_nil_r. exact Hb.
    + apply (CF cur []). rewrite app_nil_r; reflexivity.
  - destruct l as [|b [|c [|d l]]]; try (apply (ST a _ eq_refl); intros (d & t & X); discriminate).
    destruct (Z.eq_dec a 0) as [-> |]; [destruct (Z.eq_dec b 0) as [-> |]; [destruct (Z.eq_dec c 1) as [-> |]|]|].
    2,3,4: rewrite scan_step by lia; apply (ST _ _ eq_refl); intros (d' & t & X); injection X; intros; subst; congruence.
    rewrite scan_code.
    destruct (IH (d :: l) ltac:(cbn; lia) (pre ++ cur ++ [0; 0; 1]) [] buf) as [P1 P2].
    + rewrite Hb, <- !app_assoc. reflexivity.
    + intros; cbn; lia.
    + discriminate.
    + split; [intros X; apply app_eq_nil in X as [_ X]; congruence|]. apply Forall_app. split; [|exact P2].
      apply Forall_forall. intros s Hs. apply emit_in in Hs as (S1 & t & Et). splits; auto.
      * exists pre, (t ++ 0 :: 0 :: 1 :: d :: l). rewrite Hb, Et, <- !app_assoc. reflexivity.
      * eapply CF; eauto.
Qed.

Lemma split_pieces buf : exists ss, split_annexb buf = Ok (map ebsp_to_raw ss) /\ ss <> [] /\
  (buf <> [] -> Forall (fun s => s <> [] /\ contains s buf /\ code_free s) ss) /\
  (no_start buf -> ss = [buf]).
Proof.
  exists (scan [] buf). split; [apply split_annexb_scan|]. destruct buf as [|a r].
  - cbn. splits; [discriminate|congruence|reflexivity].
  - destruct (scan_pieces (a :: r) [] [] (a :: r) eq_refl) as [P1 P2]; [intros; cbn; lia|discriminate|].
    splits; auto. intros H. apply (scan_none (a :: r) [] H).
Qed.
