(* Lemmas for C178. *)
From Verif Require Import Base S_rtp S_alike M_rtp L_base L_nal L_rtp.

Lemma rtp_alike a b p : bytes_ok a -> bytes_ok b -> rtp_unpack a = Ok p -> rtp_unpack b = Ok p -> a = b.
Proof.
  intros Ha Hb Ea Eb. destruct (rtp_unpack_inv a p Ha Ea) as (h & L & -> & P). destruct (rtp_unpack_inv b p Hb Eb) as (k & M & -> & Q).
  rewrite P in Q. unfold rtp_of in Q. 
  pose proof (f_equal rtp_vpxcc Q) as Q0. pose proof (f_equal rtp_mpt Q) as Q1. pose proof (f_equal rtp_sn Q) as Q2. pose proof (f_equal rtp_ts Q) as Q3.
  pose proof (f_equal rtp_ssrc Q) as Q4. pose proof (f_equal rtp_csrc Q) as Q5. pose proof (f_equal rtp_xh Q) as Q6. pose proof (f_equal rtp_xd Q) as Q8.
  cbn [rtp_vpxcc rtp_mpt rtp_sn rtp_ts rtp_ssrc rtp_csrc rtp_xh rtp_xd] in *. clear Q P.
  destruct L as (Lt & _ & _ & _ & Lc & _ & Lx), M as (Mt & _ & _ & _ & Mc & _ & Mx).
  assert (X : (if h_ext h then true else false) = (if h_ext k then true else false)).
  { clear Q6 Q8 Lx Mx. rewrite <- Q5 in Q0. pose proof (zlen_nonneg (h_csrc h)). destruct (h_padding h), (h_padding k), (h_ext h), (h_ext k); cbn [bit] in Q0; try reflexivity; lia. }
  unfold rtp_layout. rewrite Q0, Q1, Q2, Q3, Q4, Q5.
  destruct (h_ext h) as [[x d]|], (h_ext k) as [[y e]|]; try discriminate; [|reflexivity].
  rewrite Q6, Q8. reflexivity.
Qed.

Lemma be_of_inj l m : bytes_ok l -> bytes_ok m -> length l = length m -> be_of l = be_of m -> l = m.
Proof. intros Hl Hm E F. rewrite <- (be_put_of l Hl), <- (be_put_of m Hm), E, F. reflexivity. Qed.

Lemma low32 a : byte_ok a -> Z.land a 31 = a mod 32.
Proof. intros _. change 31 with (Z.ones 5). rewrite Z.land_ones by lia. reflexivity. Qed.

(* when a control packet is read *)
Lemma rtcp_read b : bytes_ok b -> ((exists p, rtcp_unpack b = Ok p) <-> 4 <= zlen b /\ nth 0 b 0 / 64 = 2 /\ room b <= zlen b).
Proof.
  intros Hb. destruct b as [|x [|y [|c [|d r]]]]; try (split; [intros (p & E); discriminate|intros (L & _); unfold zlen in L; cbn in L; lia]).
  assert (Hx : byte_ok x) by (inversion Hb; assumption). rewrite rtcp_outcome by exact Hx. unfold room. cbn [nth]. rewrite low32 by exact Hx.
  set (z := zlen (x :: y :: c :: d :: r)). assert (4 <= z) by (unfold z; rewrite !zlen_cons; pose proof (zlen_nonneg r); lia).
  destruct (Z.eqb_spec (x / 64) 2) as [V|V]; cbn [negb]; [|split; [intros (p & E); discriminate|intros (_ & W & _); contradiction]].
  destruct (Z.eqb_spec y 200) as [Y|Y]; cbn [andb].
  - destruct (Z.ltb_spec z (28 + 24 * (x mod 32))) as [L|L]; [split; [intros (p & E); discriminate|intros (_ & _ & W); lia]|].
    split; [intros _; splits; [lia|exact V|exact L]|intros _; eexists; reflexivity].
  - split; [intros _; splits; [lia|exact V|lia]|intros _; eexists; reflexivity].
Qed.

Lemma cut_eq {A} (n m : nat) (u v : list A) : firstn n u = firstn n v -> firstn m (skipn n u) = firstn m (skipn n v) -> firstn (n + m) u = firstn (n + m) v.
Proof.
  revert u v. induction n as [|n IH]; intros u v E F; [exact F|]. destruct u as [|x u], v as [|y v]; cbn in *; try discriminate; [reflexivity|].
  injection E as -> E. f_equal. apply IH; assumption.
Qed.
Lemma cut_part {A} (n k m : nat) (u v : list A) : (n + m <= k)%nat -> firstn k u = firstn k v -> firstn m (skipn n u) = firstn m (skipn n v).
Proof.
  intros L E. rewrite !firstn_skipn_comm. f_equal.
  replace (firstn (n + m) u) with (firstn (n + m) (firstn k u)) by (rewrite firstn_firstn; f_equal; lia).
  rewrite E, firstn_firstn. f_equal. lia.
Qed.
Lemma word_cut n m u v : bytes_ok u -> bytes_ok v -> (n + m <= length u)%nat -> (n + m <= length v)%nat ->
  be_of (firstn m (skipn n u)) = be_of (firstn m (skipn n v)) -> firstn m (skipn n u) = firstn m (skipn n v).
Proof.
  intros Hu Hv Lu Lv E. apply be_of_inj; [apply bytes_ok_firstn, bytes_ok_skipn, Hu|apply bytes_ok_firstn, bytes_ok_skipn, Hv| |exact E].
  rewrite !firstn_length, !skipn_length. lia.
Qed.

Lemma rest_ok x y c d r : bytes_ok (x :: y :: c :: d :: r) -> bytes_ok [c; d] /\ bytes_ok r.
Proof.
  unfold bytes_ok. intros H. inversion H as [|? ? _ H1]; subst. inversion H1 as [|? ? _ H2]; subst. inversion H2 as [|? ? Hc H3]; subst.
  inversion H3 as [|? ? Hd H4]; subst. split; [repeat apply Forall_cons; [exact Hc|exact Hd|apply Forall_nil]|exact H4].
Qed.

Lemma rtcp_alike a b p : bytes_ok a -> bytes_ok b -> rtcp_unpack a = Ok p ->
  (rtcp_unpack b = Ok p <-> firstn (part_read a) b = firstn (part_read a) a /\ room a <= zlen b).
Proof.
  intros Ha Hb Ea. pose proof (proj1 (rtcp_read a Ha) (ex_intro _ p Ea)) as (La & Va & Ra).
  destruct a as [|x [|y [|c [|d r]]]]; try (unfold zlen in La; cbn in La; lia).
  assert (Hx : byte_ok x) by (inversion Ha; assumption).
  assert (Hcd : bytes_ok [c; d] /\ bytes_ok r) by (eapply rest_ok; eassumption).
  unfold part_read, room in *. cbn [nth] in *. rewrite rtcp_outcome in Ea by exact Hx.
  rewrite (proj2 (Z.eqb_eq _ _) Va) in Ea. cbn [negb] in Ea.
  split.
  - intros Eb. pose proof (proj1 (rtcp_read b Hb) (ex_intro _ p Eb)) as (Lb & Vb & Rb).
    destruct b as [|x' [|y' [|c' [|d' r']]]]; try (unfold zlen in Lb; cbn in Lb; lia).
    assert (Hx' : byte_ok x') by (inversion Hb; assumption).
    assert (Hcd' : bytes_ok [c'; d'] /\ bytes_ok r') by (eapply rest_ok; eassumption).
    unfold room in Rb. cbn [nth] in *. rewrite rtcp_outcome in Eb by exact Hx'. rewrite (proj2 (Z.eqb_eq _ _) Vb) in Eb. cbn [negb] in Eb.
    destruct ((y =? 200) && _); [discriminate|]. destruct ((y' =? 200) && _); [discriminate|].
    rewrite <- Ea in Eb. injection Eb as -> -> CD SR.
    assert (CD' : [c'; d'] = [c; d]) by (apply be_of_inj; [apply Hcd'|apply Hcd|reflexivity|exact CD]). injection CD' as -> ->.
    destruct (y =? 200).
    + split; [|exact Rb]. injection SR as S1 S2 S3 S4 S5. rewrite !zlen_cons in *.
      assert (M : 0 <= x mod 32) by (apply Z.mod_pos_bound; lia). unfold zlen in *.
      change 28%nat with (4 + (4 + (8 + (4 + (4 + 4)))))%nat. cbn [firstn Nat.add]. do 4 f_equal.
      change (firstn (4 + (8 + (4 + (4 + 4)))) r' = firstn (4 + (8 + (4 + (4 + 4)))) r).
      replace (4 + (8 + (4 + (4 + 4))))%nat with (20 + 4)%nat by reflexivity. apply cut_eq; [|apply word_cut; try lia; try apply Hcd; try apply Hcd'; exact S5].
      change 20%nat with (16 + 4)%nat. apply cut_eq; [|apply word_cut; try lia; try apply Hcd; try apply Hcd'; exact S4].
      change 16%nat with (12 + 4)%nat. apply cut_eq; [|apply word_cut; try lia; try apply Hcd; try apply Hcd'; exact S3].
      change 12%nat with (4 + 8)%nat. apply cut_eq; [|apply word_cut; try lia; try apply Hcd; try apply Hcd'; exact S2].
      apply (word_cut 0 4 r' r); try lia; try apply Hcd; try apply Hcd'; exact S1.
    + split; [reflexivity|exact Lb].
  - intros (E & R).
    assert (L4 : (4 <= length b)%nat) by (unfold zlen in R; destruct (y =? 200); pose proof (Z.mod_pos_bound x 32); lia).
    destruct b as [|x' [|y' [|c' [|d' r']]]]; try (cbn in L4; lia).
    assert (E4 : x' = x /\ y' = y /\ c' = c /\ d' = d) by (destruct (y =? 200); cbn [firstn] in E; injection E; intros; subst; splits; reflexivity).
    destruct E4 as (-> & -> & -> & ->). rewrite rtcp_outcome by exact Hx. rewrite (proj2 (Z.eqb_eq _ _) Va). cbn [negb].
    rewrite low32 in * by exact Hx. destruct (y =? 200); cbn [andb] in *.
    + destruct (Z.ltb_spec (zlen (x :: y :: c :: d :: r)) (28 + 24 * (x mod 32))); [discriminate|].
      destruct (Z.ltb_spec (zlen (x :: y :: c :: d :: r')) (28 + 24 * (x mod 32))); [lia|].
      rewrite <- Ea. change (firstn 28 (x :: y :: c :: d :: ?l)) with (x :: y :: c :: d :: firstn 24 l) in E. injection E as E.
      pose proof (cut_part 0 24 4 r' r ltac:(lia) E) as F1. cbn [skipn] in F1.
      rewrite F1, (cut_part 4 24 8 r' r ltac:(lia) E), (cut_part 12 24 4 r' r ltac:(lia) E), (cut_part 16 24 4 r' r ltac:(lia) E), (cut_part 20 24 4 r' r ltac:(lia) E). reflexivity.
    + exact Ea.
Qed.
