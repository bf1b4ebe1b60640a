(* Lemmas about the RTP / RTCP model. *)
From Verif Require Import Base S_rtp M_rtp L_base L_nal.
From Coq Require Import ZifyBool ZifyNat.

Lemma be_at_eq k buf off :
  be_at k buf off = if (off + k <=? length buf)%nat then Ok (be_of (firstn k (skipn off buf))) else Panic.
Proof.
  unfold be_at, slice_from. destruct (Nat.leb_spec off (length buf)) as [H|H]; cbn [bind].
  - unfold be_uint. rewrite skipn_length.
    destruct (Nat.leb_spec k (length buf - off)), (Nat.leb_spec (off + k) (length buf)); try lia; reflexivity.
  - destruct (Nat.leb_spec (off + k) (length buf)); [lia|reflexivity].
Qed.

(* reading a word just laid out *)
Lemma be_at_put k pre z rest off : off = length pre -> word k z -> be_at k (pre ++ be_put k z ++ rest) off = Ok z.
Proof.
  intros -> W. rewrite be_at_eq, !app_length, be_put_length.
  destruct (Nat.leb_spec (length pre + k) (length pre + (k + length rest))); [|lia].
  rewrite skipn_app_exact by reflexivity. rewrite firstn_app_exact by (rewrite be_put_length; reflexivity).
  rewrite be_of_put. f_equal. apply Z.mod_small. exact W.
Qed.

(* a successful read names the bytes read *)
Lemma be_at_inv k buf off v : bytes_ok buf -> be_at k buf off = Ok v ->
  word k v /\ skipn off buf = be_put k v ++ skipn (off + k) buf.
Proof.
  intros HB. rewrite be_at_eq. destruct (Nat.leb_spec (off + k) (length buf)) as [H|H]; [|discriminate].
  intros E. injection E as <-.
  assert (L : length (firstn k (skipn off buf)) = k) by (rewrite firstn_length, skipn_length; lia).
  assert (HB' : bytes_ok (firstn k (skipn off buf))) by (apply bytes_ok_firstn, bytes_ok_skipn, HB).
  split.
  - unfold word. pose proof (be_of_range _ HB') as R. unfold zlen in R. rewrite L in R. exact R.
  - pose proof (be_put_of _ HB') as B. rewrite L in B. rewrite B.
    rewrite (firstn_skipn_split k (skipn off buf)) at 1. f_equal.
    rewrite skipn_skipn, Nat.add_comm. reflexivity.
Qed.

Lemma be_at_cases k buf off : (exists v, be_at k buf off = Ok v) \/ be_at k buf off = Panic.
Proof. rewrite be_at_eq. destruct (_ <=? _)%nat; eauto. Qed.

Lemma flat_put_length (cs : list Z) : length (flat_map (be_put 4) cs) = (4 * length cs)%nat.
Proof. induction cs as [|c cs IH]; cbn [flat_map length]; [reflexivity|]. rewrite app_length, be_put_length, IH. lia. Qed.

Lemma read_csrc_put cs : Forall (word 4) cs -> forall pre rest off, off = length pre ->
  read_csrc (length cs) (pre ++ flat_map (be_put 4) cs ++ rest) off = Ok cs.
Proof.
  induction 1 as [|c cs Hc Hs IH]; intros pre rest off ->; [reflexivity|].
  cbn [length read_csrc flat_map]. rewrite <- app_assoc. rewrite be_at_put by auto. cbn [bind].
  rewrite (app_assoc pre). rewrite IH by (rewrite app_length, be_put_length; reflexivity). reflexivity.
Qed.

Lemma read_csrc_inv n : forall buf off cs, bytes_ok buf -> read_csrc n buf off = Ok cs ->
  length cs = n /\ Forall (word 4) cs /\ skipn off buf = flat_map (be_put 4) cs ++ skipn (off + 4 * n) buf.
Proof.
  induction n as [|n IH]; intros buf off cs HB E; cbn [read_csrc] in E.
  - injection E as <-. splits; [reflexivity|constructor|]. cbn. f_equal. lia.
  - destruct (be_at 4 buf off) as [c|e| |] eqn:E1; try discriminate. cbn [bind] in E.
    destruct (read_csrc n buf (off + 4)) as [cs'|e| |] eqn:E2; try discriminate. injection E as <-.
    destruct (be_at_inv _ _ _ _ HB E1) as [W S1]. destruct (IH _ _ _ HB E2) as (L & F & S2).
    splits; [cbn; lia | constructor; assumption |].
    cbn [flat_map]. rewrite S1, S2, <- app_assoc. do 3 f_equal. lia.
Qed.

Lemma read_csrc_cases n : forall buf off, (exists v, read_csrc n buf off = Ok v) \/ read_csrc n buf off = Panic.
Proof.
  induction n as [|n IH]; intros buf off; cbn [read_csrc]; [eauto|].
  destruct (be_at_cases 4 buf off) as [[v ->]| ->]; cbn [bind]; [|auto].
  destruct (IH buf (off + 4)%nat) as [[w ->]| ->]; cbn [bind]; eauto.
Qed.

(* first byte *)
Lemma byte0_split b : byte_ok b ->
  (Z.land b 192 =? 128) = (b / 64 =? 2) /\
  b = 64 * (b / 64) + 32 * bit (negb (Z.land b 32 =? 0)) + 16 * bit (negb (Z.land b 16 =? 0)) + Z.land b 15 /\
  0 <= Z.land b 15 <= 15 /\
  b = 64 * (b / 64) + 32 * bit (negb (Z.land b 32 =? 0)) + Z.land b 31 /\ 0 <= Z.land b 31 <= 31.
Proof.
  intros H.
  assert (G : forallb (fun b => Bool.eqb (Z.land b 192 =? 128) (b / 64 =? 2) &&
     (b =? 64 * (b / 64) + 32 * bit (negb (Z.land b 32 =? 0)) + 16 * bit (negb (Z.land b 16 =? 0)) + Z.land b 15) &&
     ((0 <=? Z.land b 15) && (Z.land b 15 <=? 15)) &&
     (b =? 64 * (b / 64) + 32 * bit (negb (Z.land b 32 =? 0)) + Z.land b 31) &&
     ((0 <=? Z.land b 31) && (Z.land b 31 <=? 31))) (map Z.of_nat (seq 0 256)) = true) by (vm_compute; reflexivity).
  rewrite forallb_forall in G. specialize (G b).
  assert (In b (map Z.of_nat (seq 0 256))) as I.
  { apply in_map_iff. exists (Z.to_nat b). unfold byte_ok in H. split; [lia|]. apply in_seq. lia. }
  specialize (G I). repeat rewrite andb_true_iff in G. destruct G as ((((A & B) & C & C') & D) & E & E').
  apply Bool.eqb_prop in A. splits; try assumption; lia.
Qed.

Lemma byte0_join (p x : bool) c : 0 <= c <= 15 ->
  let b := 128 + 32 * bit p + 16 * bit x + c in
  byte_ok b /\ (Z.land b 192 =? 128) = true /\ negb (Z.land b 32 =? 0) = p /\ negb (Z.land b 16 =? 0) = x /\ Z.land b 15 = c.
Proof.
  intros H b.
  assert (B : byte_ok b) by (subst b; unfold byte_ok; destruct p, x; cbn [bit]; lia).
  assert (G : forallb (fun c => forallb (fun p => forallb (fun x => let b := 128 + 32 * bit p + 16 * bit x + c in
     (Z.land b 192 =? 128) && Bool.eqb (negb (Z.land b 32 =? 0)) p && Bool.eqb (negb (Z.land b 16 =? 0)) x && (Z.land b 15 =? c))
     [true; false]) [true; false]) (map Z.of_nat (seq 0 16)) = true) by (vm_compute; reflexivity).
  rewrite forallb_forall in G. assert (I : In c (map Z.of_nat (seq 0 16))).
  { apply in_map_iff. exists (Z.to_nat c). split; [lia|]. apply in_seq. lia. }
  specialize (G c I). rewrite forallb_forall in G.
  assert (Ip : In p [true; false]) by (destruct p; cbn; auto). specialize (G p Ip).
  rewrite forallb_forall in G. assert (Ix : In x [true; false]) by (destruct x; cbn; auto). specialize (G x Ix).
  cbv zeta in G. fold b in G. repeat rewrite andb_true_iff in G. destruct G as (((G1 & G2) & G3) & G4).
  apply Bool.eqb_prop in G2, G3. splits; try assumption. lia.
Qed.

Lemma rtcp0_join (p : bool) c : 0 <= c <= 31 ->
  let b := 128 + 32 * bit p + c in
  byte_ok b /\ (Z.land b 192 =? 128) = true /\ negb (Z.land b 32 =? 0) = p /\ Z.land b 31 = c.
Proof.
  intros H b.
  assert (B : byte_ok b) by (subst b; unfold byte_ok; destruct p; cbn [bit]; lia).
  destruct (byte0_split b B) as (E1 & _ & _ & E2 & E3).
  assert (Eb : b = 128 + 32 * bit p + c) by reflexivity. clearbody b.
  assert (Hq : b / 64 = 2). { symmetry. apply (Z.div_unique _ _ _ (32 * bit p + c)); destruct p; cbn [bit] in *; lia. }
  rewrite Hq in *. rewrite E1.
  destruct p, (negb (Z.land b 32 =? 0)); cbn [bit] in *; splits; try assumption; try reflexivity; lia.
Qed.

Lemma byte1_split b : byte_ok b ->
  b = 128 * bit (negb (Z.land b 128 =? 0)) + Z.land b 127 /\ 0 <= Z.land b 127 < 128.
Proof.
  intros H.
  assert (G : forallb (fun b => (b =? 128 * bit (negb (Z.land b 128 =? 0)) + Z.land b 127) &&
     ((0 <=? Z.land b 127) && (Z.land b 127 <? 128))) (map Z.of_nat (seq 0 256)) = true) by (vm_compute; reflexivity).
  rewrite forallb_forall in G. specialize (G b).
  assert (In b (map Z.of_nat (seq 0 256))) as I.
  { apply in_map_iff. exists (Z.to_nat b). unfold byte_ok in H. split; [lia|]. apply in_seq. lia. }
  specialize (G I). lia.
Qed.

Lemma byte1_join (m : bool) t : 0 <= t < 128 ->
  let b := 128 * bit m + t in byte_ok b /\ negb (Z.land b 128 =? 0) = m /\ Z.land b 127 = t.
Proof.
  intros H b.
  assert (B : byte_ok b) by (subst b; unfold byte_ok; destruct m; cbn [bit]; lia).
  destruct (byte1_split b B) as [E R]. split; [exact B|].
  assert (Eb : b = 128 * bit m + t) by reflexivity. clearbody b.
  destruct m, (negb (Z.land b 128 =? 0)); cbn [bit] in *; split; try reflexivity; lia.
Qed.

(* what Unpack must return for a header *)
Definition rtp_of (h : rtp_header) (payload : bytes) : rtp_packet :=
  mkRtp (128 + 32 * bit (h_padding h) + 16 * bit (if h_ext h then true else false) + zlen (h_csrc h))
        (128 * bit (h_marker h) + h_type h) (h_seq h) (h_time h) (h_ssrc h) (h_csrc h)
        (match h_ext h with Some (prof, _) => prof | None => 0 end)
        (match h_ext h with Some (_, d) => zlen d / 4 | None => 0 end)
        (match h_ext h with Some (_, d) => d | None => [] end) payload.

Lemma rtp_unpack_layout h pl : rtp_legal h -> rtp_unpack (rtp_layout h pl) = Ok (rtp_of h pl).
Proof.
  intros (Ht & Hs & Hti & Hss & Hc & Hcs & Hx).
  set (x := if h_ext h then true else false).
  destruct (byte0_join (h_padding h) x (zlen (h_csrc h))) as (B0 & V & P & X & CC); [pose proof (zlen_nonneg (h_csrc h)); lia|].
  set (b0 := 128 + 32 * bit (h_padding h) + 16 * bit x + zlen (h_csrc h)) in *.
  set (b1 := 128 * bit (h_marker h) + h_type h).
  set (ext := match h_ext h with None => [] | Some (prof, d) => be_put 2 prof ++ be_put 2 (zlen d / 4) ++ d end).
  assert (EL : rtp_layout h pl = [b0; b1] ++ be_put 2 (h_seq h) ++ be_put 4 (h_time h) ++ be_put 4 (h_ssrc h)
      ++ flat_map (be_put 4) (h_csrc h) ++ ext ++ pl) by reflexivity.
  rewrite EL. unfold rtp_unpack.
  change (index ([b0; b1] ++ _) 0) with (Ok b0). cbn [bind]. rewrite V. cbn [negb].
  change (index ([b0; b1] ++ _) 1) with (Ok b1). cbn [bind].
  rewrite (be_at_put 2 [b0; b1] (h_seq h)) by (reflexivity || exact Hs). cbn [bind].
  rewrite (app_assoc [b0; b1]). set (pre := [b0; b1] ++ be_put 2 (h_seq h)).
  rewrite (be_at_put 4 pre (h_time h)) by (reflexivity || exact Hti). cbn [bind].
  rewrite (app_assoc pre). set (pre2 := pre ++ be_put 4 (h_time h)).
  rewrite (be_at_put 4 pre2 (h_ssrc h)) by (reflexivity || exact Hss). cbn [bind].
  rewrite (app_assoc pre2). set (pre3 := pre2 ++ be_put 4 (h_ssrc h)).
  rewrite CC. replace (Z.to_nat (zlen (h_csrc h))) with (length (h_csrc h)) by (unfold zlen; lia).
  rewrite read_csrc_put by (reflexivity || exact Hcs). cbn [bind].
  rewrite (app_assoc pre3). set (pre4 := pre3 ++ flat_map (be_put 4) (h_csrc h)).
  assert (L4 : length pre4 = (12 + 4 * length (h_csrc h))%nat) by (subst pre4; rewrite app_length, flat_put_length; reflexivity).
  rewrite <- L4, X. unfold rtp_of. fold b1.
  subst x ext. destruct (h_ext h) as [[prof d]|].
  - destruct Hx as (Wp & w & Ww & Hd). assert (Hw : zlen d / 4 = w) by (rewrite Hd, Z.mul_comm; apply Z.div_mul; lia).
    rewrite Hw. rewrite <- !app_assoc. rewrite (be_at_put 2 pre4 prof) by (reflexivity || exact Wp). cbn [bind].
    rewrite (app_assoc pre4). rewrite (be_at_put 2 (pre4 ++ be_put 2 prof) w) by (rewrite ?app_length, ?be_put_length; trivial).
    cbn [bind]. unfold word in Ww.
    assert (LD : length d = Z.to_nat (w * 4)) by (unfold zlen in Hd; lia).
    rewrite (app_assoc (pre4 ++ be_put 2 prof)). set (pre5 := (pre4 ++ be_put 2 prof) ++ be_put 2 w).
    assert (L5 : length pre5 = (length pre4 + 4)%nat) by (subst pre5; rewrite !app_length, !be_put_length; lia).
    rewrite <- L5. destruct (Z.gtb_spec w 0) as [G|G]; cbn [bind].
    + unfold slice. destruct (Nat.leb_spec (length pre5) (length pre5 + Z.to_nat (w * 4))); [|lia].
      rewrite !app_length. destruct (Nat.leb_spec (length pre5 + Z.to_nat (w * 4)) (length pre5 + (length d + length pl))); [|lia].
      cbn [andb bind]. rewrite skipn_app_exact by reflexivity.
      rewrite firstn_app_exact by lia. unfold slice_from. rewrite !app_length.
      destruct (Nat.leb_spec (length pre5 + Z.to_nat (w * 4)) (length pre5 + (length d + length pl))); [|lia]. cbn [bind].
      rewrite (app_assoc pre5). rewrite skipn_app_exact by (rewrite app_length; lia). reflexivity.
    + assert (W0 : w = 0) by lia. clear Hw. subst w. destruct d; [|cbn [length] in LD; lia]. unfold slice_from. rewrite !app_length. cbn [length app].
      destruct (Nat.leb_spec (length pre5) (length pre5 + (0 + length pl))); [|lia]. cbn [bind].
      rewrite skipn_app_exact by reflexivity. reflexivity.
  - cbn [bind app]. unfold slice_from. rewrite app_length.
    destruct (Nat.leb_spec (length pre4) (length pre4 + length pl)); [|lia]. cbn [bind].
    rewrite skipn_app_exact by reflexivity. reflexivity.
Qed.

Lemma slice_from_inv {A} (l : list A) n m : slice_from l n = Ok m -> m = skipn n l /\ (n <= length l)%nat.
Proof. unfold slice_from. destruct (Nat.leb_spec n (length l)); [|discriminate]. intros E. injection E as <-. auto. Qed.

Lemma Ok_inj {A} (a b : A) : Ok a = Ok b -> a = b.
Proof. congruence. Qed.

Lemma rtp_unpack_inv buf p : bytes_ok buf -> rtp_unpack buf = Ok p ->
  exists h, rtp_legal h /\ buf = rtp_layout h (rtp_pl p) /\ p = rtp_of h (rtp_pl p).
Proof.
  intros HB. unfold rtp_unpack. destruct buf as [|b0 r0]; [discriminate|]. cbn [index nth_error bind].
  change (index (b0 :: r0) 0) with (Ok b0). cbn [bind].
  assert (H0 : byte_ok b0) by (inversion HB; assumption).
  destruct (byte0_split b0 H0) as (V & E0 & R0 & _). rewrite V. clear V.
  destruct (Z.eqb_spec (b0 / 64) 2) as [Hv|Hv]; cbn [negb]; [|discriminate]. rewrite Hv in E0.
  destruct r0 as [|b1 r1]; [discriminate|]. change (index (b0 :: b1 :: r1) 1) with (Ok b1). cbn [bind].
  assert (H1 : byte_ok b1) by (inversion HB as [|? ? ? HB1]; inversion HB1; assumption).
  destruct (byte1_split b1 H1) as (E1 & R1).
  set (buf := b0 :: b1 :: r1) in *.
  destruct (be_at 2 buf 2) as [sn|e| |] eqn:Esn; cbn [bind]; try discriminate.
  destruct (be_at 4 buf 4) as [ts|e| |] eqn:Ets; cbn [bind]; try discriminate.
  destruct (be_at 4 buf 8) as [ssrc|e| |] eqn:Ess; cbn [bind]; try discriminate.
  set (cc := Z.to_nat (Z.land b0 15)).
  destruct (read_csrc cc buf 12) as [cs|e| |] eqn:Ecs; cbn [bind]; try discriminate.
  destruct (be_at_inv _ _ _ _ HB Esn) as [Wsn Ssn]. destruct (be_at_inv _ _ _ _ HB Ets) as [Wts Sts].
  destruct (be_at_inv _ _ _ _ HB Ess) as [Wss Sss]. destruct (read_csrc_inv _ _ _ _ HB Ecs) as (Lcs & Fcs & Scs).
  cbn [Nat.add] in Ssn, Sts, Sss.
  assert (Hbuf : buf = [b0; b1] ++ be_put 2 sn ++ be_put 4 ts ++ be_put 4 ssrc ++ flat_map (be_put 4) cs ++ skipn (12 + 4 * cc) buf).
  { rewrite <- Scs, <- Sss, <- Sts, <- Ssn. reflexivity. }
  assert (Zcs : zlen cs = Z.land b0 15) by (unfold zlen; rewrite Lcs; subst cc; lia).
  destruct (Z.land b0 16 =? 0) eqn:EX; cbn [negb bind] in *.
  - destruct (slice_from buf (12 + 4 * cc)) as [pl|e| |] eqn:Epl; cbn [bind]; try discriminate.
    apply slice_from_inv in Epl as [-> Lpl]. intros E. apply Ok_inj in E. subst p. cbn [rtp_pl].
    exists (mkRtpH (negb (Z.land b0 32 =? 0)) (negb (Z.land b1 128 =? 0)) (Z.land b1 127) sn ts ssrc cs None).
    assert (B0 : b0 = 128 + 32 * bit (negb (Z.land b0 32 =? 0)) + 16 * bit false + zlen cs) by (rewrite Zcs; cbn [bit] in *; lia).
    splits.
    + unfold rtp_legal; cbn. splits; try assumption; lia.
    + unfold rtp_layout; cbn [h_padding h_marker h_type h_seq h_time h_ssrc h_csrc h_ext]. rewrite <- B0, <- E1. exact Hbuf.
    + unfold rtp_of; cbn [h_padding h_marker h_type h_seq h_time h_ssrc h_csrc h_ext]. rewrite <- B0, <- E1. reflexivity.
  - destruct (be_at 2 buf (12 + 4 * cc)) as [xh|e| |] eqn:Exh; cbn [bind]; try discriminate.
    destruct (be_at 2 buf (12 + 4 * cc + 2)) as [xl|e| |] eqn:Exl; cbn [bind]; try discriminate.
    destruct (be_at_inv _ _ _ _ HB Exh) as [Wxh Sxh]. destruct (be_at_inv _ _ _ _ HB Exl) as [Wxl Sxl].
    rewrite Sxl in Sxh. rewrite Sxh in Hbuf.
    replace (12 + 4 * cc + 2 + 2)%nat with (12 + 4 * cc + 4)%nat in * by lia.
    set (o := (12 + 4 * cc + 4)%nat) in *.
    assert (B0 : b0 = 128 + 32 * bit (negb (Z.land b0 32 =? 0)) + 16 * bit true + zlen cs) by (rewrite Zcs; cbn [bit] in *; lia).
    destruct (Z.gtb_spec xl 0) as [G|G]; cbn [bind].
    + unfold slice. destruct ((o <=? o + Z.to_nat (xl * 4))%nat && (o + Z.to_nat (xl * 4) <=? length buf)%nat) eqn:EB; cbn [bind]; try discriminate.
      destruct (slice_from buf _) as [pl|e| |] eqn:Epl; cbn [bind]; try discriminate.
      apply slice_from_inv in Epl as [-> Lpl]. intros E. apply Ok_inj in E. subst p. cbn [rtp_pl].
      replace (o + Z.to_nat (xl * 4) - o)%nat with (Z.to_nat (xl * 4)) by lia.
      set (d := firstn (Z.to_nat (xl * 4)) (skipn o buf)).
      assert (Ld : zlen d = 4 * xl). { subst d. unfold zlen. rewrite firstn_length, skipn_length. unfold word in Wxl. lia. }
      assert (Qd : zlen d / 4 = xl) by (rewrite Ld, Z.mul_comm; apply Z.div_mul; lia).
      exists (mkRtpH (negb (Z.land b0 32 =? 0)) (negb (Z.land b1 128 =? 0)) (Z.land b1 127) sn ts ssrc cs (Some (xh, d))).
      splits.
      * unfold rtp_legal; cbn. splits; try assumption; try lia. exists xl; split; assumption.
      * unfold rtp_layout; cbn [h_padding h_marker h_type h_seq h_time h_ssrc h_csrc h_ext]. rewrite <- B0, <- E1, Qd.
        rewrite Hbuf at 1. do 5 f_equal. rewrite <- !app_assoc. do 2 f_equal.
        rewrite (firstn_skipn_split (Z.to_nat (xl * 4)) (skipn o buf)) at 1. fold d. f_equal.
        rewrite skipn_skipn, Nat.add_comm. reflexivity.
      * unfold rtp_of; cbn [h_padding h_marker h_type h_seq h_time h_ssrc h_csrc h_ext]. rewrite <- B0, <- E1, Qd. reflexivity.
    + assert (xl = 0) by (unfold word in Wxl; lia). subst xl.
      destruct (slice_from buf _) as [pl|e| |] eqn:Epl; cbn [bind]; try discriminate.
      apply slice_from_inv in Epl as [-> Lpl]. intros E. apply Ok_inj in E. subst p. cbn [rtp_pl].
      exists (mkRtpH (negb (Z.land b0 32 =? 0)) (negb (Z.land b1 128 =? 0)) (Z.land b1 127) sn ts ssrc cs (Some (xh, []))).
      splits.
      * unfold rtp_legal; cbn. splits; try assumption; try lia. exists 0; split; [assumption|reflexivity].
      * unfold rtp_layout; cbn [h_padding h_marker h_type h_seq h_time h_ssrc h_csrc h_ext]. rewrite <- B0, <- E1.
        rewrite Hbuf at 1. reflexivity.
      * unfold rtp_of; cbn [h_padding h_marker h_type h_seq h_time h_ssrc h_csrc h_ext]. rewrite <- B0, <- E1. reflexivity.
Qed.

Ltac cases_be := match goal with
  | |- context [be_at ?k ?b ?o] => destruct (be_at_cases k b o) as [[? ->]| ->]; cbn [bind]; [|right; reflexivity]
  | |- context [read_csrc ?n ?b ?o] => destruct (read_csrc_cases n b o) as [[? ->]| ->]; cbn [bind]; [|right; reflexivity]
  end.

Lemma rtp_unpack_kinds buf : bytes_ok buf ->
  (buf = [] /\ rtp_unpack buf = Panic) \/
  (buf <> [] /\ ~ version2 buf /\ rtp_unpack buf = Err ErrInvalidVersion) \/
  (version2 buf /\ ((exists p, rtp_unpack buf = Ok p) \/ rtp_unpack buf = Panic)).
Proof.
  intros HB. destruct buf as [|b0 r]; [left; split; reflexivity|]. right.
  assert (H0 : byte_ok b0) by (inversion HB; assumption).
  destruct (byte0_split b0 H0) as (V & _). unfold rtp_unpack.
  change (index (b0 :: r) 0) with (Ok b0). cbn [bind]. rewrite V.
  destruct (Z.eqb_spec (b0 / 64) 2) as [Hv|Hv]; cbn [negb].
  - right. split; [exists b0, r; auto|].
    destruct r as [|b1 r1]; [right; reflexivity|]. change (index (b0 :: b1 :: r1) 1) with (Ok b1). cbn [bind].
    set (buf := b0 :: b1 :: r1). do 3 cases_be. cases_be.
    destruct (negb (Z.land b0 16 =? 0)); cbn [bind].
    + do 2 cases_be. destruct (_ >? 0); cbn [bind].
      * unfold slice. destruct (_ && _); cbn [bind]; [|right; reflexivity]. unfold slice_from. destruct (_ <=? _)%nat; cbn [bind]; eauto.
      * unfold slice_from. destruct (_ <=? _)%nat; cbn [bind]; eauto.
    + unfold slice_from. destruct (_ <=? _)%nat; cbn [bind]; eauto.
  - left. splits; [discriminate | | reflexivity]. intros (b & r' & E & Hb). injection E as -> ->. auto.
Qed.

Lemma rtp_layout_version h pl : rtp_legal h -> version2 (rtp_layout h pl).
Proof.
  intros (_ & _ & _ & _ & Hc & _). eexists. eexists. split; [reflexivity|].
  pose proof (zlen_nonneg (h_csrc h)).
  symmetry. apply (Z.div_unique _ _ _ (32 * bit (h_padding h) + 16 * bit (if h_ext h then true else false) + zlen (h_csrc h))); [|lia].
  destruct (h_padding h), (h_ext h); cbn [bit]; lia.
Qed.

(* -------- RTCP -------- *)
Lemma rb_length r : length (rb_layout r) = 24%nat.
Proof. unfold rb_layout. rewrite !app_length, !be_put_length. reflexivity. Qed.

Lemma flat_rb_length bl : zlen (flat_map rb_layout bl) = 24 * zlen bl.
Proof. induction bl as [|b bl IH]; [reflexivity|]. cbn [flat_map]. rewrite zlen_app, zlen_cons, IH. unfold zlen at 1. rewrite rb_length. lia. Qed.

Lemma rtcp_unpack_sr pad len s bl rest :
  word 2 len -> si_legal s -> zlen bl <= 31 ->
  rtcp_unpack (sr_layout pad len s bl rest) =
    Ok (mkRtcp (128 + 32 * bit pad + zlen bl) 200 len
               (Some (mkSR (si_ssrc s) (si_ntp s) (si_rtp s) (si_packets s) (si_octets s) []))).
Proof.
  intros Wl (W1 & W2 & W3 & W4 & W5) Hb.
  destruct (rtcp0_join pad (zlen bl)) as (B0 & V & P & C); [pose proof (zlen_nonneg bl); lia|].
  unfold sr_layout, rtcp_header_bytes. set (b0 := 128 + 32 * bit pad + zlen bl) in *.
  unfold rtcp_unpack. rewrite <- !app_assoc. set (R := flat_map rb_layout bl ++ rest).
  change (index ([b0; 200] ++ ?x) 0) with (Ok b0). change (index ([b0; 200] ++ ?x) 1) with (Ok 200). cbn [bind].
  rewrite (be_at_put 2 [b0; 200] len) by (reflexivity || assumption). cbn [bind]. rewrite V. cbn [negb].
  change (200 =? 200) with true. cbv iota. rewrite C.
  rewrite !zlen_app, !zlen_be_put. subst R. rewrite zlen_app, flat_rb_length. rewrite !zlen_cons, zlen_nil.
  pose proof (zlen_nonneg bl). pose proof (zlen_nonneg rest).
  match goal with |- context [?a <? ?b] => destruct (Z.ltb_spec a b); [lia|] end.
  rewrite (app_assoc [b0; 200]).
  match goal with |- context [be_at 4 (?p ++ be_put 4 (si_ssrc s) ++ ?r) 4] =>
    rewrite (be_at_put 4 p (si_ssrc s) r) by (reflexivity || assumption); cbn [bind];
    rewrite (app_assoc p); set (p1 := p ++ be_put 4 (si_ssrc s)) end.
  rewrite (be_at_put 8 p1 (si_ntp s)) by (reflexivity || assumption). cbn [bind].
  rewrite (app_assoc p1). set (p2 := p1 ++ be_put 8 (si_ntp s)).
  rewrite (be_at_put 4 p2 (si_rtp s)) by (reflexivity || assumption). cbn [bind].
  rewrite (app_assoc p2). set (p3 := p2 ++ be_put 4 (si_rtp s)).
  rewrite (be_at_put 4 p3 (si_packets s)) by (reflexivity || assumption). cbn [bind].
  rewrite (app_assoc p3). set (p4 := p3 ++ be_put 4 (si_packets s)).
  rewrite (be_at_put 4 p4 (si_octets s)) by (reflexivity || assumption). reflexivity.
Qed.

Lemma rtcp_unpack_other pad c t len rest : 0 <= c <= 31 -> t <> 200 -> word 2 len ->
  rtcp_unpack (rtcp_header_bytes pad c t len ++ rest) = Ok (mkRtcp (128 + 32 * bit pad + c) t len None).
Proof.
  intros Hc Ht Wl. destruct (rtcp0_join pad c Hc) as (B0 & V & P & C).
  unfold rtcp_header_bytes. set (b0 := 128 + 32 * bit pad + c) in *.
  unfold rtcp_unpack. rewrite <- !app_assoc.
  change (index ([b0; t] ++ ?x) 0) with (Ok b0). change (index ([b0; t] ++ ?x) 1) with (Ok t). cbn [bind].
  rewrite (be_at_put 2 [b0; t] len) by (reflexivity || assumption). cbn [bind]. rewrite V. cbn [negb].
  destruct (Z.eqb_spec t 200); [contradiction|reflexivity].
Qed.

Lemma rtcp_short buf : (length buf < 4)%nat -> rtcp_unpack buf = Panic.
Proof.
  destruct buf as [|a [|b [|c [|d r]]]]; cbn [length]; intros H; try reflexivity; lia.
Qed.

Lemma rtcp_outcome a b c d r : byte_ok a ->
  let buf := a :: b :: c :: d :: r in
  rtcp_unpack buf =
    if negb (a / 64 =? 2) then Err ErrInvalidVersion
    else if (b =? 200) && (zlen buf <? 28 + 24 * Z.land a 31) then Err ErrPacketTooShort
    else Ok (mkRtcp a b (be_of [c; d])
               (if b =? 200 then Some (mkSR (be_of (firstn 4 r)) (be_of (firstn 8 (skipn 4 r))) (be_of (firstn 4 (skipn 12 r)))
                                            (be_of (firstn 4 (skipn 16 r))) (be_of (firstn 4 (skipn 20 r))) [])
                else None)).
Proof.
  intros Ha buf. destruct (byte0_split a Ha) as (V & _ & _ & _ & R).
  unfold rtcp_unpack, buf. change (index (a :: ?x) 0) with (Ok a). change (index (a :: b :: ?x) 1) with (Ok b). cbn [bind].
  change (be_at 2 (a :: b :: c :: d :: r) 2) with (Ok (be_of [c; d])). cbn [bind]. rewrite V.
  destruct (a / 64 =? 2); cbn [negb]; [|reflexivity]. destruct (b =? 200); cbn [andb]; [|reflexivity].
  replace (Z.land a 31 * 24) with (24 * Z.land a 31) by ring.
  match goal with |- context [?x <? ?y] => destruct (Z.ltb_spec x y) as [L|L]; [reflexivity|] end.
  rewrite !zlen_cons in L. unfold zlen in L. rewrite !be_at_eq. cbn [length].
  destruct (Nat.leb_spec (4 + 4) (S (S (S (S (length r)))))); [|lia].
  destruct (Nat.leb_spec (8 + 8) (S (S (S (S (length r)))))); [|lia].
  destruct (Nat.leb_spec (16 + 4) (S (S (S (S (length r)))))); [|lia].
  destruct (Nat.leb_spec (20 + 4) (S (S (S (S (length r)))))); [|lia].
  destruct (Nat.leb_spec (24 + 4) (S (S (S (S (length r)))))); [|lia].
  reflexivity.
Qed.

(* ---------- Pack ---------- *)
Definition rtp_fields_ok (p : rtp_packet) : Prop :=
  byte_ok (rtp_vpxcc p) /\ byte_ok (rtp_mpt p) /\ word 2 (rtp_sn p) /\ word 4 (rtp_ts p) /\ word 2 (rtp_xl p).

(* the size in bytes of the header of a packet *)
Definition rtp_header_size (p : rtp_packet) : Z :=
  12 + 4 * rtp_CC p + (if rtp_X p then 4 + 4 * rtp_xl p else 0).

Lemma rtp_CC_range p : byte_ok (rtp_vpxcc p) -> 0 <= rtp_CC p <= 15.
Proof. intros H. apply (byte0_split _ H). Qed.

Lemma rtp_pack_size p : rtp_fields_ok p ->
  rtp_pack p = if rtp_header_size p mod 65536 <? 8 then Panic
    else Ok ([rtp_vpxcc p; rtp_mpt p] ++ be_put 2 (rtp_sn p) ++ be_put 4 (rtp_ts p)
             ++ repeat 0 (Z.to_nat (rtp_header_size p mod 65536 - 8))).
Proof.
  intros (H0 & _ & _ & _ & Hx). pose proof (rtp_CC_range p H0) as C. unfold rtp_pack, rtp_header_size.
  assert (E : u16 (u8 (12 + u8 (rtp_CC p * 4))) = 12 + 4 * rtp_CC p).
  { rewrite (u8_small (rtp_CC p * 4)) by lia. rewrite u8_small by lia. rewrite u16_small by lia. lia. }
  rewrite E. destruct (rtp_X p).
  - assert (E2 : u16 (12 + 4 * rtp_CC p + u16 (4 * u16 (1 + rtp_xl p))) = (12 + 4 * rtp_CC p + (4 + 4 * rtp_xl p)) mod 65536).
    { unfold u16. change (2 ^ 16) with 65536. rewrite Z.mul_mod_idemp_r, Z.add_mod_idemp_r by lia. f_equal. lia. }
    rewrite E2. reflexivity.
  - rewrite Z.add_0_r, Z.mod_small by lia. reflexivity.
Qed.

Lemma be_put_zero k : be_put k 0 = repeat 0 k.
Proof. induction k; cbn [be_put repeat]; [reflexivity|]. rewrite IHk. reflexivity. Qed.

Lemma flat_zero n : flat_map (be_put 4) (repeat 0 n) = repeat 0 (4 * n).
Proof.
  induction n as [|n IH]; [reflexivity|]. cbn [repeat flat_map]. rewrite IH, be_put_zero, <- repeat_app. f_equal. lia.
Qed.

(* what survives Pack then Unpack *)
Definition rtp_echo (p : rtp_packet) : rtp_packet :=
  mkRtp (rtp_vpxcc p) (rtp_mpt p) (rtp_sn p) (rtp_ts p) 0 (repeat 0 (Z.to_nat (rtp_CC p))) 0 0 []
        (if rtp_X p then repeat 0 (Z.to_nat (4 * rtp_xl p)) else []).

Lemma rtp_pack_unpack p : rtp_fields_ok p -> rtp_vpxcc p / 64 = 2 -> rtp_header_size p < 65536 ->
  exists b, rtp_pack p = Ok b /\ zlen b = rtp_header_size p /\ rtp_unpack b = Ok (rtp_echo p).
Proof.
  intros HF Hv Hs. rewrite (rtp_pack_size p HF). destruct HF as (H0 & H1 & Ws & Wt & Wx).
  pose proof (rtp_CC_range p H0) as C.
  assert (R : 12 <= rtp_header_size p). { unfold rtp_header_size. unfold word in Wx. destruct (rtp_X p); lia. }
  rewrite Z.mod_small by lia. destruct (Z.ltb_spec (rtp_header_size p) 8); [lia|]. eexists. split; [reflexivity|].
  split.
  { rewrite !zlen_app, !zlen_be_put, zlen_repeat, !zlen_cons, zlen_nil. lia. }
  destruct (byte0_split _ H0) as (_ & E0 & _). destruct (byte1_split _ H1) as (E1 & R1). rewrite Hv in E0.
  set (cs := repeat 0 (Z.to_nat (rtp_CC p))). assert (Zc : zlen cs = rtp_CC p) by (subst cs; rewrite zlen_repeat; lia).
  set (pl := if rtp_X p then repeat 0 (Z.to_nat (4 * rtp_xl p)) else []).
  set (ex := if rtp_X p then @Some (Z * bytes) (0, []) else None).
  set (h := mkRtpH (rtp_P p) (rtp_M p) (rtp_PT p) (rtp_sn p) (rtp_ts p) 0 cs ex).
  assert (HL : rtp_legal h).
  { unfold rtp_legal, h; cbn -[rtp_PT]. fold (rtp_PT p) in R1. splits; try assumption; try lia; try (unfold word; lia).
    - subst cs. clear. induction (Z.to_nat (rtp_CC p)); cbn; constructor; (unfold word; lia) || assumption.
    - subst ex. destruct (rtp_X p); [|exact I]. split; [unfold word; lia|]. exists 0. split; [unfold word; lia|reflexivity]. }
  assert (B0 : rtp_vpxcc p = 128 + 32 * bit (rtp_P p) + 16 * bit (if ex then true else false) + zlen cs).
  { rewrite Zc, E0 at 1. unfold rtp_CC, rtp_P. replace (if ex then true else false) with (rtp_X p) by (subst ex; destruct (rtp_X p); reflexivity). reflexivity. }
  assert (EL : [rtp_vpxcc p; rtp_mpt p] ++ be_put 2 (rtp_sn p) ++ be_put 4 (rtp_ts p) ++ repeat 0 (Z.to_nat (rtp_header_size p - 8)) = rtp_layout h pl).
  { unfold rtp_layout, h; cbn [h_padding h_marker h_type h_seq h_time h_ssrc h_csrc h_ext]. rewrite <- B0.
    unfold rtp_M, rtp_PT. rewrite <- E1. do 3 f_equal. subst cs. rewrite flat_zero, be_put_zero.
    assert (EX : ex = None /\ pl = [] /\ rtp_header_size p = 12 + 4 * rtp_CC p \/
      ex = Some (0, []) /\ pl = repeat 0 (Z.to_nat (4 * rtp_xl p)) /\ rtp_header_size p = 16 + 4 * rtp_CC p + 4 * rtp_xl p).
    { subst pl ex. unfold rtp_header_size. destruct (rtp_X p); [right|left]; splits; try reflexivity; lia. }
    destruct EX as [(-> & -> & ->)|(-> & -> & ->)].
    - cbn [app]. rewrite app_nil_r, <- repeat_app. f_equal. lia.
    - change (zlen (@nil Z) / 4) with 0. rewrite !be_put_zero, !app_nil_r, <- !repeat_app. f_equal. unfold word in Wx. lia. }
  rewrite EL, (rtp_unpack_layout h pl HL). f_equal. unfold rtp_of, rtp_echo, h; cbn [h_padding h_marker h_type h_seq h_time h_ssrc h_csrc h_ext].
  rewrite <- B0. unfold rtp_M, rtp_PT. rewrite <- E1. fold cs. fold pl. subst ex. destruct (rtp_X p); reflexivity.
Qed.
