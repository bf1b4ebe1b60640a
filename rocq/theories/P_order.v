(* Property C99: decoding order in the interleaved mode. *)
From Verif Require Import Base S_annexb S_nal S_order M_annexb M_nal L_base L_annexb L_nal P_nal.
From Coq Require Import ZifyBool ZifyNat.

(* The comparison is right if the numbers are: the distance in decoding order. *)
Theorem C99_compare : forall d e, near d e -> don_diff (don_of d) (don_of e) = e - d.
Proof.
  intros d e N. unfold near, don_of in *. pose proof (Z.mod_pos_bound d (2 ^ 16) ltac:(lia)) as D. pose proof (Z.mod_pos_bound e (2 ^ 16) ltac:(lia)) as E.
  destruct (C23_don_diff _ _ D E) as (_ & _ & R & _ & _).
  assert (K : (don_diff (d mod 2 ^ 16) (e mod 2 ^ 16) - (e - d)) mod 2 ^ 16 = 0).
  { destruct (C23_don_diff _ _ D E) as (_ & _ & _ & M' & _). rewrite <- Zminus_mod in M'. rewrite Zminus_mod, M', Z.sub_diag. reflexivity. }
  apply Z.mod_divide in K; [|lia]. destruct K as (k & K). assert (-1 < k < 1) by lia. lia.
Qed.
Print Assumptions C99_compare.

(* Full statement: the same for units from any packets of this mode.  It holds for the units of STAP-B packets that need no
   emulation bytes: any two of them, from the same packet or from two, whatever was received in between. *)
Theorem C99_stap_b_partial : forall s1 s2 h1 h2 d1 d2 us1 us2 ts1 ts2 i j,
  byte_ok h1 -> byte_ok h2 -> nal_type h1 = 25 -> nal_type h2 = 25 -> Forall stap_size_ok us1 -> Forall stap_size_ok us2 ->
  plain (stap_b h1 (don_of d1) us1) -> plain (stap_b h2 (don_of d2) us2) ->
  (i < length us1)%nat -> (j < length us2)%nat -> near (d1 + Z.of_nat i) (d2 + Z.of_nat j) ->
  exists u v, nth_error (s_units (fst (push s1 (stap_b h1 (don_of d1) us1) ts1))) i = Some u /\
    nth_error (s_units (fst (push s2 (stap_b h2 (don_of d2) us2) ts2))) j = Some v /\
    don_diff (u_don u) (u_don v) = (d2 + Z.of_nat j) - (d1 + Z.of_nat i).
Proof.
  assert (K : forall s h d us ts i, byte_ok h -> nal_type h = 25 -> Forall stap_size_ok us -> plain (stap_b h (don_of d) us) -> (i < length us)%nat ->
    exists u, nth_error (s_units (fst (push s (stap_b h (don_of d) us) ts))) i = Some u /\ u_don u = don_of (d + Z.of_nat i)).
  { intros s h d us ts i B T F P I. assert (D : 0 <= don_of d < 2 ^ 16) by (apply Z.mod_pos_bound; lia). rewrite C17_stap_b_partial by assumption. cbn [fst s_units].
    destruct (nth_error us i) as [u|] eqn:E; [|apply nth_error_None in E; lia]. rewrite (C17_number _ _ _ _ _ D E). eexists. split; [reflexivity|].
    cbn [u_don]. unfold don_of. rewrite Z.add_mod_idemp_l by lia. reflexivity. }
  intros s1 s2 h1 h2 d1 d2 us1 us2 ts1 ts2 i j B1 B2 T1 T2 F1 F2 P1 P2 I J N.
  destruct (K s1 h1 d1 us1 ts1 i B1 T1 F1 P1 I) as (u & U1 & U2). destruct (K s2 h2 d2 us2 ts2 j B2 T2 F2 P2 J) as (v & V1 & V2).
  exists u, v. splits; [exact U1|exact V1|]. rewrite U2, V2. apply C99_compare. exact N.
Qed.
Print Assumptions C99_stap_b_partial.

(* The number of an FU-B is lost: the unit gets the one the sink has counted up to, whatever was sent. *)
Theorem C99_fu_b_refuted : forall s h d c cs ts,
  byte_ok h -> nal_type h <> 0 -> cs <> [] -> ~ contains [0; 0; 1] (be_put 2 (don_of d) ++ c) -> Forall (fun c => ~ contains [0; 0; 1] c) cs ->
  exists u, s_units (fst (push_all s (map (fun p => (p, ts)) (fu_b h (don_of d) true false c :: fu_tail (fu_a h) cs)))) = [u] /\ u_don u = s_don s /\
    (don_of d <> s_don s -> u_don u <> don_of d).
Proof.
  intros s h d c cs ts B T N C F. assert (D : 0 <= don_of d < 2 ^ 16) by (apply Z.mod_pos_bound; lia).
  destruct (C19_fu_b_exact s h (don_of d) c cs ts B T D N C F) as (s' & E & U & _). rewrite E. cbn [fst]. rewrite U. eexists. split; [reflexivity|]. cbn [u_don]. split; [reflexivity|congruence].
Qed.
Print Assumptions C99_fu_b_refuted.

(* So is the order of the units of an MTAP, whose numbers have the position added to them: each but the first is taken for a later one. *)
Theorem C99_mtap_refuted : forall s (wide : bool) h d us ts i dond off u,
  let w := if wide then 3%nat else 2%nat in
  byte_ok h -> nal_type h = (if wide then 27 else 26) -> Forall (mtap_entry_ok w) us -> plain (mtap w h (don_of d) us) ->
  nth_error us i = Some (dond, off, u) -> Z.of_nat i < 32768 ->
  exists v, nth_error (s_units (fst (push s (mtap w h (don_of d) us) ts))) i = Some v /\ don_diff (don_of (d + dond)) (u_don v) = Z.of_nat i.
Proof.
  intros s wide h d us ts i dond off u w B T F [P1 P2] E I. assert (D : 0 <= don_of d < 2 ^ 16) by (apply Z.mod_pos_bound; lia).
  destruct (C18_mtap_exact s (mtap w h (don_of d) us) wide h (don_of d) us [] ts B T D P1 F) as (s' & -> & _ & _ & _ & N).
  - rewrite app_nil_r. apply raw_no3. exact P2.
  - left. cbn. destruct wide; cbn; lia.
  - cbn [fst]. rewrite (N _ _ _ _ E). eexists. split; [reflexivity|]. cbn [u_don].
    replace ((don_of d + Z.of_nat i + dond) mod 2 ^ 16) with (don_of (d + dond + Z.of_nat i)).
    + rewrite C99_compare by (unfold near; lia). lia.
    + unfold don_of. rewrite <- (Z.add_assoc (d mod _)), (Z.add_mod_idemp_l d) by lia. f_equal. lia.
Qed.
Print Assumptions C99_mtap_refuted.

(* Two STAP-B packets across the end of the count; an FU-B of the 9th unit after the 20th has come *)
Example C99_case :
  let s1 := fst (push new_sink (stap_b 25 (don_of 65535) [[101; 9]; [101; 8]]) 5) in
  let s2 := fst (push s1 (stap_b 25 (don_of 65533) [[101; 7]]) 5) in
  map u_don (s_units s1) = [65535; 0] /\ map u_don (s_units s2) = [65533] /\ don_diff 65533 0 = 3 /\
  map u_don (s_units (fst (push_all (fst (push new_sink (stap_b 25 20 [[101; 9]]) 5)) [(fu_b 101 9 true false [1], 5); (fu_a 101 false true [2], 5)]))) = [21].
Proof. cbv zeta. splits; reflexivity. Qed.
