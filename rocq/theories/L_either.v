(* Parameter sets in either order. *)
From Verif Require Import Base S_bits M_bits L_base L_bits S_sps M_sps S_spsrel S_either L_sps L_spsdec.
From Coq Require Import ZifyBool ZifyNat Permutation.

(* ---- what does not depend on the chroma format ---- *)
Lemma bind_inv {A B} (m : rd A) (f : A -> rd B) r r' b : rbind m f r = (r', Ok b) -> exists r1 a, m r = (r1, Ok a) /\ f a r1 = (r', Ok b).
Proof. unfold rbind. destruct (m r) as [r1 [a| | |]]; try discriminate. eauto. Qed.
Lemma bind_do {A B} (m : rd A) (f : A -> rd B) r r1 a x : m r = (r1, Ok a) -> f a r1 = x -> rbind m f r = x.
Proof. unfold rbind. intros -> E. exact E. Qed.
Lemma bind_same {A B} (m : rd A) (f g : A -> rd B) r : (forall a r, f a r = g a r) -> rbind m f r = rbind m g r.
Proof. unfold rbind. intros H. destruct (m r) as [r1 [a| | |]]; try reflexivity. apply H. Qed.
Lemma bind_assoc {A B C} (m : rd A) (f : A -> rd B) (g : B -> rd C) r : rbind (rbind m f) g r = rbind m (fun a => rbind (f a) g) r.
Proof. unfold rbind. destruct (m r) as [r1 [a| | |]]; reflexivity. Qed.

Lemma bind_cong {A B} (m m' : rd A) (f : A -> rd B) r : m r = m' r -> rbind m f r = rbind m' f r.
Proof. unfold rbind. intros ->. reflexivity. Qed.

Lemma tail_chroma c1 c2 : (c1 =? 3) = (c2 =? 3) -> pps_tail c1 = pps_tail c2.
Proof. intros H. unfold pps_tail. rewrite H. reflexivity. Qed.

Lemma body_chroma f1 f2 r : (forall id, (match f1 id with Some s => sps_chroma_format_idc s | None => 3 end =? 3) = (match f2 id with Some s => sps_chroma_format_idc s | None => 3 end =? 3)) ->
  parse_pps_body f1 r = parse_pps_body f2 r.
Proof.
  intros H. unfold parse_pps_body. do 2 (apply bind_same; intros). cbv zeta. rewrite (tail_chroma _ _ (H a0)). reflexivity.
Qed.

Lemma tail_plain c1 c2 r r' t8 mp m sc : pps_tail c1 r = (r', Ok (t8, mp, m, sc)) -> t8 && mp = false -> pps_tail c2 r = (r', Ok (t8, mp, m, sc)).
Proof.
  unfold pps_tail. intros E F. apply bind_inv in E as (r1 & a & E1 & E). eapply bind_do; [exact E1|]. destruct (a >? 0); [|exact E].
  apply bind_inv in E as (r2 & b & E2 & E). eapply bind_do; [exact E2|]. apply bind_inv in E as (r3 & q & E3 & E). eapply bind_do; [exact E3|].
  destruct b; [|exact E]. destruct q; [|exact E]. exfalso. apply bind_inv in E as (r4 & m4 & E4 & E). apply bind_inv in E as (r5 & s5 & E5 & E). unfold rret in E. inversion E. subst. discriminate.
Qed.

Lemma body_plain f1 f2 r r' p : parse_pps_body f1 r = (r', Ok p) -> pps_transform_8x8 p && pps_scaling_matrix_present p = false -> parse_pps_body f2 r = (r', Ok p).
Proof.
  unfold parse_pps_body. intros E K.
  do 2 (apply bind_inv in E; destruct E as (? & ? & ? & E); eapply bind_do; [eassumption|]). cbv zeta in E |- *.
  do 3 (apply bind_inv in E; destruct E as (? & ? & ? & E); eapply bind_do; [eassumption|]).
  apply bind_inv in E; destruct E as (? & g & ? & E); eapply bind_do; [eassumption|]. destruct g as [[[[[[[typ rl] tl] br] dir] rate] ps] ids].
  do 10 (apply bind_inv in E; destruct E as (? & ? & ? & E); eapply bind_do; [eassumption|]).
  apply bind_inv in E; destruct E as (r1 & g & Et & E). destruct g as [[[t8 mp] m] sc].
  assert (P : t8 && mp = false) by (unfold rret in E; inversion E; subst; exact K).
  eapply bind_do; [eapply tail_plain; [exact Et|exact P]|exact E].
Qed.

(* ---- the four lists too many ---- *)
Definition only {A} (m : rd A) (u : list bool) (Q : A -> Prop) : Prop := forall r, good r -> unread r = u -> forall r' a, m r = (r', Ok a) -> Q a.

Lemma only_step {A B} (m : rd A) (f : A -> rd B) u u1 a Q : run m u u1 (Ok a) -> only (f a) u1 Q -> only (rbind m f) u Q.
Proof. intros R O r G U r' b E. destruct (R r G U) as (r1 & E1 & G1 & U1). unfold rbind in E. rewrite E1 in E. exact (O r1 G1 U1 r' b E). Qed.
Lemma only_any {A} (m : rd A) u (Q : A -> Prop) : (forall r r' a, m r = (r', Ok a) -> Q a) -> only m u Q.
Proof. intros H r _ _ r' a E. exact (H r r' a E). Qed.
Lemma only_then {A B} (m : rd A) (f : A -> rd B) u (P : A -> Prop) (Q : B -> Prop) : only m u P -> (forall a, P a -> forall r r' b, f a r = (r', Ok b) -> Q b) -> only (rbind m f) u Q.
Proof. intros O H r G U r' b E. apply bind_inv in E as (r1 & a & E1 & E). exact (H a (O r G U r1 a E1) r1 r' b E). Qed.
Lemma only_ext {A} (m m' : rd A) u Q : (forall r, m r = m' r) -> only m u Q -> only m' u Q.
Proof. intros H O r G U r' a E. rewrite <- H in E. exact (O r G U r' a E). Qed.

Lemma only_pair {A B C} (m : rd A) (g : A -> rd B) (f : A -> B -> rd C) u Q :
  only (p <- (a <- m ;; b <- g a ;; rret (a, b)) ;; f (fst p) (snd p)) u Q -> only (a <- m ;; b <- g a ;; f a b) u Q.
Proof. apply only_ext. intros r. rewrite bind_assoc. apply bind_same. intros a r1. rewrite bind_assoc. apply bind_same. reflexivity. Qed.

Lemma only_ue {B} v rest (f : Z -> rd B) Q : 0 <= v < 2 ^ 26 - 1 -> only (f v) rest Q -> only (rbind RUe f) (ue_code v ++ rest) Q.
Proof. intros Hv. apply only_step. pose proof (run_ue (ue_code v ++ rest)) as R. rewrite spec_ue_code_small in R by exact Hv. exact R. Qed.
Lemma only_se {B} v rest (f : Z -> rd B) Q : - 2 ^ 25 < v < 2 ^ 25 -> only (f v) rest Q -> only (rbind RSe f) (se_code v ++ rest) Q.
Proof. intros Hv. apply only_step. pose proof (run_se (se_code v ++ rest)) as R. rewrite spec_se_code_small in R by exact Hv. exact R. Qed.
Lemma only_flag {B} b rest (f : bool -> rd B) Q : only (f b) rest Q -> only (rbind RFlag f) (b :: rest) Q.
Proof. apply only_step. exact (run_flag (b :: rest)). Qed.
Lemma only_two {B} v rest (f : Z -> rd B) Q : 0 <= v < 4 -> only (f v) rest Q -> only (rbind (RByte 2) f) (u_code 2 v ++ rest) Q.
Proof.
  intros Hv. apply only_step. assert (R : run (rbind (RByte (Z.of_nat 2)) rret) (u_code 2 v ++ rest) rest (Ok v)) by (apply step_byte; [lia|exact Hv|apply run_ret]).
  intros r G U. destruct (R r G U) as (r' & E & K). exists r'. split; [|exact K]. unfold rbind, rret in E. change (RByte (Z.of_nat 2) r) with (RByte 2 r) in E. destruct (RByte 2 r) as [r1 [a| | |]]; try discriminate; exact E.
Qed.

Lemma lists_app b : forall a i m r, scaling_lists (a + b) i (offs i) (list_size i) m r = (x <- scaling_lists a i (offs i) (list_size i) m ;; scaling_lists b (i + a) (offs (i + a)) (list_size (i + a)) x) r.
Proof.
  induction a as [|a IH]; intros i m r; [rewrite Nat.add_0_r; reflexivity|]. cbn [Nat.add scaling_lists]. rewrite bind_assoc. apply bind_same. intros q r1. rewrite bind_assoc. apply bind_same. intros m2 r2.
  rewrite size_next, <- offs_next. rewrite IH. replace (i + S a)%nat with (S i + a)%nat by lia. reflexivity.
Qed.

Lemma lists_keep k : forall todo i off size m r r' m', scaling_lists todo i off size m r = (r', Ok m') -> Z.testbit (mx_present m) k = true -> Z.testbit (mx_present m') k = true.
Proof.
  induction todo as [|t IH]; intros i off size m r r' m' E T; [unfold scaling_lists, rret in E; inversion E; subst; exact T|]. cbn [scaling_lists] in E.
  apply bind_inv in E as (r1 & q & E1 & E). apply bind_inv in E as (r2 & m2 & E2 & E). apply (IH _ _ _ _ _ _ _ E). destruct q; [|unfold rret in E2; inversion E2; subst; exact T].
  apply bind_inv in E2 as (r3 & [l d] & E3 & E2). cbv beta iota in E2. destruct (put_slice (mx_list m) off l); try discriminate. destruct (put_slice (mx_default m) i [d]); try discriminate.
  inversion E2. subst m2. cbn [mx_present]. rewrite Z.lor_spec, T. reflexivity.
Qed.
Lemma lists_set i todo off size m r r' m' rest : (i < 32)%nat -> good r -> unread r = true :: rest -> scaling_lists (S todo) i off size m r = (r', Ok m') -> Z.testbit (mx_present m') (Z.of_nat i) = true.
Proof.
  intros I G U E. cbn [scaling_lists] in E. apply bind_inv in E as (r1 & q & E1 & E). destruct (run_flag (true :: rest) r G U) as (r0 & E0 & _). rewrite E1 in E0. cbn in E0. inversion E0. subst q.
  apply bind_inv in E as (r2 & m2 & E2 & E). apply (lists_keep _ _ _ _ _ _ _ _ _ E). apply bind_inv in E2 as (r3 & [l d] & E3 & E2). cbv beta iota in E2.
  destruct (put_slice (mx_list m) off l); try discriminate. destruct (put_slice (mx_default m) i [d]); try discriminate.
  inversion E2. subst m2. cbn [mx_present]. rewrite Z.lor_spec. rewrite Z.shiftl_1_l, u32_small by (split; [apply Z.pow_nonneg; lia|apply Z.pow_lt_mono_r; lia]).
  rewrite Z.pow2_bits_true by lia. apply orb_true_r.
Qed.

Definition astray (m0 : matrix) (second : Z) (x : matrix * Z) : Prop := ~ (mx_present (fst x) = mx_present m0 /\ snd x = second).

(* four flags read from the number behind the lists *)
Lemma extra_lists : forall t i m0 m second bits rest, 0 <= mx_present m0 < 2 ^ Z.of_nat i -> (i + t <= 12)%nat -> mx_present m = mx_present m0 ->
  (exists n tl, (n < t)%nat /\ bits = repeat false n ++ true :: tl) \/ (exists tl, bits = repeat false t ++ true :: tl) /\ second <> 0 ->
  only (x <- scaling_lists t i (offs i) (list_size i) m ;; sc <- RSe ;; rret (x, sc)) (bits ++ rest) (astray m0 second).
Proof.
  induction t as [|t IH]; intros i m0 m second bits rest H B E C.
  - destruct C as [(n & tl & L & _)|((tl & ->) & N)]; [lia|]. cbn [repeat app scaling_lists]. eapply only_step; [apply run_ret|].
    change (true :: tl ++ rest) with (se_code 0 ++ tl ++ rest). apply only_se; [lia|]. apply only_any. intros r r' a K. unfold rret in K. inversion K. subst. unfold astray. cbn. intros [_ X]. congruence.
  - assert (Cases : (exists tl, bits = true :: tl) \/ (exists tl, bits = false :: tl /\ ((exists n x, (n < t)%nat /\ tl = repeat false n ++ true :: x) \/ (exists x, tl = repeat false t ++ true :: x) /\ second <> 0))).
    { destruct C as [([|n] & tl & L & ->)|((tl & ->) & N)]; [left; exists tl; reflexivity|right; exists (repeat false n ++ true :: tl); split; [reflexivity|left; exists n, tl; split; [lia|reflexivity]]|].
      right. exists (repeat false t ++ true :: tl). split; [reflexivity|right; split; [exists tl; reflexivity|exact N]]. }
    destruct Cases as [(tl & ->)|(tl & -> & C')].
    + intros r G U r' [m' sc] K. apply bind_inv in K as (r1 & m1 & K1 & K). apply bind_inv in K as (r2 & s2 & K2 & K). unfold rret in K. inversion K. subst.
      pose proof (lists_set i t _ _ _ r r1 m' (tl ++ rest) ltac:(lia) G U K1) as T. unfold astray. cbn [fst]. intros [X _]. rewrite X in T.
      destruct (Z.eq_dec (mx_present m0) 0) as [Z0|Z0]; [rewrite Z0, Z.bits_0 in T; discriminate|]. rewrite Z.bits_above_log2 in T; [discriminate|lia|]. apply Z.log2_lt_pow2; lia.
    + cbn [app scaling_lists]. eapply only_ext; [intros r; symmetry; apply bind_assoc|]. apply only_flag. cbv iota.
      eapply only_ext; [intros r; symmetry; apply bind_assoc|]. eapply only_step; [apply run_ret|]. rewrite size_next, <- offs_next.
      apply IH; [|lia|exact E|exact C']. assert (2 ^ Z.of_nat (S i) = 2 * 2 ^ Z.of_nat i) by (replace (Z.of_nat (S i)) with (Z.succ (Z.of_nat i)) by lia; apply Z.pow_succ_r; lia). lia.
Qed.

Lemma mask_bound : forall s i, 0 <= scal_mask_from i s <= 2 ^ Z.of_nat (i + length s) - 2 ^ Z.of_nat i.
Proof.
  induction s as [|o s IH]; intros i; cbn [scal_mask_from length]; [rewrite Nat.add_0_r; lia|]. specialize (IH (S i)). replace (i + S (length s))%nat with (S i + length s)%nat by lia.
  assert (2 ^ Z.of_nat (S i) = 2 * 2 ^ Z.of_nat i) by (replace (Z.of_nat (S i)) with (Z.succ (Z.of_nat i)) by lia; apply Z.pow_succ_r; lia).
  pose proof (Z.pow_pos_nonneg 2 (Z.of_nat i)). destruct o; lia.
Qed.

Lemma second_code v : -12 <= v <= 12 ->
  (exists n tl, (n < 4)%nat /\ se_code v = repeat false n ++ true :: tl) \/ (exists tl, se_code v = repeat false 4 ++ true :: tl) /\ v <> 0.
Proof.
  intros H. assert (C : In v (map (fun k => Z.of_nat k - 12) (seq 0 25))).
  { apply in_map_iff. exists (Z.to_nat (v + 12)). split; [lia|]. apply in_seq. lia. }
  cbn in C. repeat (destruct C as [<-|C]); try contradiction;
    first [left; exists 0%nat; eexists; split; [lia|vm_compute; reflexivity] | left; exists 1%nat; eexists; split; [lia|vm_compute; reflexivity]
          |left; exists 2%nat; eexists; split; [lia|vm_compute; reflexivity] | left; exists 3%nat; eexists; split; [lia|vm_compute; reflexivity]
          |right; split; [eexists; vm_compute; reflexivity|lia]].
Qed.

Lemma tail_astray t l rest : t_8x8 t = true -> t_matrix t = Some l -> length l = 8%nat -> scal_ok 0 l -> -12 <= t_second t <= 12 ->
  only (pps_tail 3) (tail_bits t ++ rest) (fun x => ~ (mx_present (snd (fst x)) = scal_mask_from 0 l /\ snd x = t_second t)).
Proof.
  intros T M L K H. unfold pps_tail, tail_bits. rewrite T, M, <- !app_assoc. cbn [app]. eapply only_step; [apply run_avail|]. rewrite zlen_cons.
  match goal with |- context [zlen ?l + 1 >? 0] => pose proof (zlen_nonneg l); replace (zlen l + 1 >? 0) with true by lia end.
  apply only_flag. apply only_flag. unfold rwhen. cbv iota. change (3 =? 3) with true. cbv iota.
  change 12%nat with (8 + 4)%nat.
  eapply only_ext; [intros r; symmetry; transitivity (rbind (x <- scaling_lists 8 0 0 16 matrix0 ;; scaling_lists 4 8 (offs 8) (list_size 8) x) (fun m => sc <- RSe ;; rret (true, true, m, sc)) r)|].
  { apply bind_cong. exact (lists_app 4 8 0 matrix0 r). }
  { apply bind_assoc. }
  eapply only_step.
  { rewrite <- L at 1. exact (run_scaling_lists l 0 0 [] [] (se_code (t_second t) ++ rest) ltac:(lia) K ltac:(cbn; lia) eq_refl eq_refl). }
  cbn [app]. rewrite !Z.add_0_l. pose proof (mask_bound l 0) as B. rewrite L in B.
  set (m8 := mkMatrix (scal_mask_from 0 l) _ _).
  apply (only_ext (y <- (x <- scaling_lists 4 8 (offs 8) (list_size 8) m8 ;; sc <- RSe ;; rret (x, sc)) ;; rret (true, true, fst y, snd y))).
  { intros r. rewrite bind_assoc. apply bind_same. intros x r1. rewrite bind_assoc. apply bind_same. reflexivity. }
  eapply only_then.
  { apply (extra_lists 4 8 m8 m8 (t_second t) (se_code (t_second t)) rest); [cbn [m8 mx_present]; lia|lia|reflexivity|apply second_code; exact H]. }
  intros [x sc] A r r' b E. unfold rret in E. inversion E. subst. unfold astray in A. cbn [fst snd m8 mx_present] in *. exact A.
Qed.

Lemma body_astray f z t l rest : z_tail z = Some t -> t_8x8 t = true -> t_matrix t = Some l -> pps_legal 1 z -> groups_readable (z_groups z) -> f (z_sps z) = None ->
  only (parse_pps_body f) (pps_bits z ++ rest) (fun p => pps_id p = z_id z /\ ~ (mx_present (pps_matrix p) = scal_mask_from 0 l /\ pps_second_chroma_qp_offset p = t_second t)).
Proof.
  intros Ht T M (Hid & Hs & HG & H0 & H1 & Hb & Hqp & Hqs & Hcq & HL) HR N. rewrite Ht in HL. destruct HL as [H2 HM]. unfold tail_lists in HM. rewrite T, M in HM. destruct HM as [HM HK].
  unfold pps_bits, parse_pps_body. rewrite <- !app_assoc. do 2 (apply only_ue; [lia|]). cbn [app]. cbv zeta. rewrite N. do 2 apply only_flag.
  apply only_pair. eapply only_step; [apply run_groups; assumption|]. cbn [fst snd].
  unfold parsed_groups. do 2 (apply only_ue; [lia|]). apply only_flag. apply only_two; [lia|].
  do 3 (apply only_se; [lia|]). do 3 apply only_flag. rewrite Ht. eapply only_then; [apply (tail_astray t l rest); assumption|].
  intros [[[t8 mp] m] sc] A r r' p E. unfold rret in E. inversion E. subst. cbn [fst snd pps_id pps_matrix pps_second_chroma_qp_offset] in *. split; [reflexivity|exact A].
Qed.

(* ---------------- any number of sets ---------------- *)
Lemma sprop_alone s b : without_8x8_matrix b ->
  snd (parse_sprop s b) = Ok tt /\
  (forall id, get_sps (fst (parse_sprop s b)) id = match get_sps (alone b) id with Some x => Some x | None => get_sps s id end) /\
  (forall id, get_pps (fst (parse_sprop s b)) id = match get_pps (alone b) id with Some x => Some x | None => get_pps s id end).
Proof.
  unfold without_8x8_matrix, alone. destruct b as [|b r]; [intros _; repeat split|]. cbn [parse_sprop]. destruct (Z.land b 31 =? 7).
  - intros [O _]. unfold parse_sps in *. destruct (parse_sps_body (new_reader r)) as [r1 [i| | |]]; try discriminate. cbn [fst snd]. unfold get_sps, get_pps, map_set. cbn.
    split; [reflexivity|]. split; intros id; [destruct (id =? sps_id i); reflexivity|reflexivity].
  - destruct (Z.land b 31 =? 8); [|intros _; repeat split]. intros [O K]. unfold parse_pps in *.
    destruct (parse_pps_body (st_sps new_store) (new_reader r)) as [r1 [p| | |]] eqn:E; try discriminate. cbn [fst snd] in *.
    assert (B : pps_transform_8x8 p && pps_scaling_matrix_present p = false).
    { specialize (K (pps_id p) p). unfold get_pps, map_set in K. cbn [st_pps] in K. rewrite Z.eqb_refl in K. destruct (K eq_refl) as [->| ->]; [reflexivity|apply andb_false_r]. }
    rewrite (body_plain _ (st_sps s) _ _ _ E B). cbn [fst snd]. unfold get_sps, get_pps, map_set. cbn. split; [reflexivity|]. split; intros id; [reflexivity|destruct (id =? pps_id p); reflexivity].
Qed.

Lemma sprops_alone : forall bufs s, Forall without_8x8_matrix bufs -> ForallOrdPairs own_numbers bufs ->
  Forall (fun o => o = Ok tt) (snd (sprops s bufs)) /\
  (forall id, (forall b v, In b bufs -> get_sps (alone b) id = Some v -> get_sps (fst (sprops s bufs)) id = Some v) /\
              ((forall b, In b bufs -> get_sps (alone b) id = None) -> get_sps (fst (sprops s bufs)) id = get_sps s id) /\
              (forall b v, In b bufs -> get_pps (alone b) id = Some v -> get_pps (fst (sprops s bufs)) id = Some v) /\
              ((forall b, In b bufs -> get_pps (alone b) id = None) -> get_pps (fst (sprops s bufs)) id = get_pps s id)).
Proof.
  induction bufs as [|b bufs IH]; intros s F P.
  - split; [constructor|]. intros id. repeat split; intros; try contradiction.
  - inversion F as [|? ? F1 F2]; subst. inversion P as [|? ? P1 P2]; subst. destruct (sprop_alone s b F1) as (O & G1 & G2).
    cbn [sprops]. destruct (parse_sprop s b) as [s1 o]. cbn [fst snd] in *. destruct (IH s1 F2 P2) as (A & B). destruct (sprops s1 bufs) as [s2 os]. cbn [fst snd] in *.
    split; [constructor; assumption|]. intros id. destruct (B id) as (B1 & B2 & B3 & B4). rewrite Forall_forall in P1.
    repeat split.
    + intros c v [->|I] E; [|exact (B1 c v I E)]. rewrite B2, G1, E; [reflexivity|]. intros d D. destruct (P1 d D id) as [[X|X] _]; [congruence|exact X].
    + intros N. rewrite B2, G1, (N b) by (intros; apply N || idtac; cbn; auto). reflexivity.
    + intros c v [->|I] E; [|exact (B3 c v I E)]. rewrite B4, G2, E; [reflexivity|]. intros d D. destruct (P1 d D id) as [_ [X|X]]; [congruence|exact X].
    + intros N. rewrite B4, G2, (N b) by (intros; apply N || idtac; cbn; auto). reflexivity.
Qed.

Lemma own_sym a b : own_numbers a b -> own_numbers b a.
Proof. intros H id. destruct (H id). tauto. Qed.
Lemma own_perm bufs bufs' : Permutation bufs bufs' -> ForallOrdPairs own_numbers bufs -> ForallOrdPairs own_numbers bufs'.
Proof.
  induction 1 as [|x l l' H IH|x y l|l l' l'' H1 IH1 H2 IH2]; intros P; [exact P| | |auto].
  - inversion P as [|? ? P1 P2]; subst. constructor; [|auto]. rewrite Forall_forall in *. intros z I. apply P1. apply (Permutation_in z (Permutation_sym H)). exact I.
  - inversion P as [|? ? P1 P2]; subst. inversion P2 as [|? ? P3 P4]; subst. inversion P1 as [|? ? P5 P6]; subst. constructor; [constructor; [apply own_sym; exact P5|exact P3]|constructor; assumption].
Qed.

Lemma sprops_perm s bufs bufs' : Permutation bufs bufs' -> Forall without_8x8_matrix bufs -> ForallOrdPairs own_numbers bufs -> same_sets (fst (sprops s bufs)) (fst (sprops s bufs')).
Proof.
  intros H F P. assert (F' : Forall without_8x8_matrix bufs') by (rewrite Forall_forall in *; intros b I; apply F; apply (Permutation_in b (Permutation_sym H)); exact I).
  pose proof (sprops_alone bufs s F P) as [_ A]. pose proof (sprops_alone bufs' s F' (own_perm _ _ H P)) as [_ B].
  split; intros id; destruct (A id) as (A1 & A2 & A3 & A4); destruct (B id) as (B1 & B2 & B3 & B4).
  - assert (D : (exists b v, In b bufs /\ get_sps (alone b) id = Some v) \/ (forall b, In b bufs -> get_sps (alone b) id = None)).
    { clear. induction bufs as [|b r IH]; [right; intros ? []|]. destruct (get_sps (alone b) id) as [v|] eqn:E; [left; exists b, v; split; [left; reflexivity|exact E]|].
      destruct IH as [(c & v & I & G)|N]; [left; exists c, v; split; [right; exact I|exact G]|right; intros c [->|I]; [exact E|exact (N c I)]]. }
    destruct D as [(b & v & I & E)|N]; [rewrite (A1 b v I E), (B1 b v (Permutation_in b H I) E); reflexivity|].
    rewrite A2 by exact N. rewrite B2; [reflexivity|]. intros b I. apply N. exact (Permutation_in b (Permutation_sym H) I).
  - assert (D : (exists b v, In b bufs /\ get_pps (alone b) id = Some v) \/ (forall b, In b bufs -> get_pps (alone b) id = None)).
    { clear. induction bufs as [|b r IH]; [right; intros ? []|]. destruct (get_pps (alone b) id) as [v|] eqn:E; [left; exists b, v; split; [left; reflexivity|exact E]|].
      destruct IH as [(c & v & I & G)|N]; [left; exists c, v; split; [right; exact I|exact G]|right; intros c [->|I]; [exact E|exact (N c I)]]. }
    destruct D as [(b & v & I & E)|N]; [rewrite (A3 b v I E), (B3 b v (Permutation_in b H I) E); reflexivity|].
    rewrite A4 by exact N. rewrite B4; [reflexivity|]. intros b I. apply N. exact (Permutation_in b (Permutation_sym H) I).
Qed.

Lemma alone_pps r r1 p : parse_pps_body (fun _ => None) (new_reader r) = (r1, Ok p) -> pps_transform_8x8 p = false \/ pps_scaling_matrix_present p = false ->
  without_8x8_matrix (104 :: r) /\ forall id, get_sps (alone (104 :: r)) id = None /\ get_pps (alone (104 :: r)) id = if id =? pps_id p then Some p else None.
Proof.
  intros E K. unfold without_8x8_matrix, alone, get_sps, get_pps. change (parse_sprop new_store (104 :: r)) with (parse_pps new_store r). unfold parse_pps. change (st_sps new_store) with (fun _ : Z => @None sps_info).
  rewrite E. cbn [fst snd st_sps st_pps]. unfold map_set. split; [split; [reflexivity|]|split; reflexivity].
  intros id q. destruct (id =? pps_id p); [|discriminate]. intros [= <-]. exact K.
Qed.
Lemma alone_sps r r1 i : parse_sps_body (new_reader r) = (r1, Ok i) ->
  without_8x8_matrix (103 :: r) /\ forall id, get_sps (alone (103 :: r)) id = (if id =? sps_id i then Some i else None) /\ get_pps (alone (103 :: r)) id = None.
Proof.
  intros E. unfold without_8x8_matrix, alone, get_sps, get_pps. change (parse_sprop new_store (103 :: r)) with (parse_sps new_store r). unfold parse_sps.
  rewrite E. cbn [fst snd st_sps st_pps]. unfold map_set. split; [split; [reflexivity|]|split; reflexivity]. intros id q. discriminate.
Qed.
