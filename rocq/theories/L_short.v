(* Lemmas: the text of a float64 is as short as can be. *)
From Coq Require Import String.
From Verif Require Import Base GoStrings M_float S_m3u8 S_float S_short L_base L_strings L_m3u8 L_float.
From Coq Require Import ZifyBool ZifyNat.
From Coq Require Znumtheory Zpow_facts.

(* no multiple of 10^v lies inside *)
Definition none_inside (inclusive : bool) (lower upper v : Z) : Prop := forall c, ~ inside inclusive lower (c * 10 ^ v) upper.
(* r is a multiple of 10^v inside, none of 10^(v+1) is, and no other one is nearer to d *)
Definition best (inclusive : bool) (lower d upper r : Z) : Prop := exists v c, 0 <= v /\ r = c * 10 ^ v /\ none_inside inclusive lower upper (v + 1) /\
  forall x, inside inclusive lower (x * 10 ^ v) upper -> Z.abs (r - d) <= Z.abs (x * 10 ^ v - d).

Lemma inside_between inclusive lower x y d upper : lower < d < upper -> inside inclusive lower x upper -> (x <= y <= d \/ d <= y <= x) -> inside inclusive lower y upper.
Proof. unfold inside. intros D I H. destruct H, I; destruct inclusive; lia. Qed.

Lemma walk_best w : forall inclusive lower d upper delta, 0 < lower -> lower < d < upper ->
  lower / 10 ^ (Z.of_nat w + 1) = d / 10 ^ (Z.of_nat w + 1) -> seen delta (d / 10 ^ (Z.of_nat w + 1)) (upper / 10 ^ (Z.of_nat w + 1)) ->
  none_inside inclusive lower upper (Z.of_nat w + 1) -> best inclusive lower d upper (walk w inclusive lower d upper delta).
Proof.
  induction w as [w IH] using lt_wf_ind; intros inclusive lower d upper delta L0 D EL SE NO. rewrite walk_eq. cbv zeta.
  destruct (d mod 10 ^ (Z.of_nat w + 1) =? 0) eqn:ED.
  { exfalso. apply (NO (d / 10 ^ (Z.of_nat w + 1))). pose proof (Z.div_mod d (10 ^ (Z.of_nat w + 1)) ltac:(pose proof (pow10_pos w); rewrite pow10_succ; lia)) as X.
    left. lia. }
  clear ED. pose proof (pow10_pos w) as PP. pose proof NO as NO'. rewrite pow10_succ in EL, SE. unfold none_inside in NO'. rewrite pow10_succ in NO'. remember (10 ^ Z.of_nat w) as P eqn:EP.
  pose proof (digit_step lower P PP) as HL. pose proof (digit_step d P PP) as HD. pose proof (digit_step upper P PP) as HU.
  pose proof (Z.mod_pos_bound (lower / P) 10 ltac:(lia)) as Bl. pose proof (Z.mod_pos_bound (d / P) 10 ltac:(lia)) as Bm. pose proof (Z.mod_pos_bound (upper / P) 10 ltac:(lia)) as Bu.
  pose proof (Z.div_le_mono lower d P PP ltac:(lia)) as M1. pose proof (Z.div_le_mono d upper P PP ltac:(lia)) as M2.
  remember (lower / P mod 10) as l. remember (d / P mod 10) as m. remember (upper / P mod 10) as u.
  pose proof (seen_next delta _ _ m u SE Bm Bu ltac:(lia)) as S'. rewrite <- HD, <- HU in S'. remember (next delta m u) as delta'.
  pose proof (Z.div_mod lower P ltac:(lia)) as QL. pose proof (Z.mod_pos_bound lower P PP) as RL. pose proof (Z.div_mod d P ltac:(lia)) as QD. pose proof (Z.mod_pos_bound d P PP) as RD.
  pose proof (Z.div_mod upper P ltac:(lia)) as QU. pose proof (Z.mod_pos_bound upper P PP) as RU.
  assert (ND : going inclusive l m (lower mod P) = false -> ~ inside inclusive lower (d / P * P) upper).
  { intros X Y. unfold going in X. assert (LM : l = m) by lia. assert (Q : lower / P = d / P) by lia. rewrite <- Q in Y.
    assert (inclusive = true /\ lower mod P = 0 /\ l = 0) as (I1 & I2 & I3).
    { assert (lower / P * P <= lower) by lia. destruct Y as [Y|[Y1 Y2]]; [lia|]. split; [exact Y1|]. rewrite Y1 in X. lia. }
    apply (NO' (lower / (10 * P))). right. split; [exact I1|]. assert (E : lower = lower / (10 * P) * (10 * P)) by lia. lia. }
  assert (NU : rising inclusive delta' (upper mod P) = false -> ~ inside inclusive lower ((d / P + 1) * P) upper).
  { intros X Y. unfold rising in X. unfold seen in S'. destruct S' as [(X1 & X2)|[(X1 & X2)|(X1 & X2)]]; rewrite X1 in X.
    - rewrite <- X2 in Y. unfold inside in Y. lia.
    - rewrite <- X2 in Y. unfold inside in Y. lia.
    - destruct inclusive; discriminate X. }
  assert (GQ : going inclusive l m (lower mod P) = false -> lower / P = d / P).
  { intros X. unfold going in X. destruct (Z.eqb_spec l m) as [LM|LM]; [|discriminate X]. rewrite HL, HD, EL, LM. reflexivity. }
  assert (W0 : w = O -> going inclusive l m (lower mod P) = true).
  { intros ->. cbn in EP. unfold going. destruct (Z.eqb_spec l m) as [X|X]; [|reflexivity]. exfalso. clear - X HL HD EL D EP. rewrite EP, !Z.div_1_r in *. lia. }
  assert (NR : exists c, round_near d (Z.of_nat w) = c * P /\ Z.abs (c * P - d) <= d mod P /\ Z.abs (c * P - d) <= P - d mod P).
  { clear - PP QD RD EP. unfold round_near, round_down, round_up. rewrite <- EP. remember (d / P) as q. remember (d mod P) as r. clear Heqq Heqr EP.
    destruct ((2 * r =? P) && Z.even q) eqn:T; [exists q; splits; lia|]. destruct (P <=? 2 * r) eqn:T2; [exists (q + 1); splits; lia|exists q; splits; lia]. }
  remember (going inclusive l m (lower mod P)) as g eqn:G. remember (rising inclusive delta' (upper mod P)) as r eqn:RR.
  clear G RR HL HD HU Bl Bm Bu M1 M2 QL RL QU RU SE EL Heql Heqm Hequ NO'.
  assert (LE : forall x, x * P <= d -> x * P <= d / P * P). { intros x X. apply Z.mul_le_mono_nonneg_r; [lia|]. apply Z.div_le_lower_bound; lia. }
  assert (GE : forall x, d < x * P -> (d / P + 1) * P <= x * P). { intros x X. apply Z.mul_le_mono_nonneg_r; [lia|]. assert (d / P < x) by (apply Z.div_lt_upper_bound; lia). lia. }
  assert (DQ : d / P * P <= d < (d / P + 1) * P /\ d - d / P * P = d mod P /\ (d / P + 1) * P - d = P - d mod P) by (clear - QD RD; lia).
  assert (KD : r = false -> forall x, inside inclusive lower (x * P) upper -> x * P <= d).
  { intros R x X. destruct (Z.le_gt_cases (x * P) d) as [C|C]; [exact C|]. exfalso. apply (NU R). apply (inside_between inclusive lower (x * P) _ d upper D X). right.
    pose proof (GE x C). clear - H DQ. lia. }
  assert (KU : g = false -> forall x, inside inclusive lower (x * P) upper -> d < x * P).
  { intros R x X. destruct (Z.le_gt_cases (x * P) d) as [C|C]; [|exact C]. exfalso. apply (ND R). apply (inside_between inclusive lower (x * P) _ d upper D X). left.
    pose proof (LE x C). clear - H DQ. lia. }
  destruct g; destruct r; cbn [andb].
  - destruct NR as (c & E & H1 & H2). exists (Z.of_nat w), c. rewrite <- EP. splits; [lia|exact E|exact NO|]. intros x X. rewrite E.
    destruct (Z.le_gt_cases (x * P) d) as [C|C]; [pose proof (LE x C) as Y; clear - Y C DQ H1; lia|pose proof (GE x C) as Y; clear - Y C DQ H2; lia].
  - exists (Z.of_nat w), (d / P). unfold round_down. rewrite <- EP. splits; [lia|reflexivity|exact NO|]. intros x X. pose proof (KD eq_refl x X) as C. pose proof (LE x C) as Y. clear - Y C DQ. lia.
  - exists (Z.of_nat w), (d / P + 1). unfold round_up. rewrite <- EP. splits; [lia|reflexivity|exact NO|]. intros x X. pose proof (KU eq_refl x X) as C. pose proof (GE x C) as Y. clear - Y C DQ. lia.
  - destruct w as [|w]; [discriminate (W0 eq_refl)|]. assert (E1 : Z.of_nat w + 1 = Z.of_nat (S w)) by lia.
    apply IH; [lia|exact L0|exact D| | |]; unfold none_inside; rewrite E1, <- ?EP; [exact (GQ eq_refl)|exact S'|].
    intros c X. pose proof (KD eq_refl c X). pose proof (KU eq_refl c X). lia.
Qed.

(* zeros at the end are all counted *)
Lemma zeros_all k : forall n, n <> 0 -> Z.abs n < 2 ^ Z.of_nat k -> exists m, n = m * 10 ^ zeros k n /\ 0 <= zeros k n /\ m mod 10 <> 0.
Proof.
  induction k as [|k IH]; intros n N B; [cbn in B; lia|]. cbn [zeros]. destruct (n mod 10 =? 0) eqn:E; [|exists n; cbn; lia].
  replace (Z.of_nat (S k)) with (Z.succ (Z.of_nat k)) in B by lia. rewrite Z.pow_succ_r in B by lia.
  destruct (IH (n / 10)) as (m & E1 & E2 & E3); [lia|lia|]. exists m. splits; [|lia|exact E3]. rewrite Z.pow_add_r by lia. lia.
Qed.
Lemma end_zeros_all n : 1 <= n -> exists m, n = m * 10 ^ end_zeros n /\ 0 <= end_zeros n /\ m mod 10 <> 0.
Proof.
  intros N. apply zeros_all; [lia|]. pose proof (Z.log2_spec n ltac:(lia)). pose proof (Z.log2_nonneg n). replace (Z.of_nat (S (Z.to_nat (Z.log2 n)))) with (Z.succ (Z.log2 n)) by lia. lia.
Qed.

(* ---- numbers that stand for b lie inside ---- *)
Lemma rounds_inside n s b lower upper : 1 <= b < infinity -> 0 <= s -> lower * 2 ^ 1075 = (grid (b - 1) + grid b) * 10 ^ s ->
  upper * 2 ^ 1075 = (grid b + grid (b + 1)) * 10 ^ s -> rounds_to n s b -> inside (Z.even b) lower n upper.
Proof.
  intros B S0 HL HU H. unfold rounds_to in H. cbv zeta in H. change 1075 with (Z.succ 1074) in HL, HU. rewrite (Z.pow_succ_r 2 1074) in HL, HU by lia.
  pose proof (H (b - 1) ltac:(lia) ltac:(lia)) as H1. pose proof (H (b + 1) ltac:(lia) ltac:(lia)) as H2. clear H.
  pose proof (grid_mono (b - 1) b ltac:(lia)) as G1. pose proof (grid_mono b (b + 1) ltac:(lia)) as G2.
  pose proof (Z.pow_pos_nonneg 2 1074 ltac:(lia) ltac:(lia)) as P0. pose proof (Z.pow_pos_nonneg 10 s ltac:(lia) S0) as D0.
  remember (2 ^ 1074) as p eqn:Hp. clear Hp. remember (10 ^ s) as q. clear Heqq.
  assert (G3 : grid (b - 1) * q < grid b * q) by (apply Z.mul_lt_mono_pos_r; lia).
  assert (G4 : grid b * q < grid (b + 1) * q) by (apply Z.mul_lt_mono_pos_r; lia).
  assert (Lo : lower * (2 * p) < n * (2 * p) \/ Z.even b = true /\ lower * (2 * p) <= n * (2 * p)) by (rewrite HL; destruct H1 as [H1|[H1 E]]; lia).
  assert (Up : n * (2 * p) < upper * (2 * p) \/ Z.even b = true /\ n * (2 * p) <= upper * (2 * p)) by (rewrite HU; destruct H2 as [H2|[H2 E]]; lia).
  assert (LT : forall x y, x * (2 * p) < y * (2 * p) -> x < y) by (intros x y X; apply (Z.mul_lt_mono_pos_r (2 * p)); lia).
  assert (LE : forall x y, x * (2 * p) <= y * (2 * p) -> x <= y) by (intros x y X; apply (Z.mul_le_mono_pos_r _ _ (2 * p)); lia).
  unfold inside. destruct Lo as [Lo|[E Lo]], Up as [Up|[E' Up]];
    repeat match goal with X : _ < _ |- _ => apply LT in X | X : _ <= _ |- _ => apply LE in X end; try (left; split; assumption); right; (split; [assumption|lia]).
Qed.

Lemma rounds_grow n k b j : 0 <= k -> 0 <= j -> rounds_to n k b -> rounds_to (n * 10 ^ j) (k + j) b.
Proof.
  unfold rounds_to. cbv zeta. intros K J H x X NX. specialize (H x X NX). pose proof (Z.pow_pos_nonneg 10 j ltac:(lia) J) as D0. rewrite Z.pow_add_r by lia. remember (10 ^ j) as q eqn:Q. clear Q.
  assert (F : forall y, Z.abs (n * q * 2 ^ 1074 - grid y * (10 ^ k * q)) = Z.abs (n * 2 ^ 1074 - grid y * 10 ^ k) * q).
  { intros y. transitivity (Z.abs (n * 2 ^ 1074 - grid y * 10 ^ k) * Z.abs q); [rewrite <- Z.abs_mul; f_equal; ring|]. rewrite (Z.abs_eq q) by lia. reflexivity. }
  rewrite !F. destruct H as [H|(H & EV)]; [left; apply Z.mul_lt_mono_pos_r; lia|right; split; [rewrite H; reflexivity|exact EV]].
Qed.

(* ---- where the digits are exact already ---- *)
Lemma ten_two c a : 0 <= c -> 0 <= a -> 100 * a <= 332 * c -> 2 ^ a <= 10 ^ c.
Proof.
  intros C A H. destruct (Z.le_gt_cases (2 ^ a) (10 ^ c)) as [X|X]; [exact X|]. exfalso.
  pose proof (Z.pow_pos_nonneg 10 c ltac:(lia) C) as P0.
  pose proof (Z.pow_lt_mono_l (10 ^ c) (2 ^ a) 100 ltac:(lia) ltac:(lia)) as Y. rewrite <- !Z.pow_mul_r in Y by lia.
  assert (Y1 : 2 ^ (a * 100) <= 2 ^ (332 * c)) by (apply Z.pow_le_mono_r; lia). rewrite (Z.pow_mul_r 2 332) in Y1 by lia.
  assert (Y2 : (2 ^ 332) ^ c <= (10 ^ 100) ^ c) by (apply Z.pow_le_mono_l; split; [apply Z.pow_nonneg; lia|vm_compute; congruence]).
  rewrite <- (Z.pow_mul_r 10 100 c) in Y2 by lia. replace (c * 100) with (100 * c) in Y by lia. lia.
Qed.
Lemma two_ten c a : 0 <= c <= 25 -> 332 * c <= 100 * a -> 10 ^ c < 2 ^ (a + 1).
Proof.
  intros C H. assert (G : forall n, (n <= 25)%nat -> forall x, 332 * Z.of_nat n <= 100 * x -> 10 ^ Z.of_nat n < 2 ^ (x + 1)).
  { clear. intros n N x X.
    assert (Y : 2 ^ ((332 * Z.of_nat n + 99) / 100 + 1) <= 2 ^ (x + 1)) by (apply Z.pow_le_mono_r; lia). eapply Z.lt_le_trans; [|exact Y]. clear X Y.
    do 26 (destruct n as [|n]; [vm_compute; reflexivity|]). lia. }
  specialize (G (Z.to_nat c) ltac:(lia) a ltac:(lia)). replace (Z.of_nat (Z.to_nat c)) with c in G by lia. exact G.
Qed.

Lemma mant_bound b : 1 <= b -> 1 <= mant_of b < 2 ^ 53.
Proof.
  intros B. pose proof (Z.div_mod b (2 ^ 52) ltac:(lia)) as Q. pose proof (Z.mod_pos_bound b (2 ^ 52) ltac:(lia)) as R. pose proof (Z.div_pos b (2 ^ 52) ltac:(lia) ltac:(lia)) as DP.
  unfold mant_of. destruct (b / 2 ^ 52 =? 0) eqn:X; lia.
Qed.

(* few zeros at the end of a binary fraction *)
Lemma few_zeros mant a d c z : 1 <= mant < 2 ^ 53 -> 0 < a -> d * 2 ^ a = mant * 10 ^ (a + 2) -> d = c * 10 ^ z -> 0 <= z -> z <= 54.
Proof.
  intros M A E D Z0. destruct (Z.le_gt_cases z 54) as [X|X]; [exact X|]. exfalso.
  assert (E2 : d = 5 ^ (a + 2) * (4 * mant)).
  { change 10 with (2 * 5) in E. rewrite Z.pow_mul_l in E. rewrite (Z.pow_add_r 2 a 2) in E by lia. pose proof (Z.pow_pos_nonneg 2 a ltac:(lia) ltac:(lia)) as P0.
    apply (Z.mul_cancel_r _ _ (2 ^ a)); [lia|]. rewrite E. ring. }
  assert (DV : (2 ^ 55 | 5 ^ (a + 2) * (4 * mant))).
  { rewrite <- E2, D. change 10 with (2 * 5). rewrite Z.pow_mul_l. replace z with (55 + (z - 55)) at 1 by lia. rewrite Z.pow_add_r by lia.
    exists (c * 2 ^ (z - 55) * 5 ^ z). ring. }
  apply Znumtheory.Gauss in DV; [|apply Zpow_facts.rel_prime_Zpower; [lia|lia|apply Znumtheory.Zgcd_1_rel_prime; reflexivity]].
  apply Z.divide_pos_le in DV; lia.
Qed.

(* the half unit is less than the last digit *)
Lemma exact_margin b s d c : 1 <= b -> s = Z.max 0 (54 - (unit_of b - 1022)) -> d = scaled s (mant_of b) (unit_of b - 1022 - 52) -> d = c * 10 ^ end_zeros d -> 0 <= end_zeros d ->
  100 * (unit_of b - 1022 - 52) <= 332 * (end_zeros d - s) -> 2 ^ unit_of b * 10 ^ s < 10 ^ end_zeros d * 2 ^ 1075.
Proof.
  intros B ES ED EC Z0 H. pose proof (mant_bound b B) as MB. assert (UN : 0 <= unit_of b) by (unfold unit_of; lia).
  assert (FZ : unit_of b < 1074 -> end_zeros d <= 54).
  { intros U. apply (few_zeros (mant_of b) (1074 - unit_of b) d c); try assumption; [lia|].
    assert (SV : scaled s (mant_of b) (unit_of b - 1022 - 52) * 2 ^ (1074 - unit_of b) = mant_of b * 2 ^ (unit_of b - 1022 - 52 + (1074 - unit_of b)) * 10 ^ s) by (apply scaled_value; lia).
    rewrite <- ED in SV. rewrite SV. replace (unit_of b - 1022 - 52 + (1074 - unit_of b)) with 0 by lia. replace s with (1074 - unit_of b + 2) by lia. rewrite Z.pow_0_r. ring. }
  remember (end_zeros d) as z eqn:EZ. clear EZ ED EC. remember (unit_of b) as u eqn:EU. clear EU.
  pose proof (Z.pow_pos_nonneg 2 u ltac:(lia) UN) as P0.
  destruct (Z.le_gt_cases s z) as [C|C].
  - replace z with (s + (z - s)) by lia. rewrite Z.pow_add_r by lia. pose proof (Z.pow_pos_nonneg 10 s ltac:(lia) ltac:(lia)) as P1. pose proof (Z.pow_pos_nonneg 10 (z - s) ltac:(lia) ltac:(lia)) as P2.
    assert (K : 2 ^ u < 10 ^ (z - s) * 2 ^ 1075).
    { destruct (Z.le_gt_cases u 1074) as [U|U].
      - assert (X : 2 ^ u < 2 ^ 1075) by (apply Z.pow_lt_mono_r; lia). pose proof (Z.pow_pos_nonneg 2 1075 ltac:(lia) ltac:(lia)) as P3. remember (2 ^ 1075) as t. clear Heqt.
        remember (2 ^ u) as x. remember (10 ^ (z - s)) as y. clear - X P2 P3. nia.
      - pose proof (ten_two (z - s) (u - 1074) ltac:(lia) ltac:(lia) ltac:(lia)) as T. replace u with (u - 1074 + 1074) by lia. rewrite Z.pow_add_r by lia.
        pose proof (Z.pow_pos_nonneg 2 1074 ltac:(lia) ltac:(lia)) as P3. change 1075 with (Z.succ 1074). rewrite (Z.pow_succ_r 2 1074) by lia. remember (2 ^ 1074) as t. clear Heqt.
        remember (2 ^ (u - 1074)) as x. remember (10 ^ (z - s)) as y. clear - T P3 P2. nia. }
    remember (2 ^ 1075) as t. clear Heqt. remember (10 ^ s) as q. clear - K P1. nia.
  - assert (U : u < 1074) by lia. specialize (FZ U). pose proof (two_ten (s - z) (1074 - u) ltac:(lia) ltac:(lia)) as T.
    replace s with (z + (s - z)) by lia. rewrite Z.pow_add_r by lia. replace 1075 with (u + (1074 - u + 1)) by lia. rewrite (Z.pow_add_r 2 u) by lia.
    pose proof (Z.pow_pos_nonneg 10 z ltac:(lia) ltac:(lia)) as P1. remember (2 ^ u) as x. remember (10 ^ z) as y. remember (10 ^ (s - z)) as q. remember (2 ^ (1074 - u + 1)) as t. clear - T P0 P1.
    replace (x * (y * q)) with (x * y * q) by ring. replace (y * (x * t)) with (x * y * t) by ring. apply Z.mul_lt_mono_pos_l; [apply Z.mul_pos_pos; assumption|exact T].
Qed.

Lemma shortest_best b s : 1 <= b -> finite b -> s = Z.max 0 (54 - (unit_of b - 1022)) -> exists lower d upper,
  d * 2 ^ 1075 = 2 * grid b * 10 ^ s /\ lower * 2 ^ 1075 = (grid (b - 1) + grid b) * 10 ^ s /\ upper * 2 ^ 1075 = (grid b + grid (b + 1)) * 10 ^ s /\
  best (Z.even b) lower d upper (shortest s (mant_of b) (unit_of b - 1022)).
Proof.
  intros B F ES. destruct (shortest_eq b s B F ES) as (lower & d & upper & D & HD & HL & HU & L0 & OD & ->). exists lower, d, upper. splits; try assumption.
  destruct ((-1022 <? unit_of b - 1022) && (100 * (unit_of b - 1022 - 52) <=? 332 * (end_zeros d - s))) eqn:C.
  - destruct (end_zeros_all d ltac:(lia)) as (c & EC & Z0 & M). pose proof (exact_margin b s d c B ES D EC Z0 ltac:(lia)) as K.
    exists (end_zeros d), c. splits; [exact Z0|exact EC| |intros x _; lia].
    assert (S0 : 0 <= s) by lia. pose proof (Z.pow_pos_nonneg 10 s ltac:(lia) S0) as P1. pose proof (Z.pow_pos_nonneg 2 1075 ltac:(lia) ltac:(lia)) as P2.
    pose proof (grid_next b ltac:(lia)) as G1. pose proof (grid_next (b - 1) ltac:(lia)) as G2. replace (b - 1 + 1) with b in G2 by lia.
    assert (G3 : 2 ^ unit_of (b - 1) <= 2 ^ unit_of b).
    { apply Z.pow_le_mono_r; [lia|]. unfold unit_of. assert ((b - 1) / 2 ^ 52 <= b / 2 ^ 52) by (apply Z.div_le_mono; lia). lia. }
    intros x X. rewrite Z.pow_add_r, Z.pow_1_r in X by lia. pose proof (Z.pow_pos_nonneg 10 (end_zeros d) ltac:(lia) Z0) as P3.
    remember (10 ^ end_zeros d) as y eqn:EY. clear EY D C.
    remember (2 ^ 1075) as t eqn:ET. clear ET. remember (10 ^ s) as q eqn:EQ. clear EQ. remember (2 ^ unit_of b) as h. remember (2 ^ unit_of (b - 1)) as h'. clear Heqh Heqh'.
    assert (UP : upper - d < y) by (apply (Z.mul_lt_mono_pos_r t); nia).
    assert (DN : d - lower < y) by (apply (Z.mul_lt_mono_pos_r t); nia).
    assert (N : 10 * x <> c) by lia. clear - X UP DN N EC P3 OD.
    assert (lower <= x * (y * 10) <= upper) by (unfold inside in X; lia). subst d.
    destruct (Z.lt_total (10 * x) c) as [Y|[Y|Y]]; [|lia|]; nia.
  - pose proof (digits_below upper ltac:(lia)) as UB. remember (10 ^ (Z.of_nat (length (digits upper) - 1) + 1)) as P eqn:EP.
    apply walk_best; [exact L0|exact OD| | |]; unfold none_inside; rewrite <- EP; rewrite ?Z.div_small by lia; [reflexivity|left; split; reflexivity|].
    intros x X. assert (lower <= x * P <= upper) by (unfold inside in X; lia). clear - H L0 UB. assert (x <= 0 \/ 1 <= x) as [Y|Y] by lia; nia.
Qed.

(* ---- as a statement about numbers ---- *)
Lemma best_multiple inclusive lower d upper r e x : best inclusive lower d upper r -> 0 <= e -> inside inclusive lower (x * 10 ^ e) upper ->
  exists q, r = q * 10 ^ e /\ (q mod 10 <> 0 -> Z.abs (r - d) <= Z.abs (x * 10 ^ e - d)).
Proof.
  intros (v & c & V & E & N & K) E0 X. assert (LE : e <= v).
  { destruct (Z.le_gt_cases e v) as [C|C]; [exact C|]. exfalso. apply (N (x * 10 ^ (e - (v + 1)))). rewrite <- Z.mul_assoc, <- Z.pow_add_r by lia. replace (e - (v + 1) + (v + 1)) with e by lia. exact X. }
  exists (c * 10 ^ (v - e)). split; [rewrite <- Z.mul_assoc, <- Z.pow_add_r by lia; replace (v - e + e) with v by lia; exact E|]. intros M.
  assert (v = e) as ->; [|apply K; exact X]. destruct (Z.eq_dec v e) as [C|C]; [exact C|]. exfalso. apply M.
  replace (v - e) with (Z.succ (v - e - 1)) by lia. rewrite Z.pow_succ_r by lia. replace (c * (10 * 10 ^ (v - e - 1))) with (c * 10 ^ (v - e - 1) * 10) by ring. apply Z.mod_mul. lia.
Qed.

Lemma shortest_no_longer b s : 1 <= b -> finite b -> s = Z.max 0 (54 - (unit_of b - 1022)) -> no_longer (shortest s (mant_of b) (unit_of b - 1022)) s b.
Proof.
  intros B F ES. destruct (shortest_best b s B F ES) as (lower & d & upper & HD & HL & HU & BE). remember (shortest _ _ _) as r eqn:ER. clear ER. assert (S0 : 0 <= s) by lia. clear ES.
  unfold no_longer. cbv zeta. intros n' k' m K M R.
  destruct (Z.le_gt_cases 0 (m - k' + s)) as [E|E].
  - assert (RN : rounds_to (n' * 10 ^ (m - k' + s)) s b).
    { destruct (Z.le_gt_cases k' s) as [C|C].
      - pose proof (rounds_grow _ _ _ (s - k') K ltac:(lia) R) as G. replace (k' + (s - k')) with s in G by lia. rewrite <- Z.mul_assoc, <- Z.pow_add_r in G by lia. replace (m + (s - k')) with (m - k' + s) in G by lia. exact G.
      - apply (rounds_scale _ s k' b (n' * 10 ^ m)); [lia| |exact R]. rewrite <- Z.mul_assoc, <- Z.pow_add_r by lia. do 2 f_equal. lia. }
    pose proof (rounds_inside _ s b lower upper ltac:(unfold finite in F; lia) S0 HL HU RN) as I.
    destruct (best_multiple _ _ _ _ _ _ _ BE E I) as (q & Q & NR). exists q.
    assert (P : 10 ^ (m - k' + s) * 10 ^ k' = 10 ^ (m + s)) by (rewrite <- Z.pow_add_r by lia; f_equal; lia).
    split; [rewrite Q, <- Z.mul_assoc, P; reflexivity|]. intros Q0. specialize (NR Q0).
    pose proof (Z.pow_pos_nonneg 10 k' ltac:(lia) K) as P1. pose proof (Z.pow_pos_nonneg 10 s ltac:(lia) S0) as P2. pose proof (Z.pow_pos_nonneg 2 1074 ltac:(lia) ltac:(lia)) as P3.
    change 1075 with (Z.succ 1074) in HD. rewrite (Z.pow_succ_r 2 1074) in HD by lia. remember (2 ^ 1074) as t eqn:ET. clear ET.
    assert (GD : grid b * 10 ^ s = d * t) by lia.
    assert (A1 : Z.abs (r * t - grid b * 10 ^ s) * 10 ^ k' = Z.abs (r - d) * (t * 10 ^ k')).
    { rewrite GD. rewrite <- Z.mul_sub_distr_r, Z.abs_mul, (Z.abs_eq t) by lia. ring. }
    assert (A2 : Z.abs (n' * 10 ^ m * t - grid b * 10 ^ k') * 10 ^ s = Z.abs (n' * 10 ^ (m - k' + s) - d) * (t * 10 ^ k')).
    { rewrite <- (Z.abs_eq (10 ^ s)) at 1 by lia. rewrite <- Z.abs_mul, Z.mul_sub_distr_r.
      replace (grid b * 10 ^ k' * 10 ^ s) with (d * t * 10 ^ k') by (rewrite <- GD; ring).
      replace (n' * 10 ^ m * t * 10 ^ s) with (n' * 10 ^ (m - k' + s) * t * 10 ^ k').
      - replace (n' * 10 ^ (m - k' + s) * t * 10 ^ k' - d * t * 10 ^ k') with ((n' * 10 ^ (m - k' + s) - d) * (t * 10 ^ k')) by ring. rewrite Z.abs_mul. f_equal. apply Z.abs_eq. nia.
      - transitivity (n' * t * (10 ^ (m - k' + s) * 10 ^ k')); [ring|]. rewrite P, Z.pow_add_r by lia. ring. }
    rewrite A1, A2. apply Z.mul_le_mono_nonneg_r; [nia|exact NR].
  - exists (r * 10 ^ (k' - m - s)). split.
    + rewrite <- Z.mul_assoc, <- Z.pow_add_r by lia. do 2 f_equal. lia.
    + intros Q. exfalso. apply Q. replace (k' - m - s) with (Z.succ (k' - m - s - 1)) by lia. rewrite Z.pow_succ_r by lia.
      replace (r * (10 * 10 ^ (k' - m - s - 1))) with (r * 10 ^ (k' - m - s - 1) * 10) by ring. apply Z.mod_mul. lia.
Qed.

Lemma no_longer_scale R s n k b : 0 <= k <= s -> R = n * 10 ^ (s - k) -> no_longer R s b -> no_longer n k b.
Proof.
  unfold no_longer. cbv zeta. intros K E H n' k' m K' M RO. destruct (H n' k' m K' M RO) as (q & Q & NR). exists q.
  pose proof (Z.pow_pos_nonneg 10 (s - k) ltac:(lia) ltac:(lia)) as P0.
  assert (ES : 10 ^ s = 10 ^ k * 10 ^ (s - k)) by (rewrite <- Z.pow_add_r by lia; f_equal; lia). split.
  - apply (Z.mul_cancel_r _ _ (10 ^ (s - k))); [lia|]. rewrite Z.pow_add_r in Q |- * by lia. rewrite ES, E in Q. transitivity (n * 10 ^ (s - k) * 10 ^ k'); [ring|]. rewrite Q. ring.
  - intros Q0. specialize (NR Q0). rewrite ES, E in NR. remember (10 ^ (s - k)) as x eqn:EX. clear EX. remember (2 ^ 1074) as t eqn:ET. clear ET.
    replace (n * x * t - grid b * (10 ^ k * x)) with ((n * t - grid b * 10 ^ k) * x) in NR by ring. rewrite Z.abs_mul, (Z.abs_eq x) in NR by lia.
    apply (Z.mul_le_mono_pos_r _ _ x); [exact P0|]. remember (Z.abs (n * t - grid b * 10 ^ k)) as u. remember (Z.abs (n' * 10 ^ m * t - grid b * 10 ^ k')) as v. clear - NR. lia.
Qed.

(* no zero at the end of the decimals *)
Lemma fixed_trim R s : 1 <= R -> 0 <= s -> exists n k, quantity (fixed R s) = Some (n, k) /\ 0 <= k <= s /\ R = n * 10 ^ (s - k) /\ (0 < k -> n mod 10 <> 0).
Proof.
  intros R1 S0. destruct (fixed_number R s R1 S0) as (n & k & Q & EK & K & E). exists n, k. splits; try assumption; try lia. intros P.
  destruct (end_zeros_all R R1) as (c & C & Z0 & M). assert (n = c) as ->; [|exact M].
  assert (Z1 : s - k = end_zeros R) by lia. rewrite Z1 in E. pose proof (Z.pow_pos_nonneg 10 (end_zeros R) ltac:(lia) Z0). apply (Z.mul_cancel_r _ _ (10 ^ end_zeros R)); lia.
Qed.

Lemma format_short b : finite b -> exists n k, quantity (format_float b) = Some (n, k) /\ rounds_to n k b /\ no_longer n k b /\ (0 < k -> n mod 10 <> 0).
Proof.
  intros F. destruct (Z.eq_dec b 0) as [->|B0].
  - exists 0, 0. destruct (format_tells 0 F) as (n & k & Q & R). change (quantity (format_float 0)) with (Some (0, 0)) in Q. injection Q as <- <-. splits; [reflexivity|exact R| |lia].
    unfold no_longer. cbv zeta. intros n' k' m K M _. exists 0. split; [lia|]. intros X. exfalso. apply X. reflexivity.
  - destruct (finite_parts b F) as (N & E & NI). unfold format_float. rewrite NI, N, E. unfold f_frac. assert (B : 1 <= b) by (unfold finite in F; lia).
    replace (if b / 2 ^ 52 =? 0 then (b mod 2 ^ 52, -1022) else (b mod 2 ^ 52 + 2 ^ 52, b / 2 ^ 52 - 1023)) with (mant_of b, unit_of b - 1022).
    2:{ unfold mant_of, unit_of. pose proof (Z.div_pos b (2 ^ 52) ltac:(lia) ltac:(lia)). destruct (b / 2 ^ 52 =? 0) eqn:X; f_equal; lia. }
    cbn [app]. pose proof (mant_bound b B) as MB. destruct (mant_of b =? 0) eqn:M; [lia|]. cbv zeta.
    set (s := Z.max 0 (54 - (unit_of b - 1022))). destruct (shortest_rounds b s B F eq_refl) as (R & R1).
    pose proof (shortest_no_longer b s B F eq_refl) as NL. destruct (fixed_trim _ s R1 ltac:(unfold s; lia)) as (n & k & Q & K & EQ & T). exists n, k.
    splits; [exact Q|exact (rounds_scale n k s b _ K EQ R)|exact (no_longer_scale _ s n k b K EQ NL)|exact T].
Qed.
