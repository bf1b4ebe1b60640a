(* Lemmas: the text of a float64 reads as the same float64. *)
From Coq Require Import String.
From Verif Require Import Base GoStrings M_float S_m3u8 S_float L_base L_strings L_m3u8.
From Coq Require Import ZifyBool ZifyNat.

Lemma pow10_pos w : 0 < 10 ^ Z.of_nat w.
Proof. apply Z.pow_pos_nonneg; lia. Qed.
Lemma pow10_succ w : 10 ^ (Z.of_nat w + 1) = 10 * 10 ^ Z.of_nat w.
Proof. rewrite Z.pow_add_r by lia. lia. Qed.
(* a digit *)
Lemma digit_step x P : 0 < P -> x / P = 10 * (x / (10 * P)) + (x / P) mod 10.
Proof. intros H. rewrite (Z.mul_comm 10 P), <- Z.div_div by lia. apply Z.div_mod. lia. Qed.

Definition inside (inclusive : bool) (lower r upper : Z) : Prop :=
  lower < r < upper \/ inclusive = true /\ lower <= r <= upper.

(* what is known about the digits seen so far, d and upper cut before weight w *)
Definition seen (delta a u : Z) : Prop :=
  delta = 0 /\ u = a \/ delta = 1 /\ u = a + 1 \/ delta = 2 /\ a + 2 <= u.


(* rounding down and up at a weight, with P for its power and quotients and remainders apart *)
Lemma down_inside P inclusive ql rl qd rd up : 0 < P -> 0 <= rl < P -> 0 <= rd < P -> ql * P + rl < qd * P + rd -> qd * P + rd < up ->
  (ql < qd \/ ql = qd /\ inclusive = true /\ rl = 0) -> inside inclusive (ql * P + rl) (qd * P) up.
Proof.
  intros P0 R1 R2 L U [X|(X & I & R0)]; unfold inside.
  - left. split; [|lia]. assert ((ql + 1) * P <= qd * P) by (apply Z.mul_le_mono_nonneg_r; lia). lia.
  - right. split; [exact I|]. subst. lia.
Qed.
Lemma up_inside P inclusive lo qd rd qu ru : 0 < P -> 0 <= rd < P -> 0 <= ru < P -> lo < qd * P + rd ->
  (qd + 2 <= qu \/ qu = qd + 1 /\ (inclusive = true \/ ru <> 0)) -> inside inclusive lo ((qd + 1) * P) (qu * P + ru).
Proof.
  intros P0 R1 R2 L [X|(X & [I|I])]; unfold inside.
  - left. assert ((qd + 2) * P <= qu * P) by (apply Z.mul_le_mono_nonneg_r; lia). lia.
  - right. split; [exact I|]. subst. lia.
  - left. subst. lia.
Qed.
(* the next digits *)
Definition next (delta m u : Z) : Z :=
  if (delta =? 0) && (m + 1 <? u) then 2 else if (delta =? 0) && negb (m =? u) then 1
  else if (delta =? 1) && (negb (m =? 9) || negb (u =? 0)) then 2 else delta.
Lemma seen_next delta a u x y : seen delta a u -> 0 <= x < 10 -> 0 <= y < 10 -> 10 * a + x <= 10 * u + y -> seen (next delta x y) (10 * a + x) (10 * u + y).
Proof.
  unfold seen, next. intros S X Y L.
  destruct ((delta =? 0) && (x + 1 <? y)) eqn:X1; [right; right; lia|]. destruct ((delta =? 0) && negb (x =? y)) eqn:X2; [right; left; lia|].
  destruct ((delta =? 1) && (negb (x =? 9) || negb (y =? 0))) eqn:X3; [right; right; lia|]. lia.
Qed.

Definition going (inclusive : bool) (l m rl : Z) : bool := negb (l =? m) || inclusive && ((rl =? 0) && negb (l =? 0)).
Definition rising (inclusive : bool) (delta ru : Z) : bool := (0 <? delta) && (inclusive || (1 <? delta) || negb (ru =? 0)).

Lemma walk_eq w inclusive lower d upper delta : let W := Z.of_nat w in let l := lower / 10 ^ W mod 10 in let m := d / 10 ^ W mod 10 in let u := upper / 10 ^ W mod 10 in
  walk w inclusive lower d upper delta =
  if d mod 10 ^ (W + 1) =? 0 then d
  else if going inclusive l m (lower mod 10 ^ W) && rising inclusive (next delta m u) (upper mod 10 ^ W) then round_near d W
  else if going inclusive l m (lower mod 10 ^ W) then round_down d W
  else if rising inclusive (next delta m u) (upper mod 10 ^ W) then round_up d W
  else match w with O => d | S w' => walk w' inclusive lower d upper (next delta m u) end.
Proof. destruct w; reflexivity. Qed.

Lemma near_inside d W (Q : Z -> Prop) : Q (round_down d W) -> Q (round_up d W) -> Q (round_near d W).
Proof. intros A B. unfold round_near. destruct (_ && _); [exact A|]. destruct (_ <=? _); assumption. Qed.

Lemma walk_inside w : forall inclusive lower d upper delta, 0 < lower -> lower < d < upper ->
  lower / 10 ^ (Z.of_nat w + 1) = d / 10 ^ (Z.of_nat w + 1) -> seen delta (d / 10 ^ (Z.of_nat w + 1)) (upper / 10 ^ (Z.of_nat w + 1)) ->
  inside inclusive lower (walk w inclusive lower d upper delta) upper.
Proof.
  induction w as [w IH] using lt_wf_ind; intros inclusive lower d upper delta L0 D EL SE. rewrite walk_eq. cbv zeta.
  destruct (d mod 10 ^ (Z.of_nat w + 1) =? 0) eqn:ED; [left; lia|]. clear ED.
  pose proof (pow10_pos w) as PP. rewrite pow10_succ in EL, SE. remember (10 ^ Z.of_nat w) as P eqn:EP.
  pose proof (digit_step lower P PP) as HL. pose proof (digit_step d P PP) as HD. pose proof (digit_step upper P PP) as HU.
  pose proof (Z.mod_pos_bound (lower / P) 10 ltac:(lia)) as Bl. pose proof (Z.mod_pos_bound (d / P) 10 ltac:(lia)) as Bm. pose proof (Z.mod_pos_bound (upper / P) 10 ltac:(lia)) as Bu.
  pose proof (Z.div_le_mono lower d P PP ltac:(lia)) as M1. pose proof (Z.div_le_mono d upper P PP ltac:(lia)) as M2.
  remember (lower / P mod 10) as l. remember (d / P mod 10) as m. remember (upper / P mod 10) as u.
  pose proof (seen_next delta _ _ m u SE Bm Bu ltac:(lia)) as S'. rewrite <- HD, <- HU in S'. remember (next delta m u) as delta'.
  pose proof (Z.div_mod lower P ltac:(lia)) as QL. pose proof (Z.mod_pos_bound lower P PP) as RL. pose proof (Z.div_mod d P ltac:(lia)) as QD. pose proof (Z.mod_pos_bound d P PP) as RD.
  pose proof (Z.div_mod upper P ltac:(lia)) as QU. pose proof (Z.mod_pos_bound upper P PP) as RU.
  assert (DN : going inclusive l m (lower mod P) = true -> inside inclusive lower (round_down d (Z.of_nat w)) upper).
  { intros X. unfold round_down. rewrite <- EP. replace lower with (lower / P * P + lower mod P) by lia.
    apply (down_inside P inclusive _ _ _ (d mod P)); try lia. unfold going in X. destruct (l =? m) eqn:LM.
    - right. cbn [negb orb] in X. destruct inclusive; [|discriminate X]. lia.
    - left. lia. }
  assert (UP : rising inclusive delta' (upper mod P) = true -> inside inclusive lower (round_up d (Z.of_nat w)) upper).
  { intros X. unfold round_up. rewrite <- EP. replace upper with (upper / P * P + upper mod P) by lia.
    apply (up_inside P inclusive _ _ (d mod P)); try lia. unfold rising in X. unfold seen in S'.
    destruct S' as [(X1 & X2)|[(X1 & X2)|(X1 & X2)]]; rewrite X1 in X; [discriminate X| |left; lia].
    right. split; [exact X2|]. destruct inclusive; [left; reflexivity|right]. cbn in X. lia. }
  destruct (going _ _ _ _) eqn:G; destruct (rising _ _ _) eqn:RR; cbn [andb].
  - apply near_inside; [exact (DN eq_refl)|exact (UP eq_refl)].
  - exact (DN eq_refl).
  - exact (UP eq_refl).
  - destruct w as [|w]; [left; lia|]. unfold going in G.
    assert (LM : l = m) by (destruct (l =? m) eqn:X; [lia|discriminate G]).
    assert (E1 : Z.of_nat w + 1 = Z.of_nat (S w)) by lia.
    apply IH; [lia|exact L0|exact D| |]; rewrite E1, <- EP; [lia|exact S'].
Qed.

(* ---- decimals of binary fractions ---- *)
Lemma scaled_value s x k T : 0 <= s -> - k <= s -> - k <= T -> 0 <= T -> scaled s x k * 2 ^ T = x * 2 ^ (k + T) * 10 ^ s.
Proof.
  intros S0 KS KT T0. unfold scaled. destruct (0 <=? k) eqn:E.
  - rewrite Z.pow_add_r by lia. ring.
  - assert (E10 : 10 ^ s = 2 ^ (- k) * (2 ^ (s + k) * 5 ^ s)).
    { change 10 with (2 * 5). rewrite Z.pow_mul_l. replace s with (- k + (s + k)) at 1 by lia. rewrite Z.pow_add_r by lia. ring. }
    assert (E2 : 2 ^ T = 2 ^ (k + T) * 2 ^ (- k)) by (rewrite <- Z.pow_add_r by lia; f_equal; lia).
    rewrite E10 at 1. replace (x * (2 ^ (- k) * (2 ^ (s + k) * 5 ^ s))) with (x * (2 ^ (s + k) * 5 ^ s) * 2 ^ (- k)) by ring.
    rewrite Z.div_mul by (pose proof (Z.pow_pos_nonneg 2 (- k)); lia). rewrite E2, E10. ring.
Qed.

(* ---- the numbers in their order ---- *)
Definition unit_of (b : Z) : Z := Z.max (b / 2 ^ 52) 1 - 1.
Definition mant_of (b : Z) : Z := if b / 2 ^ 52 =? 0 then b mod 2 ^ 52 else b mod 2 ^ 52 + 2 ^ 52.
Lemma pow52 : 2 ^ 52 = 4503599627370496.
Proof. reflexivity. Qed.
Lemma grid_mant b : 0 <= b -> grid b = mant_of b * 2 ^ unit_of b.
Proof.
  intros B. unfold grid, mant_of, unit_of. cbv zeta. pose proof (Z.div_pos b (2 ^ 52) B ltac:(lia)) as D.
  destruct (b / 2 ^ 52 =? 0) eqn:E.
  - replace (Z.max (b / 2 ^ 52) 1 - 1) with 0 by lia. lia.
  - replace (Z.max (b / 2 ^ 52) 1 - 1) with (b / 2 ^ 52 - 1) by lia. ring.
Qed.
Lemma grid_next b : 0 <= b -> grid (b + 1) = grid b + 2 ^ unit_of b.
Proof.
  intros B. pose proof (Z.div_mod b (2 ^ 52) ltac:(lia)) as Q. pose proof (Z.mod_pos_bound b (2 ^ 52) ltac:(lia)) as R. pose proof (Z.div_pos b (2 ^ 52) B ltac:(lia)) as D.
  unfold grid, unit_of. cbv zeta. remember (b / 2 ^ 52) as e eqn:Ee. remember (b mod 2 ^ 52) as f eqn:Ef. clear Ee Ef.
  destruct (Z.eq_dec f (2 ^ 52 - 1)) as [L|L].
  - assert (X1 : (b + 1) / 2 ^ 52 = e + 1) by (symmetry; apply (Z.div_unique _ _ _ 0); lia).
    assert (X2 : (b + 1) mod 2 ^ 52 = 0) by (symmetry; apply (Z.mod_unique _ _ (e + 1)); lia).
    rewrite X1, X2, (proj2 (Z.eqb_neq (e + 1) 0)) by lia. replace (e + 1 - 1) with e by lia. destruct (e =? 0) eqn:E.
    + assert (e = 0) by lia. subst e. cbn [Z.max Z.sub]. change (2 ^ (Z.max 0 1 - 1)) with 1. change (2 ^ 0) with 1. lia.
    + replace (Z.max e 1 - 1) with (e - 1) by lia. replace (2 ^ e) with (2 * 2 ^ (e - 1)) by (rewrite <- (Z.pow_succ_r 2 (e - 1)) by lia; f_equal; lia).
      rewrite L, pow52. ring.
  - assert (X1 : (b + 1) / 2 ^ 52 = e) by (symmetry; apply (Z.div_unique _ _ _ (f + 1)); lia).
    assert (X2 : (b + 1) mod 2 ^ 52 = f + 1) by (symmetry; apply (Z.mod_unique _ _ e); lia).
    rewrite X1, X2. destruct (e =? 0) eqn:E.
    + replace (Z.max e 1 - 1) with 0 by lia. lia.
    + replace (Z.max e 1 - 1) with (e - 1) by lia. ring.
Qed.
Lemma unit_pos b : 0 < 2 ^ unit_of b.
Proof. apply Z.pow_pos_nonneg; unfold unit_of; lia. Qed.
Lemma grid_mono_nat k : forall b, 0 <= b -> grid b + Z.of_nat k <= grid (b + Z.of_nat k).
Proof.
  induction k as [|k IH]; intros b B; [rewrite !Z.add_0_r; lia|].
  replace (b + Z.of_nat (S k)) with (b + Z.of_nat k + 1) by lia. rewrite grid_next by lia. pose proof (IH b B). pose proof (unit_pos (b + Z.of_nat k)). lia.
Qed.
Lemma grid_mono a b : 0 <= a <= b -> grid a + (b - a) <= grid b.
Proof. intros H. pose proof (grid_mono_nat (Z.to_nat (b - a)) a ltac:(lia)) as X. rewrite Z2Nat.id in X by lia. replace (a + (b - a)) with b in X by lia. exact X. Qed.
Lemma grid_nonneg b : 0 <= b -> b <= grid b.
Proof. intros B. pose proof (grid_mono 0 b ltac:(lia)) as X. change (grid 0) with 0 in X. lia. Qed.

(* what is nearer to b than the middles of b and its neighbours rounds to b *)
Lemma inside_rounds n s b lower upper : 1 <= b -> 0 <= s -> lower * 2 ^ 1075 = (grid (b - 1) + grid b) * 10 ^ s ->
  upper * 2 ^ 1075 = (grid b + grid (b + 1)) * 10 ^ s -> inside (Z.even b) lower n upper -> rounds_to n s b.
Proof.
  intros B S0 HL HU H. unfold rounds_to. cbv zeta. change 1075 with (Z.succ 1074) in HL, HU. rewrite (Z.pow_succ_r 2 1074) in HL, HU by lia.
  pose proof (Z.pow_pos_nonneg 2 1074 ltac:(lia) ltac:(lia)) as P0. pose proof (Z.pow_pos_nonneg 10 s ltac:(lia) S0) as D0.
  remember (2 ^ 1074) as p eqn:Hp. clear Hp.
  remember (10 ^ s) as q. clear Heqq. intros x X NX.
  assert (Lo : lower * (2 * p) <= n * (2 * p)) by (apply Z.mul_le_mono_nonneg_r; unfold inside in H; lia).
  assert (Up : n * (2 * p) <= upper * (2 * p)) by (apply Z.mul_le_mono_nonneg_r; unfold inside in H; lia).
  assert (Strict : Z.even b = true \/ lower * (2 * p) < n * (2 * p) /\ n * (2 * p) < upper * (2 * p)).
  { destruct H as [H|(H & _)]; [right; split; apply Z.mul_lt_mono_pos_r; lia|left; exact H]. }
  rewrite HL in Lo, Strict. rewrite HU in Up, Strict. clear HL HU H.
  destruct (Z.lt_total x b) as [C|[C|C]]; [|lia|].
  - pose proof (grid_mono x (b - 1) ltac:(lia)) as G. pose proof (grid_mono (b - 1) b ltac:(lia)) as G2.
    assert (G3 : grid x * q <= grid (b - 1) * q) by (apply Z.mul_le_mono_nonneg_r; lia).
    assert (G4 : grid (b - 1) * q < grid b * q) by (apply Z.mul_lt_mono_pos_r; lia).
    destruct Strict as [E|(E1 & E2)]; [|left; lia]. destruct (Z.eq_dec (Z.abs (n * p - grid b * q)) (Z.abs (n * p - grid x * q))); [right; split; assumption|left; lia].
  - pose proof (grid_mono (b + 1) x ltac:(lia)) as G. pose proof (grid_mono b (b + 1) ltac:(lia)) as G2.
    assert (G3 : grid (b + 1) * q <= grid x * q) by (apply Z.mul_le_mono_nonneg_r; lia).
    assert (G4 : grid b * q < grid (b + 1) * q) by (apply Z.mul_lt_mono_pos_r; lia).
    destruct Strict as [E|(E1 & E2)]; [|left; lia]. destruct (Z.eq_dec (Z.abs (n * p - grid b * q)) (Z.abs (n * p - grid x * q))); [right; split; assumption|left; lia].
Qed.

Lemma rounds_scale n k s b R : 0 <= k <= s -> R = n * 10 ^ (s - k) -> rounds_to R s b -> rounds_to n k b.
Proof.
  unfold rounds_to. cbv zeta. intros K E H x X NX. specialize (H x X NX).
  assert (E2 : 10 ^ s = 10 ^ k * 10 ^ (s - k)) by (rewrite <- Z.pow_add_r by lia; f_equal; lia).
  pose proof (Z.pow_pos_nonneg 10 (s - k) ltac:(lia) ltac:(lia)) as D0. remember (10 ^ (s - k)) as q eqn:Q. clear Q.
  assert (F : forall y, Z.abs (R * 2 ^ 1074 - grid y * 10 ^ s) = Z.abs (n * 2 ^ 1074 - grid y * 10 ^ k) * q).
  { intros y. rewrite E2, E. transitivity (Z.abs (n * 2 ^ 1074 - grid y * 10 ^ k) * Z.abs q); [rewrite <- Z.abs_mul; f_equal; ring|]. rewrite (Z.abs_eq q) by lia. reflexivity. }
  rewrite !F in H. destruct H as [H|(H & EV)]; [left; apply Z.mul_lt_mono_pos_r in H; lia|right; split; [apply Z.mul_cancel_r in H; lia|exact EV]].
Qed.

(* ---- digits ---- *)
Lemma fold_digits s : forall a, fold_left (fun a c => a * 10 + (c - 48)) s a = a * 10 ^ zlen s + dec_value s.
Proof.
  unfold dec_value. induction s as [|c s IH]; intros a; [cbn [fold_left]; change (zlen []) with 0; lia|].
  cbn [fold_left]. rewrite IH, (IH (0 * 10 + (c - 48))), zlen_cons, Z.pow_add_r by (pose proof (zlen_nonneg s); lia). ring.
Qed.
Lemma dec_value_cons c s : dec_value (c :: s) = (c - 48) * 10 ^ zlen s + dec_value s.
Proof. unfold dec_value at 1. cbn [fold_left]. rewrite fold_digits. ring. Qed.
Lemma dec_value_bound s : all_digits s -> 0 <= dec_value s < 10 ^ zlen s.
Proof.
  induction s as [|c s IH]; intros A; [change (dec_value []) with 0; change (zlen []) with 0; lia|].
  inversion A as [|? ? Hc Hs]; subst. pose proof (IH Hs) as B. rewrite dec_value_cons, zlen_cons, Z.pow_add_r by (pose proof (zlen_nonneg s); lia).
  pose proof (Z.mul_le_mono_nonneg_r (c - 48) 9 (10 ^ zlen s) ltac:(lia) ltac:(lia)). pose proof (Z.mul_nonneg_nonneg (c - 48) (10 ^ zlen s) ltac:(lia) ltac:(lia)). lia.
Qed.
Lemma dec_value_zeros k s : dec_value (repeat 48 k ++ s) = dec_value s.
Proof. induction k as [|k IH]; [reflexivity|]. cbn [repeat app]. rewrite dec_value_cons, IH. ring. Qed.
Lemma decimal_digits s : s <> [] -> all_digits s -> decimal s = Some (dec_value s).
Proof.
  intros N A. unfold decimal. destruct s as [|c s]; [contradiction|]. replace (forallb _ (c :: s)) with true; [reflexivity|].
  symmetry. apply forallb_forall. intros x X. pose proof (proj1 (Forall_forall _ _) A x X) as B. cbn beta in B. lia.
Qed.
Lemma digits_length n p : 0 <= n < 10 ^ p -> 1 <= p -> zlen (digits n) <= p.
Proof.
  intros N P. destruct (digits_spec n ltac:(lia)) as (A & NE & V & HD). destruct (Z.eq_dec n 0) as [->|N0]; [change (digits 0) with [48]; change (zlen [48]) with 1; lia|].
  specialize (HD ltac:(lia)). destruct (digits n) as [|c s]; [contradiction|]. cbn [hd] in HD. inversion A as [|? ? Hc Hs]; subst x l.
  rewrite dec_value_cons in V. pose proof (dec_value_bound s Hs). rewrite zlen_cons. pose proof (zlen_nonneg s).
  destruct (Z.le_gt_cases (zlen s + 1) p) as [L|L]; [exact L|].
  pose proof (Z.pow_le_mono_r 10 p (zlen s) ltac:(lia) ltac:(lia)). pose proof (Z.mul_le_mono_nonneg_r 1 (c - 48) (10 ^ zlen s) ltac:(lia) ltac:(lia)). lia.
Qed.
Lemma digits_below n : 0 <= n -> n < 10 ^ (Z.of_nat (length (digits n) - 1) + 1).
Proof.
  intros N. destruct (digits_spec n N) as (A & NE & V & _). pose proof (dec_value_bound _ A) as B. rewrite V in B. unfold zlen in B.
  replace (Z.of_nat (length (digits n) - 1) + 1) with (Z.of_nat (length (digits n))) by (destruct (digits n); [contradiction|cbn [length]; lia]). lia.
Qed.
Lemma zeros_spec k : forall n, exists m, n = m * 10 ^ zeros k n /\ 0 <= zeros k n.
Proof.
  induction k as [|k IH]; intros n; [exists n; cbn [zeros]; lia|]. cbn [zeros]. destruct (n mod 10 =? 0) eqn:E; [|exists n; lia].
  destruct (IH (n / 10)) as (m & E1 & E2). exists m. split; [|lia]. rewrite Z.pow_add_r by lia. pose proof (Z.div_mod n 10 ltac:(lia)). lia.
Qed.

(* ---- the text ---- *)
Lemma not_in_digits c s : all_digits s -> c < 48 -> ~ In c s.
Proof. intros A C H. pose proof (proj1 (Forall_forall _ _) A c H) as X. cbn beta in X. lia. Qed.
Lemma behind_absent c s : ~ In c s -> behind c s = None.
Proof.
  induction s as [|x s IH]; intros H; [reflexivity|]. cbn [behind]. destruct (x =? c) eqn:E; [exfalso; apply H; left; lia|]. apply IH. intros X. apply H. right. exact X.
Qed.
Lemma itoa_digits n : 0 <= n -> itoa n = digits n.
Proof. intros N. unfold itoa. destruct (n <? 0) eqn:E; [lia|reflexivity]. Qed.

Lemma fixed_number R s : 1 <= R -> 0 <= s -> exists n k, quantity (fixed R s) = Some (n, k) /\ k = Z.max 0 (s - end_zeros R) /\ 0 <= k <= s /\ R = n * 10 ^ (s - k).
Proof.
  intros R1 S0. unfold fixed. rewrite (proj2 (Z.eqb_neq R 0)) by lia. cbv zeta. unfold end_zeros.
  destruct (zeros_spec (S (Z.to_nat (Z.log2 R))) R) as (m & E & Z0). remember (zeros (S (Z.to_nat (Z.log2 R))) R) as z eqn:Ez. clear Ez.
  pose proof (Z.pow_pos_nonneg 10 s ltac:(lia) S0) as D0. pose proof (Z.div_pos R (10 ^ s) ltac:(lia) D0) as Q0. rewrite itoa_digits by exact Q0.
  destruct (digits_spec (R / 10 ^ s) Q0) as (A & NE & V & _).
  destruct (0 <? Z.max 0 (s - z)) eqn:P.
  - replace (Z.max 0 (s - z)) with (s - z) by lia. replace (s - (s - z)) with z by lia.
    pose proof (Z.pow_pos_nonneg 10 z ltac:(lia) Z0) as D1. pose proof (Z.pow_pos_nonneg 10 (s - z) ltac:(lia) ltac:(lia)) as D2.
    assert (ES : 10 ^ s = 10 ^ (s - z) * 10 ^ z) by (rewrite <- Z.pow_add_r by lia; f_equal; lia).
    pose proof (Z.mod_pos_bound R (10 ^ s) D0) as RB. pose proof (Z.div_mod R (10 ^ s) ltac:(lia)) as QR.
    assert (X0 : 0 <= R mod 10 ^ s / 10 ^ z) by (apply Z.div_pos; lia).
    assert (X1 : R mod 10 ^ s / 10 ^ z < 10 ^ (s - z)) by (apply Z.div_lt_upper_bound; lia).
    assert (XE : R mod 10 ^ s = R mod 10 ^ s / 10 ^ z * 10 ^ z).
    { assert (RM : R mod 10 ^ s = (m - R / 10 ^ s * 10 ^ (s - z)) * 10 ^ z).
      { rewrite Z.mul_sub_distr_r, <- E, <- Z.mul_assoc, <- ES. lia. }
      rewrite RM, Z.div_mul by lia. reflexivity. }
    remember (R mod 10 ^ s / 10 ^ z) as x eqn:Ex. destruct (digits_spec x X0) as (A2 & NE2 & V2 & _). pose proof (digits_length x (s - z) ltac:(lia) ltac:(lia)) as LX.
    set (f := repeat 48 (Z.to_nat (s - z) - length (digits x)) ++ digits x).
    assert (LF : zlen f = s - z). { unfold f, zlen. rewrite app_length, repeat_length. unfold zlen in LX. lia. }
    assert (AF : all_digits f). { apply Forall_app. split; [|exact A2]. apply Forall_forall. intros y Y. apply repeat_spec in Y. lia. }
    assert (NF : f <> []). { intros Y. apply NE2. unfold f in Y. apply app_eq_nil in Y. apply Y. }
    exists (R / 10 ^ s * 10 ^ (s - z) + x), (s - z). split.
    + unfold quantity. change (bs "." ++ f) with (46 :: f). rewrite behind_app, before_app by (apply not_in_digits; [exact A|lia]).
      rewrite !decimal_digits by assumption. unfold f at 2. rewrite dec_value_zeros, V, V2, LF. reflexivity.
    + split; [lia|]. split; [lia|]. replace (s - (s - z)) with z by lia. rewrite Z.mul_add_distr_r, <- Z.mul_assoc, <- ES. lia.
  - exists (R / 10 ^ s), 0. split.
    + rewrite app_nil_r. unfold quantity. rewrite behind_absent by (apply not_in_digits; [exact A|lia]). rewrite decimal_digits, V by assumption. reflexivity.
    + split; [lia|]. split; [lia|]. rewrite Z.sub_0_r. rewrite E at 1. rewrite E. assert (EZ : 10 ^ z = 10 ^ (z - s) * 10 ^ s) by (rewrite <- Z.pow_add_r by lia; f_equal; lia).
      rewrite EZ, Z.mul_assoc, Z.div_mul by lia. reflexivity.
Qed.

Lemma format_chars b c : In c (format_float b) -> c <> 10 /\ c <> 44.
Proof.
  assert (DG : forall n, In c (digits n) -> 0 <= n -> c <> 10 /\ c <> 44).
  { intros n H N. destruct (digits_spec n N) as (A & _). pose proof (proj1 (Forall_forall _ _) A c H) as X. cbn beta in X. lia. }
  unfold format_float. destruct (f_exp b =? 2047).
  - destruct (negb _); [|destruct (f_neg b)]; cbn; intros H; lia.
  - destruct (if f_exp b =? 0 then _ else _) as [mant exp]. intros H. apply in_app_or in H as [H|H]; [destruct (f_neg b); cbn in H; lia|].
    destruct (mant =? 0); [cbn in H; lia|]. unfold fixed in H. destruct (_ =? 0); [cbn in H; lia|]. cbv zeta in H.
    apply in_app_or in H as [H|H].
    + apply itoa_chars in H. lia.
    + destruct (0 <? _); [|contradiction]. apply in_app_or in H as [H|H]; [cbn in H; lia|]. apply in_app_or in H as [H|H]; [apply repeat_spec in H; lia|].
      refine (DG _ H _). unfold end_zeros. match goal with |- context [zeros ?a ?n] => destruct (zeros_spec a n) as (m0 & _ & Z0) end.
      apply Z.div_pos; [apply Z.mod_pos_bound|]; apply Z.pow_pos_nonneg; lia.
Qed.

(* ---- the shortest decimal is inside ---- *)
Lemma even_add52 f : (f + 2 ^ 52) mod 2 = f mod 2.
Proof. change (2 ^ 52) with (2 ^ 51 * 2). apply Z.mod_add. lia. Qed.
Lemma mant_even b : 0 <= b -> (mant_of b mod 2 =? 0) = Z.even b.
Proof.
  intros B. assert (E : b mod 2 ^ 52 mod 2 = b mod 2).
  { rewrite (Z.div_mod b (2 ^ 52)) at 2 by lia. replace (2 ^ 52 * (b / 2 ^ 52) + b mod 2 ^ 52) with (b mod 2 ^ 52 + (2 ^ 51 * (b / 2 ^ 52)) * 2).
    - symmetry. apply Z.mod_add. lia.
    - change (2 ^ 52) with (2 ^ 51 * 2). ring. }
  rewrite Zeven_mod. unfold mant_of. destruct (b / 2 ^ 52 =? 0); rewrite ?even_add52, E; unfold Zeq_bool; destruct (b mod 2); reflexivity.
Qed.

(* the numbers that roundShortest works with *)
Lemma shortest_eq b s : 1 <= b -> finite b -> s = Z.max 0 (54 - (unit_of b - 1022)) -> exists lower d upper,
  d = scaled s (mant_of b) (unit_of b - 1022 - 52) /\ d * 2 ^ 1075 = 2 * grid b * 10 ^ s /\
  lower * 2 ^ 1075 = (grid (b - 1) + grid b) * 10 ^ s /\ upper * 2 ^ 1075 = (grid b + grid (b + 1)) * 10 ^ s /\ 0 < lower /\ lower < d < upper /\
  shortest s (mant_of b) (unit_of b - 1022) =
    if (-1022 <? unit_of b - 1022) && (100 * (unit_of b - 1022 - 52) <=? 332 * (end_zeros d - s)) then d
    else walk (length (digits upper) - 1) (Z.even b) lower d upper 0.
Proof.
  intros B F ES. assert (S0 : 0 <= s) by lia. pose proof (Z.pow_pos_nonneg 10 s ltac:(lia) S0) as D0. pose proof (Z.pow_pos_nonneg 2 1075 ltac:(lia) ltac:(lia)) as T0.
  pose proof (grid_mant b ltac:(lia)) as G. pose proof (grid_next b ltac:(lia)) as GN. pose proof (unit_pos b) as U0. pose proof (grid_mono (b - 1) b ltac:(lia)) as GM. pose proof (grid_nonneg (b - 1) ltac:(lia)) as GP.
  assert (UN : 0 <= unit_of b) by (unfold unit_of; lia).
  set (exp := unit_of b - 1022) in *. set (mant := mant_of b) in *.
  assert (HD : scaled s mant (exp - 52) * 2 ^ 1075 = 2 * grid b * 10 ^ s).
  { rewrite scaled_value by lia. replace (exp - 52 + 1075) with (Z.succ (unit_of b)) by lia. rewrite Z.pow_succ_r, G by lia. ring. }
  assert (HU : scaled s (mant * 2 + 1) (exp - 53) * 2 ^ 1075 = (grid b + grid (b + 1)) * 10 ^ s).
  { rewrite scaled_value by lia. replace (exp - 53 + 1075) with (unit_of b) by lia. rewrite GN, G. ring. }
  set (lo := if (2 ^ 52 <? mant) || (exp =? -1022) then (mant - 1, exp) else (mant * 2 - 1, exp - 1)).
  assert (HL : scaled s (fst lo * 2 + 1) (snd lo - 53) * 2 ^ 1075 = (grid (b - 1) + grid b) * 10 ^ s).
  { pose proof (Z.div_mod b (2 ^ 52) ltac:(lia)) as Q. pose proof (Z.mod_pos_bound b (2 ^ 52) ltac:(lia)) as R. pose proof (Z.div_pos b (2 ^ 52) ltac:(lia) ltac:(lia)) as DP.
    pose proof (grid_next (b - 1) ltac:(lia)) as GL. replace (b - 1 + 1) with b in GL by lia.
    unfold lo. destruct ((2 ^ 52 <? mant) || (exp =? -1022)) eqn:C; cbn [fst snd].
    - assert (EU : unit_of (b - 1) = unit_of b).
      { unfold unit_of. destruct (Z.eq_dec (b mod 2 ^ 52) 0) as [M0|M0].
        - assert (E1 : b / 2 ^ 52 <= 1). { unfold mant, mant_of in C. unfold exp, unit_of in C. destruct (b / 2 ^ 52 =? 0) eqn:X; lia. }
          assert ((b - 1) / 2 ^ 52 <= 1) by (apply Z.div_le_upper_bound; lia). lia.
        - replace ((b - 1) / 2 ^ 52) with (b / 2 ^ 52); [reflexivity|]. apply (Z.div_unique _ _ _ (b mod 2 ^ 52 - 1)); lia. }
      rewrite scaled_value by lia. replace (exp - 53 + 1075) with (unit_of b) by lia. rewrite EU in GL.
      replace (grid (b - 1)) with (grid b - 2 ^ unit_of b) by lia. rewrite G. ring.
    - assert (M0 : b mod 2 ^ 52 = 0 /\ 2 <= b / 2 ^ 52). { unfold mant, mant_of in C. unfold exp, unit_of in C. destruct (b / 2 ^ 52 =? 0) eqn:X; lia. }
      destruct M0 as [M0 M1].
      assert (EU : unit_of (b - 1) = unit_of b - 1).
      { unfold unit_of. replace ((b - 1) / 2 ^ 52) with (b / 2 ^ 52 - 1); [lia|]. apply (Z.div_unique _ _ _ (2 ^ 52 - 1)); lia. }
      assert (U1 : 1 <= unit_of b) by (unfold unit_of; lia).
      rewrite scaled_value by lia. replace (exp - 1 - 53 + 1075) with (unit_of b - 1) by lia. rewrite EU in GL.
      replace (grid (b - 1)) with (grid b - 2 ^ (unit_of b - 1)) by lia. rewrite G.
      replace (2 ^ unit_of b) with (2 * 2 ^ (unit_of b - 1)) by (rewrite <- (Z.pow_succ_r 2 (unit_of b - 1)) by lia; f_equal; lia). ring. }
  unfold shortest. fold lo. destruct lo as [mantlo explo]. cbn [fst snd] in HL. cbv zeta.
  set (d := scaled s mant (exp - 52)) in *. set (upper := scaled s (mant * 2 + 1) (exp - 53)) in *. set (lower := scaled s (mantlo * 2 + 1) (explo - 53)) in *.
  exists lower, d, upper. assert (ORD : 0 < lower /\ lower < d < upper).
  { clearbody d upper lower. remember (2 ^ 1075) as T. remember (10 ^ s) as q. clear HeqT Heqq.
    assert (X0 : 0 < (grid (b - 1) + grid b) * q) by (apply Z.mul_pos_pos; lia).
    assert (X1 : (grid (b - 1) + grid b) * q < 2 * grid b * q) by (apply Z.mul_lt_mono_pos_r; lia).
    assert (X2 : 2 * grid b * q < (grid b + grid (b + 1)) * q) by (apply Z.mul_lt_mono_pos_r; lia).
    rewrite <- HL in X0, X1. rewrite <- HD in X1, X2. rewrite <- HU in X2. splits.
    - apply (Z.mul_pos_cancel_r lower T); lia.
    - apply (Z.mul_lt_mono_pos_r T); lia.
    - apply (Z.mul_lt_mono_pos_r T); lia. }
  destruct ORD as (L0 & OD1 & OD2). splits; try assumption; try reflexivity. unfold mant. rewrite mant_even by lia. reflexivity.
Qed.
Lemma shortest_rounds b s : 1 <= b -> finite b -> s = Z.max 0 (54 - (unit_of b - 1022)) ->
  rounds_to (shortest s (mant_of b) (unit_of b - 1022)) s b /\ 1 <= shortest s (mant_of b) (unit_of b - 1022).
Proof.
  intros B F ES. destruct (shortest_eq b s B F ES) as (lower & d & upper & _ & _ & HL & HU & L0 & OD & ->). assert (S0 : 0 <= s) by lia.
  match goal with |- rounds_to ?r _ _ /\ _ => assert (IN : inside (Z.even b) lower r upper) end.
  { destruct (_ && _); [left; exact OD|].
    pose proof (digits_below upper ltac:(lia)) as UB. remember (10 ^ (Z.of_nat (length (digits upper) - 1) + 1)) as P eqn:EP.
    apply walk_inside; [exact L0|exact OD| |]; rewrite <- EP; rewrite !Z.div_small by lia; [reflexivity|left; split; reflexivity]. }
  split; [exact (inside_rounds _ s b lower upper B S0 HL HU IN)|]. destruct IN as [IN|(_ & IN)]; lia.
Qed.

(* ---- a finite number that is not negative ---- *)
Lemma finite_parts b : finite b -> f_neg b = false /\ f_exp b = b / 2 ^ 52 /\ (f_exp b =? 2047) = false.
Proof.
  unfold finite, infinity. intros F. pose proof (Z.div_pos b (2 ^ 52) ltac:(lia) ltac:(lia)). assert (b / 2 ^ 52 < 2047) by (apply Z.div_lt_upper_bound; lia).
  assert (E : f_exp b = b / 2 ^ 52) by (unfold f_exp; apply Z.mod_small; lia). splits; [|exact E|rewrite E; lia].
  unfold f_neg. rewrite Z.div_small by lia. reflexivity.
Qed.
Lemma format_tells b : finite b -> tells (format_float b) b.
Proof.
  intros F. destruct (finite_parts b F) as (N & E & NI). unfold format_float. rewrite NI, N, E. unfold f_frac.
  destruct (Z.eq_dec b 0) as [->|B0].
  - exists 0, 0. split; [reflexivity|]. intros x X NX. left. change (grid 0) with 0. pose proof (grid_nonneg x ltac:(lia)). remember (2 ^ 1074) as p. lia.
  - assert (B : 1 <= b) by (unfold finite in F; lia).
    replace (if b / 2 ^ 52 =? 0 then (b mod 2 ^ 52, -1022) else (b mod 2 ^ 52 + 2 ^ 52, b / 2 ^ 52 - 1023)) with (mant_of b, unit_of b - 1022).
    2:{ unfold mant_of, unit_of. pose proof (Z.div_pos b (2 ^ 52) ltac:(lia) ltac:(lia)). destruct (b / 2 ^ 52 =? 0) eqn:X; f_equal; lia. }
    cbn [app]. pose proof (grid_mant b ltac:(lia)) as G. pose proof (grid_nonneg b ltac:(lia)) as GP.
    destruct (mant_of b =? 0) eqn:M; [exfalso; assert (M0 : mant_of b = 0) by lia; rewrite M0 in G; lia|]. cbv zeta.
    set (s := Z.max 0 (54 - (unit_of b - 1022))). destruct (shortest_rounds b s B F eq_refl) as (R & R1).
    destruct (fixed_number _ s R1 ltac:(unfold s; lia)) as (n & k & Q & _ & K & EQ). exists n, k. split; [exact Q|]. exact (rounds_scale n k s b _ K EQ R).
Qed.
Lemma format_ok : duration_ok format_float.
Proof. intros d. split; intros H; apply format_chars in H; lia. Qed.

(* ---- the rest ---- *)
Lemma quantity_head c r : c <> 46 -> ~ 48 <= c <= 57 -> quantity (c :: r) = None.
Proof.
  intros D N. assert (X : forall s, decimal (c :: s) = None).
  { intros s. unfold decimal. cbn [forallb]. replace ((48 <=? c) && (c <=? 57)) with false by lia. reflexivity. }
  unfold quantity. destruct (behind 46 (c :: r)); [|rewrite X; reflexivity]. cbn [before]. rewrite (proj2 (Z.eqb_neq c 46)) by lia. rewrite X. reflexivity.
Qed.
Lemma format_else b : infinity <= b < 2 ^ 64 -> quantity (format_float b) = None.
Proof.
  unfold infinity. intros B. unfold format_float. destruct (f_exp b =? 2047) eqn:E; [destruct (negb _); [reflexivity|destruct (f_neg b); reflexivity]|].
  assert (N : f_neg b = true).
  { unfold f_neg. destruct (Z.lt_ge_cases b (2 ^ 63)) as [L|L].
    - exfalso. assert (X : b / 2 ^ 52 = 2047) by (symmetry; apply (Z.div_unique _ _ _ (b - 2047 * 2 ^ 52)); lia). unfold f_exp in E. rewrite X in E. discriminate E.
    - replace (b / 2 ^ 63) with 1; [reflexivity|]. apply (Z.div_unique _ _ _ (b - 2 ^ 63)); lia. }
  rewrite N. destruct (if f_exp b =? 0 then _ else _) as [mant exp]. cbv zeta. change (bs "-") with [45]. cbn [app]. apply quantity_head; lia.
Qed.

(* a number stands for one float64 at most *)
Lemma rounds_less n k d e : 0 <= k -> 0 <= d < e -> e <= infinity -> rounds_to n k d -> rounds_to n k e -> False.
Proof.
  unfold rounds_to. cbv zeta. intros K D E R R'. pose proof (Z.pow_pos_nonneg 10 k ltac:(lia) K) as Q.
  pose proof (R e ltac:(lia) ltac:(lia)) as R1. pose proof (R' d ltac:(lia) ltac:(lia)) as R2.
  assert (V : Z.even d = true /\ Z.even e = true) by (destruct R1 as [R1|(R1 & V)]; destruct R2 as [R2|(R2 & V')]; try lia; split; assumption).
  assert (D1 : d + 1 <> e) by (intros X; destruct V as [V1 V2]; rewrite <- X, Z.even_add, V1 in V2; discriminate V2).
  pose proof (R (d + 1) ltac:(lia) ltac:(lia)) as R3. pose proof (grid_mono d (d + 1) ltac:(lia)) as G1. pose proof (grid_mono (d + 1) e ltac:(lia)) as G2.
  remember (10 ^ k) as q. remember (2 ^ 1074) as p. clear R R' Heqq Heqp.
  assert (grid d * q < grid (d + 1) * q) by (apply Z.mul_lt_mono_pos_r; lia). assert (grid (d + 1) * q < grid e * q) by (apply Z.mul_lt_mono_pos_r; lia). lia.
Qed.
Lemma quantity_places t n k : quantity t = Some (n, k) -> 0 <= k.
Proof.
  unfold quantity. destruct (behind 46 t) as [f|].
  - destruct (decimal (before 46 t)); [|discriminate]. destruct (decimal f); [|discriminate]. intros H. injection H as _ <-. apply zlen_nonneg.
  - destruct (decimal t); [|discriminate]. intros H. injection H as _ <-. lia.
Qed.
Lemma tells_one t d e : 0 <= d <= infinity -> 0 <= e <= infinity -> tells t d -> tells t e -> d = e.
Proof.
  intros D E (n & k & Q & R) (n' & k' & Q' & R'). rewrite Q in Q'. injection Q' as <- <-. pose proof (quantity_places t n k Q) as K.
  destruct (Z.lt_total d e) as [C|[C|C]]; [exfalso; exact (rounds_less n k d e K ltac:(lia) ltac:(lia) R R')|exact C|exfalso; exact (rounds_less n k e d K ltac:(lia) ltac:(lia) R' R)].
Qed.

(* ---- in a playlist ---- *)
Lemma Forall2_seq {A B} (R : A -> B -> Prop) (f : nat -> A) (d0 : B) l : forall n, (forall j, (j < length l)%nat -> R (f (n + j)%nat) (nth j l d0)) ->
  Forall2 R (map f (seq n (length l))) l.
Proof.
  induction l as [|x l IH]; intros n H; cbn [length seq map]; [constructor|]. constructor.
  - pose proof (H 0%nat ltac:(cbn [length]; lia)) as X. rewrite Nat.add_0_r in X. exact X.
  - apply IH. intros j J. pose proof (H (S j) ltac:(cbn [length]; lia)) as X. rewrite Nat.add_succ_r in X. exact X.
Qed.
Lemma nth_skipn_add {A} (d0 : A) m : forall l j, nth j (skipn m l) d0 = nth (m + j) l d0.
Proof. induction m as [|m IH]; intros [|x l] j; try reflexivity; [destruct j; reflexivity|apply IH]. Qed.
Lemma heard_durations (R : bytes -> Z -> Prop) fmt uri k h : (forall e, In e h -> R (fmt (fst e)) (fst e)) ->
  Forall2 (fun g e => R (g_dur g) (fst e)) (map (fun i => as_heard fmt uri h i (length h - k + i)) (seq 0 (Nat.min (length h) k))) (newest k h).
Proof.
  intros H. assert (L : length (newest k h) = Nat.min (length h) k) by (unfold newest; rewrite skipn_length; lia). rewrite <- L.
  apply (Forall2_seq _ _ (0, 0)). intros j J. rewrite L in J. cbn [Nat.add]. unfold newest. rewrite nth_skipn_add. unfold as_heard.
  pose proof (nth_In h (0, 0) (n := (length h - k + j)%nat) ltac:(lia)) as N. destruct (nth _ h (0, 0)) as [d l]. exact (H _ N).
Qed.
