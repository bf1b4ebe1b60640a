(* Lemmas about the string models. *)
From Coq Require Import String.
From Verif Require Import Base GoStrings L_base.
From Coq Require Import ZifyBool ZifyNat.

(* ---- decimal ---- *)
Definition all_digits (s : bytes) : Prop := Forall (fun c => 48 <= c <= 57) s.
Definition dec_value (s : bytes) : Z := fold_left (fun a c => a * 10 + (c - 48)) s 0.

Lemma dec_value_snoc s c : dec_value (s ++ [c]) = dec_value s * 10 + (c - 48).
Proof. unfold dec_value. rewrite fold_left_app. reflexivity. Qed.

Lemma dec_digits_spec fuel : forall n acc, 0 <= n < 2 ^ Z.of_nat fuel -> (fuel <> 0)%nat ->
  exists ds, dec_digits fuel n acc = ds ++ acc /\ all_digits ds /\ ds <> [] /\ dec_value ds = n /\
             (1 <= n -> hd 0 ds <> 48).
Proof.
  induction fuel as [|f IH]; intros n acc Hn H0; [congruence|]. cbn [dec_digits].
  pose proof (Z.mod_pos_bound n 10 ltac:(lia)) as M. pose proof (Z.div_mod n 10 ltac:(lia)) as D.
  destruct (Z.eqb_spec (n / 10) 0) as [E|E].
  - exists [48 + n mod 10]. splits; [reflexivity | constructor; [lia | constructor] | discriminate | unfold dec_value; cbn [fold_left]; lia | cbn [hd]; lia].
  - assert (P : 2 ^ Z.of_nat (S f) = 2 * 2 ^ Z.of_nat f) by (rewrite Nat2Z.inj_succ, Z.pow_succ_r; lia).
    assert (Hf : (f <> 0)%nat) by (intros ->; cbn in P; lia).
    destruct (IH (n / 10) (48 + n mod 10 :: acc)) as (ds & E1 & A & N & V & Hd); [nia | exact Hf |].
    exists (ds ++ [48 + n mod 10]). splits.
    + rewrite E1, <- app_assoc. reflexivity.
    + apply Forall_app. split; [exact A|]. constructor; [lia|constructor].
    + destruct ds; discriminate.
    + rewrite dec_value_snoc, V. lia.
    + intros _. destruct ds as [|d ds]; [congruence|]. cbn in *. apply Hd. lia.
Qed.

Lemma digits_spec n : 0 <= n -> all_digits (digits n) /\ digits n <> [] /\ dec_value (digits n) = n /\ (1 <= n -> hd 0 (digits n) <> 48).
Proof.
  intros Hn. unfold digits.
  assert (B : 0 <= n < 2 ^ Z.of_nat (S (Z.to_nat (Z.log2 n)))).
  { rewrite Nat2Z.inj_succ, Z2Nat.id by apply Z.log2_nonneg.
    destruct (Z.eq_dec n 0) as [-> |]; [cbn; lia|]. pose proof (Z.log2_spec n ltac:(lia)). lia. }
  destruct (dec_digits_spec _ n [] B ltac:(lia)) as (ds & E & A & N & V & H). rewrite app_nil_r in E. rewrite E. auto.
Qed.

Lemma dec_value_mono s : all_digits s -> forall a, 0 <= a -> a <= fold_left (fun a c => a * 10 + (c - 48)) s a.
Proof.
  induction 1 as [|c s Hc _ IH]; intros a Ha; cbn [fold_left]; [lia|].
  specialize (IH (a * 10 + (c - 48)) ltac:(lia)). lia.
Qed.

Lemma parse_digits_ok s : all_digits s -> forall a, 0 <= a -> fold_left (fun a c => a * 10 + (c - 48)) s a <= 2 ^ 64 - 1 ->
  parse_digits a s = UVal (fold_left (fun a c => a * 10 + (c - 48)) s a).
Proof.
  induction 1 as [|c s Hc Hs IH]; intros a Ha Hb; cbn [parse_digits fold_left] in *; [reflexivity|].
  assert (D : is_digit c = true) by (unfold is_digit; lia). rewrite D.
  pose proof (dec_value_mono s Hs (a * 10 + (c - 48)) ltac:(lia)) as M.
  destruct (Z.gtb_spec (a * 10 + (c - 48)) (2 ^ 64 - 1)); [lia|]. apply IH; lia.
Qed.

Lemma parse_uint_digits n : 0 <= n <= 2 ^ 64 - 1 -> parse_uint (digits n) = UVal n.
Proof.
  intros Hn. destruct (digits_spec n ltac:(lia)) as (A & N & V & _). unfold parse_uint.
  destruct (digits n) as [|c r] eqn:E; [congruence|]. rewrite <- E in *.
  unfold dec_value in V. rewrite (parse_digits_ok _ A 0) by lia. rewrite V. reflexivity.
Qed.

Lemma atoi_itoa z : - 2 ^ 63 <= z < 2 ^ 63 -> atoi (itoa z) = (z, None).
Proof.
  intros Hz. unfold itoa. destruct (Z.ltb_spec z 0) as [H|H].
  - unfold atoi. rewrite Z.eqb_refl, parse_uint_digits by lia.
    destruct (Z.gtb_spec (- z) (2 ^ 63)); [lia|]. rewrite Z.opp_involutive. reflexivity.
  - destruct (digits_spec z H) as (A & N & V & _). unfold atoi.
    destruct (digits z) as [|c r] eqn:E; [congruence|].
    assert (Hc : 48 <= c <= 57) by (inversion A; assumption).
    destruct (Z.eqb_spec c 45); [lia|]. destruct (Z.eqb_spec c 43); [lia|].
    rewrite <- E, parse_uint_digits by lia. destruct (z >=? 2 ^ 63) eqn:G; [lia|]. reflexivity.
Qed.

Lemma itoa_nonneg z : 0 <= z -> all_digits (itoa z) /\ itoa z <> [].
Proof. intros H. unfold itoa. destruct (Z.ltb_spec z 0); [lia|]. destruct (digits_spec z H) as (A & N & _). auto. Qed.

Lemma itoa_neg z : z < 0 -> exists r, itoa z = 45 :: r /\ all_digits r.
Proof. intros H. unfold itoa. destruct (Z.ltb_spec z 0); [|lia]. destruct (digits_spec (- z) ltac:(lia)) as (A & _). eauto. Qed.

Lemma itoa_chars z c : In c (itoa z) -> c = 45 \/ 48 <= c <= 57.
Proof.
  destruct (Z.lt_ge_cases z 0) as [H|H].
  - destruct (itoa_neg z H) as (r & -> & A). intros [<-|I]; [auto|]. unfold all_digits in A. rewrite Forall_forall in A. right. auto.
  - destruct (itoa_nonneg z H) as (A & _). intros I. unfold all_digits in A. rewrite Forall_forall in A. right. auto.
Qed.

Lemma itoa_inj a b : - 2 ^ 63 <= a < 2 ^ 63 -> - 2 ^ 63 <= b < 2 ^ 63 -> itoa a = itoa b -> a = b.
Proof. intros Ha Hb E. pose proof (atoi_itoa a Ha) as A. rewrite E, (atoi_itoa b Hb) in A. congruence. Qed.

(* ---- split ---- *)
Lemma split_on_none c s : ~ In c s -> split_on c s = [s].
Proof.
  induction s as [|x s IH]; intros H; [reflexivity|]. cbn [split_on].
  destruct (Z.eqb_spec x c) as [->|_]; [exfalso; apply H; left; reflexivity|].
  rewrite IH; [reflexivity|]. intros I. apply H. right. exact I.
Qed.

Lemma split_on_app c a b : ~ In c a -> split_on c (a ++ c :: b) = a :: split_on c b.
Proof.
  induction a as [|x a IH]; intros H; cbn [app split_on]; [rewrite Z.eqb_refl; reflexivity|].
  destruct (Z.eqb_spec x c) as [->|_]; [exfalso; apply H; left; reflexivity|].
  rewrite IH; [reflexivity|]. intros I. apply H. right. exact I.
Qed.

Lemma split_on_nonempty c s : exists p ps, split_on c s = p :: ps.
Proof.
  destruct s as [|x s]; cbn [split_on]; [eauto|]. destruct (x =? c); [eauto|]. destruct (split_on c s); eauto.
Qed.

(* joining with a one-byte separator *)
Fixpoint join (c : Z) (l : list bytes) : bytes :=
  match l with [] => [] | [x] => x | x :: r => x ++ c :: join c r end.

Lemma split_join c l : l <> [] -> Forall (fun x => ~ In c x) l -> split_on c (join c l) = l.
Proof.
  induction l as [|x l IH]; intros Hn F; [congruence|]. apply Forall_cons_iff in F as [Hx Hl].
  destruct l as [|y l]; cbn [join]; [apply split_on_none; exact Hx|].
  rewrite split_on_app by exact Hx. f_equal. apply IH; [discriminate|exact Hl].
Qed.

Lemma join_split c s : join c (split_on c s) = s.
Proof.
  induction s as [|x s IH]; [reflexivity|]. cbn [split_on]. destruct (split_on_nonempty c s) as (p & ps & E).
  destruct (Z.eqb_spec x c) as [->|_]; rewrite E in *.
  - change (join c ([] :: p :: ps)) with (c :: join c (p :: ps)). rewrite IH. reflexivity.
  - destruct ps as [|q ps]; cbn [join] in *; [congruence|]. cbn [app]. congruence.
Qed.

Lemma split_no_sep c s : Forall (fun x => ~ In c x) (split_on c s).
Proof.
  induction s as [|x s IH]; cbn [split_on]; [repeat constructor; auto|].
  destruct (split_on_nonempty c s) as (p & ps & E). rewrite E in *.
  destruct (Z.eqb_spec x c) as [->|N]; [constructor; [intros []|exact IH]|].
  apply Forall_cons_iff in IH as [H1 H2]. constructor; [|exact H2]. intros [->|I]; auto.
Qed.

Lemma cut_app c a b : ~ In c a -> cut c (a ++ c :: b) = Some (a, b).
Proof.
  induction a as [|x a IH]; intros H; cbn [app cut]; [rewrite Z.eqb_refl; reflexivity|].
  destruct (Z.eqb_spec x c) as [->|_]; [exfalso; apply H; left; reflexivity|].
  rewrite IH; [reflexivity|]. intros I. apply H. right. exact I.
Qed.

Lemma cut_none c s : ~ In c s -> cut c s = None.
Proof.
  induction s as [|x s IH]; intros H; cbn [cut]; [reflexivity|].
  destruct (Z.eqb_spec x c) as [->|_]; [exfalso; apply H; left; reflexivity|].
  rewrite IH; [reflexivity|]. intros I. apply H. right. exact I.
Qed.

Lemma cut_some c s a b : cut c s = Some (a, b) -> s = a ++ c :: b /\ ~ In c a.
Proof.
  revert a; induction s as [|x s IH]; intros a E; cbn [cut] in E; [discriminate|].
  destruct (Z.eqb_spec x c) as [->|N].
  - injection E as <- <-. auto.
  - destruct (cut c s) as [[a' b']|] eqn:C; [|discriminate]. injection E as <- <-.
    destruct (IH a' eq_refl) as [-> H]. split; [reflexivity|]. intros [->|I]; auto.
Qed.

Lemma cut_none_inv c s : cut c s = None -> ~ In c s.
Proof.
  induction s as [|x s IH]; cbn [cut]; intros E; [auto|].
  destruct (Z.eqb_spec x c) as [->|N]; [discriminate|].
  destruct (cut c s) as [[a b]|]; [discriminate|]. intros [->|I]; [auto|]. apply (IH eq_refl I).
Qed.

Lemma split2_app c a b : ~ In c a -> split2 c (a ++ c :: b) = [a; b].
Proof. intros H. unfold split2. rewrite cut_app by exact H. reflexivity. Qed.

Lemma split2_none c s : ~ In c s -> split2 c s = [s].
Proof. intros H. unfold split2. rewrite cut_none by exact H. reflexivity. Qed.

(* deciding that a byte does not occur in a concrete string *)
Definition absent (c : Z) (s : bytes) : bool := negb (existsb (Z.eqb c) s).
Lemma absent_spec c s : absent c s = true <-> ~ In c s.
Proof.
  unfold absent. rewrite negb_true_iff. split; intros H.
  - intros I. assert (existsb (Z.eqb c) s = true) by (apply existsb_exists; exists c; split; [exact I|apply Z.eqb_refl]). congruence.
  - apply not_true_is_false. intros E. apply existsb_exists in E as (x & I & Ex). apply Z.eqb_eq in Ex. subst x. auto.
Qed.

Lemma has_prefix_app p s : has_prefix p (p ++ s) = true.
Proof. unfold has_prefix. rewrite firstn_app_exact by reflexivity. apply beq_refl. Qed.

Lemma has_prefix_inv p s : has_prefix p s = true -> s = p ++ skipn (length p) s.
Proof.
  unfold has_prefix. intros E. apply beq_eq in E. rewrite <- E at 1. symmetry. apply firstn_skipn.
Qed.

(* ---- base64 and hex ---- *)
Definition b64_letter (c : Z) : Prop := 65 <= c <= 90 \/ 97 <= c <= 122 \/ 48 <= c <= 57 \/ c = 43 \/ c = 47.

Lemma b64_char_letter n : 0 <= n < 64 -> b64_letter (b64_char n).
Proof.
  intros H. unfold b64_letter, b64_char.
  destruct (n <? 26) eqn:?; [lia|]. destruct (n <? 52) eqn:?; [lia|]. destruct (n <? 62) eqn:?; [lia|].
  destruct (n =? 62) eqn:?; lia.
Qed.

Lemma b64_val_char n : 0 <= n < 64 -> b64_val (b64_char n) = Some n.
Proof.
  intros H. unfold b64_char.
  destruct (n <? 26) eqn:E1; [|destruct (n <? 52) eqn:E2; [|destruct (n <? 62) eqn:E3; [|destruct (n =? 62) eqn:E4]]];
  unfold b64_val.
  - replace ((65 <=? 65 + n) && (65 + n <=? 90)) with true by lia. f_equal; lia.
  - replace ((65 <=? 71 + n) && (71 + n <=? 90)) with false by lia.
    replace ((97 <=? 71 + n) && (71 + n <=? 122)) with true by lia. f_equal; lia.
  - replace ((65 <=? n - 4) && (n - 4 <=? 90)) with false by lia.
    replace ((97 <=? n - 4) && (n - 4 <=? 122)) with false by lia.
    replace ((48 <=? n - 4) && (n - 4 <=? 57)) with true by lia. f_equal; lia.
  - replace n with 62 by lia. reflexivity.
  - replace n with 63 by lia. reflexivity.
Qed.

Lemma list_ind3 (P : bytes -> Prop) : P [] -> (forall a, P [a]) -> (forall a b, P [a; b]) ->
  (forall a b c r, P r -> P (a :: b :: c :: r)) -> forall l, P l.
Proof.
  intros H0 H1 H2 H3. fix IH 1. intros [|a [|b [|c r]]]; [exact H0|apply H1|apply H2|apply H3; apply IH].
Qed.

Lemma b64_alphabet l : bytes_ok l -> Forall (fun c => b64_letter c \/ c = 61) (b64_encode l).
Proof.
  induction l as [|a|a b|a b c r IH] using list_ind3; intros B.
  - constructor.
  - apply Forall_cons_iff in B as [B1 _]. unfold byte_ok in *. cbn [b64_encode].
    repeat (apply Forall_cons; [first [right; reflexivity|left; apply b64_char_letter; Z.div_mod_to_equations; lia]|]). constructor.
  - apply Forall_cons_iff in B as [B1 B]. apply Forall_cons_iff in B as [B2 _]. unfold byte_ok in *. cbn [b64_encode].
    repeat (apply Forall_cons; [first [right; reflexivity|left; apply b64_char_letter; Z.div_mod_to_equations; lia]|]). constructor.
  - apply Forall_cons_iff in B as [B1 B]. apply Forall_cons_iff in B as [B2 B]. apply Forall_cons_iff in B as [B3 B].
    unfold byte_ok in *. cbn [b64_encode].
    repeat (apply Forall_cons; [left; apply b64_char_letter; Z.div_mod_to_equations; lia|]). apply IH. exact B.
Qed.

Lemma b64_absent l c : bytes_ok l -> ~ (b64_letter c \/ c = 61) -> ~ In c (b64_encode l).
Proof. intros B N I. apply N. exact (proj1 (Forall_forall _ _) (b64_alphabet l B) c I). Qed.

Lemma b64_quanta_encode l : bytes_ok l -> b64_quanta (b64_encode l) = (l, true).
Proof.
  induction l as [|a|a b|a b c r IH] using list_ind3; intros B.
  - reflexivity.
  - apply Forall_cons_iff in B as [B1 _]. unfold byte_ok in *. cbn [b64_encode b64_quanta].
    rewrite !b64_val_char by (Z.div_mod_to_equations; lia). change (b64_val 61) with (@None Z).
    change ((61 =? 61) && (61 =? 61)) with true. cbv iota. f_equal. f_equal. Z.div_mod_to_equations; lia.
  - apply Forall_cons_iff in B as [B1 B]. apply Forall_cons_iff in B as [B2 _]. unfold byte_ok in *. cbn [b64_encode b64_quanta].
    rewrite !b64_val_char by (Z.div_mod_to_equations; lia). change (b64_val 61) with (@None Z). change (61 =? 61) with true. cbv iota.
    f_equal. f_equal; [Z.div_mod_to_equations; lia|f_equal; Z.div_mod_to_equations; lia].
  - apply Forall_cons_iff in B as [B1 B]. apply Forall_cons_iff in B as [B2 B]. apply Forall_cons_iff in B as [B3 B].
    unfold byte_ok in *. cbn [b64_encode b64_quanta]. rewrite !b64_val_char by (Z.div_mod_to_equations; lia). rewrite (IH B).
    f_equal. f_equal; [Z.div_mod_to_equations; lia|f_equal; [Z.div_mod_to_equations; lia|f_equal; Z.div_mod_to_equations; lia]].
Qed.

Lemma filter_all {A} (f : A -> bool) l : Forall (fun x => f x = true) l -> filter f l = l.
Proof. induction 1 as [|x l H _ IH]; cbn; [reflexivity|]. rewrite H, IH. reflexivity. Qed.

Lemma b64_decode_encode l : bytes_ok l -> b64_decode (b64_encode l) = (l, true).
Proof.
  intros B. unfold b64_decode. rewrite filter_all; [apply b64_quanta_encode; exact B|].
  eapply Forall_impl; [|apply b64_alphabet; exact B]. intros c H. unfold b64_letter in H. lia.
Qed.

Lemma unhex_digit n : 0 <= n < 16 -> unhex (hex_digit n) = Some n.
Proof.
  intros H. unfold hex_digit. destruct (n <? 10) eqn:E; unfold unhex.
  - replace ((48 <=? 48 + n) && (48 + n <=? 57)) with true by (Z.div_mod_to_equations; lia). f_equal; Z.div_mod_to_equations; lia.
  - replace ((48 <=? 87 + n) && (87 + n <=? 57)) with false by (Z.div_mod_to_equations; lia).
    replace ((97 <=? 87 + n) && (87 + n <=? 102)) with true by (Z.div_mod_to_equations; lia). f_equal; Z.div_mod_to_equations; lia.
Qed.

Lemma hex_decode_encode l : bytes_ok l -> hex_decode (hex_encode l) = (l, true).
Proof.
  induction l as [|a l IH]; intros B; [reflexivity|]. apply Forall_cons_iff in B as [B1 B]. unfold byte_ok in *.
  unfold hex_encode. cbn [flat_map app hex_decode]. rewrite !unhex_digit by (Z.div_mod_to_equations; lia). fold (hex_encode l). rewrite (IH B).
  f_equal. f_equal. Z.div_mod_to_equations; lia.
Qed.

Lemma hex_alphabet l : bytes_ok l -> Forall (fun c => 48 <= c <= 57 \/ 97 <= c <= 102) (hex_encode l).
Proof.
  intros B. unfold hex_encode. apply Forall_flat_map. eapply Forall_impl; [|exact B]. unfold byte_ok. intros a H.
  repeat (apply Forall_cons; [unfold hex_digit; match goal with |- context [?x <? 10] => destruct (x <? 10) eqn:? end; Z.div_mod_to_equations; lia|]). constructor.
Qed.
