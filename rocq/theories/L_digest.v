(* Lemmas about the digest model. *)
From Coq Require Import String.
From Verif Require Import Base GoStrings S_md5 S_digest M_digest L_base L_strings L_rtp.
From Coq Require Import ZifyBool ZifyNat.

(* ---- colonnade ---- *)
Lemma repeat_app' {A} (x : A) a b : repeat x (a + b) = repeat x a ++ repeat x b.
Proof. apply repeat_app. Qed.

Lemma copy_at_fit pre s k : copy_at (pre ++ repeat 0 (length s + k)) (zlen pre) s = (pre ++ s) ++ repeat 0 k.
Proof.
  unfold copy_at, zlen. rewrite Nat2Z.id, app_length, repeat_length.
  rewrite firstn_app_exact by reflexivity.
  rewrite (firstn_all2 s) by lia. rewrite <- app_assoc. f_equal. f_equal.
  rewrite repeat_app', app_assoc. apply skipn_app_exact. rewrite app_length, repeat_length. reflexivity.
Qed.

Fixpoint total (ps : list bytes) : nat := match ps with [] => 0%nat | s :: r => (1 + length s + total r)%nat end.
Fixpoint tails (ps : list bytes) : bytes := match ps with [] => [] | s :: r => 58 :: s ++ tails r end.

Lemma colonnade_rest_ok ps : forall pre, colonnade_rest (pre ++ repeat 0 (total ps)) (zlen pre) ps = pre ++ tails ps.
Proof.
  induction ps as [|s r IH]; intros pre; [cbn; rewrite !app_nil_r; reflexivity|].
  change (total (s :: r)) with (length [58%Z] + (length s + total r))%nat. cbn [colonnade_rest tails]. cbv zeta.
  rewrite copy_at_fit. replace (zlen pre + 1) with (zlen (pre ++ [58])) by (rewrite zlen_app; reflexivity).
  rewrite copy_at_fit. replace (zlen (pre ++ [58]) + Z.min (zlen s) (zlen ((pre ++ [58]) ++ repeat 0 (length s + total r)) - zlen (pre ++ [58])))
    with (zlen ((pre ++ [58]) ++ s)).
  - rewrite IH. rewrite <- !app_assoc. reflexivity.
  - rewrite !zlen_app, zlen_repeat. unfold zlen. lia.
Qed.

Lemma fold_total ps : forall n, fold_left (fun n (p : bytes) => n + zlen p) ps n = n + Z.of_nat (total ps) - zlen ps.
Proof.
  induction ps as [|s r IH]; intros n; cbn [fold_left total]; [change (zlen (@nil bytes)) with 0; lia|]. rewrite IH, zlen_cons. unfold zlen. lia.
Qed.

Lemma colonnade_tails p0 ps : colonnade p0 ps = p0 ++ tails ps.
Proof.
  unfold colonnade. cbv zeta. cbn [fold_left]. rewrite fold_total, zlen_cons.
  replace (Z.to_nat (zlen ps + 1 - 1 + zlen p0 + Z.of_nat (total ps) - zlen ps)) with (length p0 + total ps)%nat by (unfold zlen; lia).
  change (repeat 0 (length p0 + total ps)) with ([] ++ repeat 0 (length p0 + total ps)) at 1.
  change 0 with (zlen (@nil Z)) at 2. rewrite copy_at_fit.
  replace (Z.min (zlen p0) (zlen (repeat 0 (length p0 + total ps)))) with (zlen ([] ++ p0)); [apply colonnade_rest_ok|].
  rewrite zlen_repeat. unfold zlen. cbn [app]. lia.
Qed.

Lemma tails_colons ps : forall p0, p0 ++ tails ps = colons (p0 :: ps).
Proof.
  induction ps as [|s r IH]; intros p0; [cbn; rewrite app_nil_r; reflexivity|].
  cbn [tails]. rewrite IH. reflexivity.
Qed.

Lemma colonnade_colons p0 ps : colonnade p0 ps = colons (p0 :: ps).
Proof. rewrite colonnade_tails. apply tails_colons. Qed.

(* ---- hex8 ---- *)
Lemma hexnum_snoc s c : hexnum (s ++ [c]) = hexnum s * 16 + (if c <=? 57 then c - 48 else c - 87).
Proof. unfold hexnum. rewrite fold_left_app. reflexivity. Qed.

Lemma hexnum_app a b : hexnum (a ++ b) = hexnum a * 16 ^ zlen b + hexnum b.
Proof.
  induction b as [|c b IH] using rev_ind.
  - rewrite app_nil_r, zlen_nil. unfold hexnum at 3. cbn [fold_left]. lia.
  - rewrite app_assoc, !hexnum_snoc, IH, zlen_app, zlen_cons, zlen_nil. rewrite Z.pow_add_r by (pose proof (zlen_nonneg b); lia). lia.
Qed.

Lemma hex_digit_num n : 0 <= n < 16 -> (if hex_digit n <=? 57 then hex_digit n - 48 else hex_digit n - 87) = n.
Proof. intros Hn. unfold hex_digit. destruct (n <? 10) eqn:E; destruct (_ <=? 57) eqn:?; lia. Qed.

Lemma hex_digits_num fuel : forall n acc, 0 <= n < 2 ^ Z.of_nat fuel -> (fuel <> 0)%nat ->
  hexnum (hex_digits fuel n acc) = n * 16 ^ zlen acc + hexnum acc.
Proof.
  induction fuel as [|f IH]; intros n acc Hn F; [lia|]. cbn [hex_digits]. cbv zeta.
  pose proof (Z.div_mod n 16 ltac:(lia)). pose proof (Z.mod_pos_bound n 16 ltac:(lia)).
  assert (E : hexnum (hex_digit (n mod 16) :: acc) = n mod 16 * 16 ^ zlen acc + hexnum acc).
  { change (hex_digit (n mod 16) :: acc) with ([hex_digit (n mod 16)] ++ acc). rewrite hexnum_app. f_equal. f_equal.
    unfold hexnum. cbn [fold_left]. rewrite Z.mul_0_l, Z.add_0_l. apply hex_digit_num. lia. }
  destruct (n / 16 =? 0) eqn:Z0.
  - rewrite E. replace (n mod 16) with n by lia. reflexivity.
  - assert (f <> 0%nat). { intros ->. assert (n < 2) by (change (2 ^ Z.of_nat 1) with 2 in Hn; lia). Z.div_mod_to_equations; lia. }
    rewrite IH; [|split; [apply Z.div_pos; lia|]|assumption].
    + rewrite E, zlen_cons, Z.pow_add_r by (pose proof (zlen_nonneg acc); lia). nia.
    + apply Z.div_lt_upper_bound; [lia|]. replace (Z.of_nat (S f)) with (Z.of_nat f + 1) in Hn by lia.
      rewrite Z.pow_add_r in Hn by lia. lia.
Qed.

Lemma hexnum_zeros k s : hexnum (repeat 48 k ++ s) = hexnum s.
Proof.
  rewrite hexnum_app. assert (E : hexnum (repeat 48 k) = 0); [|rewrite E; lia].
  induction k as [|k IH]; [reflexivity|]. replace (S k) with (k + 1)%nat by lia. rewrite repeat_app. cbn [repeat].
  rewrite hexnum_snoc, IH. reflexivity.
Qed.

Lemma hexnum_hex8 n : 0 <= n -> hexnum (hex8 n) = n.
Proof.
  intros Hn. unfold hex8. cbv zeta. rewrite hexnum_zeros, hex_digits_num; [rewrite zlen_nil; unfold hexnum; cbn [fold_left]; lia| |lia].
  destruct (Z.eq_dec n 0) as [->|N]; [cbn; lia|]. pose proof (Z.log2_spec n ltac:(lia)). pose proof (Z.log2_nonneg n).
  replace (Z.of_nat (S (Z.to_nat (Z.log2 n)))) with (Z.succ (Z.log2 n)) by lia. lia.
Qed.

(* ---- challenges ---- *)
Lemma trim_left_ink a s : 33 <= a <= 126 -> trim_left (a :: s) = a :: s.
Proof.
  intros B. cbn [trim_left]. unfold sp1. replace (((9 <=? a) && (a <=? 13)) || (a =? 32)) with false by lia.
  destruct s as [|b [|c s]]; [reflexivity| |]; unfold sp2; replace (a =? 194) with false by lia; cbn [andb]; [reflexivity|].
  unfold sp3. replace (a =? 225) with false by lia. replace (a =? 226) with false by lia. replace (a =? 227) with false by lia. reflexivity.
Qed.
Lemma trim_rev_ink a s : 33 <= a <= 126 -> trim_rev (a :: s) = a :: s.
Proof.
  intros B. cbn [trim_rev]. unfold sp1. replace (((9 <=? a) && (a <=? 13)) || (a =? 32)) with false by lia.
  destruct s as [|b [|c s]]; [reflexivity| |]; unfold sp2; replace ((b =? 194) && ((a =? 133) || (a =? 160))) with false by lia; [reflexivity|].
  unfold sp3. replace (((c =? 225) && (b =? 154) && (a =? 128)) ||
  ((c =? 226) && (b =? 128) && (((128 <=? a) && (a <=? 138)) || (a =? 168) || (a =? 169) || (a =? 175))) ||
  ((c =? 226) && (b =? 129) && (a =? 159)) || ((c =? 227) && (b =? 128) && (a =? 128))) with false by lia. reflexivity.
Qed.
Lemma trim_space_ink a s z : 33 <= a <= 126 -> 33 <= z <= 126 -> trim_space (a :: s ++ [z]) = a :: s ++ [z].
Proof.
  intros A Z. unfold trim_space. rewrite trim_left_ink by exact A.
  change (a :: s ++ [z]) with ((a :: s) ++ [z]). rewrite rev_app_distr. cbn [rev app].
  rewrite trim_rev_ink by exact Z. cbn [rev]. rewrite rev_app_distr, rev_involutive. reflexivity.
Qed.
Lemma trim_left_blanks b s : Forall (fun c => c = 32) b -> trim_left (b ++ s) = trim_left s.
Proof. induction 1 as [|x b -> _ IH]; [reflexivity|]. cbn [app trim_left]. exact IH. Qed.
Lemma trim_space_blanks b s : Forall (fun c => c = 32) b -> trim_space (b ++ s) = trim_space s.
Proof. intros B. unfold trim_space. rewrite trim_left_blanks by exact B. reflexivity. Qed.

Lemma drop_byte_id c x s : x <> c -> drop_byte c (x :: s) = x :: s.
Proof. intros N. cbn [drop_byte]. replace (x =? c) with false by lia. reflexivity. Qed.
Lemma drop_byte_notin c s : ~ In c s -> drop_byte c s = s.
Proof. destruct s as [|x s]; intros N; [reflexivity|]. apply drop_byte_id. intros ->. apply N. left. reflexivity. Qed.
Lemma trim_quotes v : ~ In 34 v -> trim_byte 34 (34 :: v ++ [34]) = v.
Proof.
  intros N. unfold trim_byte. change (drop_byte 34 (34 :: v ++ [34])) with (drop_byte 34 (v ++ [34])).
  destruct v as [|x v]; [reflexivity|]. cbn [app]. rewrite drop_byte_id by (intros ->; apply N; left; reflexivity).
  change (x :: v ++ [34]) with ((x :: v) ++ [34]). rewrite rev_app_distr. cbn [rev app].
  change (drop_byte 34 (34 :: rev v ++ [x])) with (drop_byte 34 (rev (x :: v))).
  rewrite drop_byte_notin by (rewrite <- in_rev; exact N). apply rev_involutive.
Qed.

Lemma item_trim i : item_ok i -> trim_space (item_text i) = quoted (a_name i) (a_val i).
Proof.
  intros (B & L & K & _). unfold item_text. rewrite trim_space_blanks by exact B. unfold quoted.
  destruct (a_name i) as [|c n]; [exfalso; revert K; vm_compute; intuition congruence|].
  apply Forall_cons_iff in L as [Lc _]. unfold ascii_letter in Lc.
  change (bs "=""") with [61; 34]. change (bs """") with [34].
  replace ((c :: n) ++ [61; 34] ++ a_val i ++ [34]) with (c :: (n ++ [61; 34] ++ a_val i) ++ [34]).
  - apply trim_space_ink; lia.
  - cbn [app]. rewrite <- !app_assoc. reflexivity.
Qed.

Lemma item_no_comma i : item_ok i -> ~ In 44 (item_text i).
Proof.
  intros (B & L & _ & V & _) I. unfold item_text, quoted in I. change (bs "=""") with [61; 34] in I. change (bs """") with [34] in I.
  rewrite !in_app_iff in I. destruct I as [I|[I|[I|[I|I]]]].
  - pose proof (proj1 (Forall_forall _ _) B _ I) as X. cbv beta in X. lia.
  - pose proof (proj1 (Forall_forall _ _) L _ I) as X. unfold ascii_letter in X. lia.
  - cbn in I. lia.
  - auto.
  - cbn in I. lia.
Qed.

Lemma items_join l : items_text l = join 44 (map item_text l).
Proof. induction l as [|i [|j r] IH]; [reflexivity|reflexivity|]. cbn [items_text map join] in *. rewrite IH. reflexivity. Qed.

Definition apply_item (d : digest) (i : aitem) : digest :=
  match set_attr d (to_lower (a_name i)) (a_val i) with Ok d' => d' | _ => d end.

Lemma set_attr_known d k v : In k known_attrs -> exists d', set_attr d k v = Ok d'.
Proof.
  unfold known_attrs. cbn [In]. intros [<-|[<-|[<-|[<-|[<-|[<-|[<-|[]]]]]]]]; destruct d; eexists; reflexivity.
Qed.

Lemma set_attr_unknown d k v : ~ In k known_attrs -> set_attr d k v = Err ErrAuthMalformedChallenge.
Proof.
  intros N. destruct d. unfold set_attr.
  repeat match goal with |- context [beq k ?x] => destruct (beq k x) eqn:?; [exfalso; apply N; rewrite (proj1 (beq_eq k x)) by assumption; unfold known_attrs; cbn [In]; tauto|] end.
  reflexivity.
Qed.

Lemma set_attrs_items l : forall d, Forall item_ok l -> set_attrs d (map item_text l) = Ok (fold_left apply_item l d).
Proof.
  induction l as [|i l IH]; intros d F; [reflexivity|]. apply Forall_cons_iff in F as [F1 F]. cbn [map set_attrs fold_left]. cbv zeta.
  rewrite item_trim by exact F1. unfold quoted. change (bs "=""") with [61; 34]. change (bs """") with [34].
  destruct F1 as (B & L & K & V & Q). change (a_name i ++ [61; 34] ++ a_val i ++ [34]) with (a_name i ++ 61 :: 34 :: a_val i ++ [34]).
  rewrite cut_app by (intros I; pose proof (proj1 (Forall_forall _ _) L _ I) as X; unfold ascii_letter in X; lia).
  destruct (a_name i) as [|c n] eqn:En; [exfalso; revert K; vm_compute; intuition congruence|]. rewrite <- En in *.
  rewrite trim_quotes by exact Q. unfold apply_item. destruct (set_attr_known d (to_lower (a_name i)) (a_val i) K) as [d' E].
  rewrite E. cbn [bind]. apply IH. exact F.
Qed.

(* what the items do to each field *)
Lemma apply_item_fields d i : item_ok i ->
  d_basic (apply_item d i) = d_basic d /\ d_uri (apply_item d i) = d_uri d /\ d_count (apply_item d i) = d_count d /\
  d_nc (apply_item d i) = d_nc d /\ d_cnonce (apply_item d i) = d_cnonce d /\
  d_realm (apply_item d i) = (if beq (to_lower (a_name i)) (bs "realm") then a_val i else d_realm d) /\
  d_domain (apply_item d i) = (if beq (to_lower (a_name i)) (bs "domain") then a_val i else d_domain d) /\
  d_nonce (apply_item d i) = (if beq (to_lower (a_name i)) (bs "nonce") then a_val i else d_nonce d) /\
  d_opaque (apply_item d i) = (if beq (to_lower (a_name i)) (bs "opaque") then a_val i else d_opaque d) /\
  d_stale (apply_item d i) = (if beq (to_lower (a_name i)) (bs "stale") then a_val i else d_stale d) /\
  d_algorithm (apply_item d i) = (if beq (to_lower (a_name i)) (bs "algorithm") then to_lower (a_val i) else d_algorithm d) /\
  d_qop (apply_item d i) = (if beq (to_lower (a_name i)) (bs "qop") then to_lower (a_val i) else d_qop d).
Proof.
  intros (_ & _ & K & V & _). unfold apply_item. destruct d. unfold known_attrs in K. cbn [In] in K.
  destruct K as [<-|[<-|[<-|[<-|[<-|[<-|[<-|[]]]]]]]]; try (splits; reflexivity).
  unfold set_attr. change (beq (bs "qop") (bs "qop")) with true. rewrite split_on_none by exact V. splits; reflexivity.
Qed.

Lemma given_cons k v i l : given k v (i :: l) = given k (if beq (to_lower (a_name i)) k then a_val i else v) l.
Proof. reflexivity. Qed.

Lemma items_fields l : forall d, Forall item_ok l -> let d' := fold_left apply_item l d in
  d_basic d' = d_basic d /\ d_uri d' = d_uri d /\ d_count d' = d_count d /\ d_nc d' = d_nc d /\ d_cnonce d' = d_cnonce d /\
  d_realm d' = given (bs "realm") (d_realm d) l /\ d_domain d' = given (bs "domain") (d_domain d) l /\
  d_nonce d' = given (bs "nonce") (d_nonce d) l /\ d_opaque d' = given (bs "opaque") (d_opaque d) l /\
  d_stale d' = given (bs "stale") (d_stale d) l /\
  (forall a, d_algorithm d = to_lower a -> d_algorithm d' = to_lower (given (bs "algorithm") a l)) /\
  (forall a, d_qop d = to_lower a -> d_qop d' = to_lower (given (bs "qop") a l)).
Proof.
  induction l as [|i l IH]; intros d F; [cbv zeta; splits; auto|]. apply Forall_cons_iff in F as [F1 F]. cbn [fold_left]. cbv zeta in *.
  destruct (apply_item_fields d i F1) as (A1 & A2 & A3 & A4 & A5 & A6 & A7 & A8 & A9 & A10 & A11 & A12).
  destruct (IH (apply_item d i) F) as (B1 & B2 & B3 & B4 & B5 & B6 & B7 & B8 & B9 & B10 & B11 & B12). rewrite !given_cons.
  rewrite B1, B2, B3, B4, B5, B6, B7, B8, B9, B10, A1, A2, A3, A4, A5, A6, A7, A8, A9, A10. splits; try reflexivity.
  - intros a E. rewrite given_cons. apply B11. rewrite A11. destruct (beq (to_lower (a_name i)) (bs "algorithm")); [reflexivity|exact E].
  - intros a E. rewrite given_cons. apply B12. rewrite A12. destruct (beq (to_lower (a_name i)) (bs "qop")); [reflexivity|exact E].
Qed.

Definition fresh (basic : bool) (uri : bytes) : digest :=
  mkDigest basic [] [] [] [] [] [] (bs "md5") [] [] uri [] [] [] 0.

Definition finish (d : digest) : res digest :=
  if negb (beq (d_nonce d) []) && negb (beq (d_algorithm d) (bs "md5")) && negb (beq (d_algorithm d) (bs "md5-sess"))
  then Err ErrAuthNotImplemented else Ok d.

Lemma new_digest_scheme uri ch basic rest : trim_space ch = scheme basic ++ rest ->
  new_digest uri ch = let! d := set_attrs (fresh basic uri) (split_on 44 rest) in finish d.
Proof.
  intros E. unfold new_digest. rewrite E. cbv zeta. destruct basic; unfold scheme.
  - replace (has_prefix (bs "Digest ") (bs "Basic " ++ rest)) with false by reflexivity.
    rewrite has_prefix_app. reflexivity.
  - rewrite has_prefix_app. reflexivity.
Qed.

Lemma new_digest_malformed uri ch : (forall basic rest, trim_space ch <> scheme basic ++ rest) ->
  new_digest uri ch = Err ErrAuthMalformedChallenge.
Proof.
  intros N. unfold new_digest. cbv zeta.
  destruct (has_prefix (bs "Digest ") (trim_space ch)) eqn:E1; [exfalso; apply (N false (skipn 7 (trim_space ch))); apply (has_prefix_inv _ _ E1)|].
  destruct (has_prefix (bs "Basic ") (trim_space ch)) eqn:E2; [exfalso; apply (N true (skipn 6 (trim_space ch))); apply (has_prefix_inv _ _ E2)|].
  reflexivity.
Qed.

Lemma set_attrs_total ps : forall d, (exists d', set_attrs d ps = Ok d') \/ set_attrs d ps = Err ErrAuthMalformedChallenge.
Proof.
  induction ps as [|p ps IH]; intros d; [left; exists d; reflexivity|]. cbn [set_attrs]. cbv zeta.
  destruct (cut 61 (trim_space p)) as [[[|c a] v]|]; try apply IH.
  destruct (in_dec (list_eq_dec Z.eq_dec) (to_lower (c :: a)) known_attrs) as [K|K].
  - destruct (set_attr_known d (to_lower (c :: a)) (trim_byte 34 v) K) as [d' E]. rewrite E. cbn [bind]. apply IH.
  - right. rewrite set_attr_unknown by exact K. reflexivity.
Qed.

Lemma set_attrs_bad ps p a v : In p ps -> trim_space p = a ++ 61 :: v -> a <> [] -> ~ In 61 a -> ~ In (to_lower a) known_attrs ->
  forall d, set_attrs d ps = Err ErrAuthMalformedChallenge.
Proof.
  intros I E N1 N2 K. induction ps as [|q ps IH]; intros d; [destruct I|]. cbn [set_attrs]. cbv zeta. destruct I as [->|I].
  - rewrite E, cut_app by exact N2. destruct a as [|c a]; [contradiction|]. rewrite set_attr_unknown by exact K. reflexivity.
  - destruct (cut 61 (trim_space q)) as [[[|c b] w]|]; try (apply IH; exact I).
    destruct (in_dec (list_eq_dec Z.eq_dec) (to_lower (c :: b)) known_attrs) as [K'|K'].
    + destruct (set_attr_known d (to_lower (c :: b)) (trim_byte 34 w) K') as [d' E']. rewrite E'. cbn [bind]. apply IH. exact I.
    + rewrite set_attr_unknown by exact K'. reflexivity.
Qed.

(* a finished digest has not been used *)
Lemma set_attr_fresh d k v d' : set_attr d k v = Ok d' -> d_count d' = d_count d /\ d_basic d' = d_basic d /\ d_uri d' = d_uri d.
Proof.
  destruct d. unfold set_attr. repeat match goal with |- context [if beq k ?x then _ else _] => destruct (beq k x) end;
    intros E; try discriminate; apply Ok_inj in E; subst; auto.
Qed.
Lemma set_attrs_fresh ps : forall d d', set_attrs d ps = Ok d' -> d_count d' = d_count d /\ d_basic d' = d_basic d /\ d_uri d' = d_uri d.
Proof.
  induction ps as [|p ps IH]; intros d d' E; [apply Ok_inj in E; subst; auto|]. cbn [set_attrs] in E. cbv zeta in E.
  destruct (cut 61 (trim_space p)) as [[[|c a] v]|]; try (apply IH; exact E).
  destruct (set_attr d (to_lower (c :: a)) (trim_byte 34 v)) as [d1| | |] eqn:E1; cbn [bind] in E; try discriminate.
  apply set_attr_fresh in E1 as (A & B & C). apply IH in E as (A' & B' & C'). rewrite A', B', C'. auto.
Qed.

Lemma new_digest_fresh uri ch d : new_digest uri ch = Ok d -> d_count d = 0 /\ d_uri d = uri.
Proof.
  intros E. unfold new_digest in E. cbv zeta in E.
  assert (F : forall basic rest, (let! d := set_attrs (fresh basic uri) (split_on 44 rest) in finish d) = Ok d -> d_count d = 0 /\ d_uri d = uri).
  { intros basic rest X. destruct (set_attrs (fresh basic uri) (split_on 44 rest)) as [d1| | |] eqn:E1; cbn [bind] in X; try discriminate.
    apply set_attrs_fresh in E1 as (A & B & C). unfold finish in X.
    destruct (negb (beq (d_nonce d1) []) && negb (beq (d_algorithm d1) (bs "md5")) && negb (beq (d_algorithm d1) (bs "md5-sess"))); [discriminate|].
    apply Ok_inj in X. subst d1. auto. }
  destruct (has_prefix (bs "Digest ") (trim_space ch)); [exact (F false _ E)|].
  destruct (has_prefix (bs "Basic ") (trim_space ch)); [exact (F true _ E)|discriminate].
Qed.

(* ---- the eight digits ---- *)
Lemma hex_digits_acc fuel : forall n acc, hex_digits fuel n acc = hex_digits fuel n [] ++ acc.
Proof.
  induction fuel as [|f IH]; intros n acc; [reflexivity|]. cbn [hex_digits]. cbv zeta. destruct (n / 16 =? 0); [reflexivity|].
  rewrite IH, (IH _ [hex_digit (n mod 16)]), <- app_assoc. reflexivity.
Qed.

Lemma hexfix_0 k : hexfix k 0 = repeat 48 k.
Proof.
  induction k as [|k IH]; [reflexivity|]. cbn [hexfix]. change (0 / 16) with 0. change (hex_digit (0 mod 16)) with 48. rewrite IH.
  replace (S k) with (k + 1)%nat by lia. rewrite repeat_app. reflexivity.
Qed.

Lemma hex_digits_fix k : forall n fuel, 0 <= n < 16 ^ Z.of_nat (S k) -> n < 2 ^ Z.of_nat (S fuel) ->
  let h := hex_digits (S fuel) n [] in (length h <= S k)%nat /\ repeat 48 (S k - length h) ++ h = hexfix (S k) n.
Proof.
  induction k as [|k IH]; intros n fuel Hn Hf; cbv zeta.
  - assert (Hn' : 0 <= n < 16) by (change (16 ^ Z.of_nat 1) with 16 in Hn; lia). cbn [hex_digits]. cbv zeta.
    rewrite Z.div_small by lia. cbn. split; [lia|reflexivity].
  - cbn [hex_digits]. cbv zeta. destruct (n / 16 =? 0) eqn:E.
    + split; [cbn; lia|]. change (hexfix (S (S k)) n) with (hexfix (S k) (n / 16) ++ [hex_digit (n mod 16)]).
      replace (n / 16) with 0 by lia. rewrite hexfix_0. reflexivity.
    + destruct fuel as [|f].
      { exfalso. change (2 ^ Z.of_nat 1) with 2 in Hf. Z.div_mod_to_equations; lia. }
      rewrite hex_digits_acc. assert (B1 : 0 <= n / 16 < 16 ^ Z.of_nat (S k)).
      { split; [apply Z.div_pos; lia|]. apply Z.div_lt_upper_bound; [lia|]. rewrite (Nat2Z.inj_succ (S k)), Z.pow_succ_r in Hn by lia. lia. }
      assert (B2 : n / 16 < 2 ^ Z.of_nat (S f)).
      { apply Z.div_lt_upper_bound; [lia|]. rewrite (Nat2Z.inj_succ (S f)), Z.pow_succ_r in Hf by lia. lia. }
      destruct (IH (n / 16) f B1 B2) as [L R]. cbv zeta in *. rewrite app_length. cbn [length].
      split; [lia|]. change (hexfix (S (S k)) n) with (hexfix (S k) (n / 16) ++ [hex_digit (n mod 16)]). rewrite <- R.
      rewrite <- app_assoc. f_equal. f_equal. lia.
Qed.

Lemma hex8_text n : 0 <= n < 2 ^ 32 -> hex8 n = hexfix 8 n.
Proof.
  intros Hn. unfold hex8. cbv zeta. apply (hex_digits_fix 7 n (Z.to_nat (Z.log2 n))); [exact Hn|].
  destruct (Z.eq_dec n 0) as [->|N]; [reflexivity|]. pose proof (Z.log2_spec n ltac:(lia)). pose proof (Z.log2_nonneg n).
  replace (Z.of_nat (S (Z.to_nat (Z.log2 n)))) with (Z.succ (Z.log2 n)) by lia. lia.
Qed.

(* ---- histories ---- *)
Definition chal_of (d : digest) : chal := mkChal (d_realm d) (d_nonce d) (d_opaque d) (d_algorithm d) (d_qop d).

Definition auth_text (d : digest) : bytes :=
  bs "Digest username=""" ++ d_username d ++ bs """, realm=""" ++ d_realm d ++ bs """, nonce=""" ++ d_nonce d ++
  bs """, uri=""" ++ d_uri d ++ bs """, algorithm=""" ++ d_algorithm d ++
  (if beq (d_opaque d) [] then [] else bs """, opaque=""" ++ d_opaque d) ++ bs """".

Lemma header_text (user re no ur al op R : bytes) :
  (bs "Digest username=""" ++ user ++ bs """, realm=""" ++ re ++ bs """, nonce=""" ++ no ++ bs """, uri=""" ++ ur ++ bs """, algorithm=""" ++ al ++
   (if beq op [] then [] else bs """, opaque=""" ++ op) ++ bs """") ++ bs ", response=""" ++ R ++ bs """" =
  bs "Digest " ++ commas ([quoted (bs "username") user; quoted (bs "realm") re; quoted (bs "nonce") no; quoted (bs "uri") ur; quoted (bs "algorithm") al] ++
    (match op with [] => [] | z :: l => [quoted (bs "opaque") (z :: l)] end) ++ [] ++ [quoted (bs "response") R]).
Proof.
  unfold quoted. destruct op as [|o op]; [change (beq [] []) with true|change (beq (o :: op) []) with false; set (oo := o :: op); clearbody oo]; cbv iota;
    cbn [app commas]; rewrite <- ?app_assoc; vm_compute; reflexivity.
Qed.

Lemma header_text_qop (user re no ur al op qq nc cn R : bytes) :
  (bs "Digest username=""" ++ user ++ bs """, realm=""" ++ re ++ bs """, nonce=""" ++ no ++ bs """, uri=""" ++ ur ++ bs """, algorithm=""" ++ al ++
   (if beq op [] then [] else bs """, opaque=""" ++ op) ++ bs """") ++
  bs ", qop=""" ++ qq ++ bs """, nc=" ++ nc ++ bs ", cnonce=""" ++ cn ++ bs """, response=""" ++ R ++ bs """" =
  bs "Digest " ++ commas ([quoted (bs "username") user; quoted (bs "realm") re; quoted (bs "nonce") no; quoted (bs "uri") ur; quoted (bs "algorithm") al] ++
    (match op with [] => [] | z :: l => [quoted (bs "opaque") (z :: l)] end) ++ [quoted (bs "qop") qq; bs "nc=" ++ nc; quoted (bs "cnonce") cn] ++
    [quoted (bs "response") R]).
Proof.
  unfold quoted. destruct op as [|o op]; [change (beq [] []) with true|change (beq (o :: op) []) with false; set (oo := o :: op); clearbody oo]; cbv iota;
    cbn [app commas]; rewrite <- ?app_assoc; vm_compute; reflexivity.
Qed.

Lemma md5hex_H x : md5hex x = H x.
Proof. reflexivity. Qed.
Local Opaque md5hex H.

Definition model_ha2 (d : digest) (verb body : bytes) : bytes :=
  if beq (d_qop d) (bs "auth-int") then md5hex (colonnade verb [d_uri d; md5hex body]) else md5hex (colonnade verb [d_uri d]).
Definition model_ha1 (d : digest) : bytes :=
  if beq (d_algorithm d) (bs "md5-sess") then md5hex (colonnade (d_ha1 d) [d_nonce d; d_cnonce d]) else d_ha1 d.

Lemma model_ha2_eq d verb body : model_ha2 d verb body = rfc_ha2 (beq (d_qop d) (bs "auth-int")) verb (d_uri d) body.
Proof. unfold model_ha2, rfc_ha2. rewrite !md5hex_H, !colonnade_colons. reflexivity. Qed.

Lemma auth_call_out d verb body : d_basic d = false ->
  snd (auth_call (auth_text d) d verb body) = auth_text d ++
    (if beq (d_qop d) [] then bs ", response=""" ++ md5hex (colonnade (d_ha1 d) [d_nonce d; model_ha2 d verb body]) ++ bs """"
     else bs ", qop=""" ++ d_qop d ++ bs """, nc=" ++ d_nc d ++ bs ", cnonce=""" ++ d_cnonce d ++ bs """, response=""" ++
       md5hex (colonnade (model_ha1 d) [d_nonce d; d_nc d; d_cnonce d; d_qop d; model_ha2 d verb body]) ++ bs """").
Proof.
  intros B. unfold auth_call. rewrite B. destruct d as [ba us re dm no op st al cn qo ur h1 h2 nc ct].
  unfold digest_response, model_ha1, model_ha2. cbn [d_qop d_nonce d_ha1 d_nc d_cnonce d_uri d_algorithm]. cbv zeta.
  destruct (beq qo []); reflexivity.
Qed.

(* the state of an authenticated digest whose ha1 is that of the request *)
Lemma response_header d user pass verb body : d_basic d = false -> d_username d = user ->
  (if beq (d_qop d) [] then d_ha1 d else model_ha1 d) =
    rfc_ha1 (beq (d_algorithm d) (bs "md5-sess")) user (d_realm d) pass (d_nonce d) (d_cnonce d) ->
  snd (auth_call (auth_text d) d verb body) = rfc_header (chal_of d) (d_uri d) user pass (d_nc d) (d_cnonce d) verb body.
Proof.
  intros B U HA. rewrite auth_call_out by exact B. unfold rfc_header, chal_of. cbv zeta. cbn [c_realm c_nonce c_opaque c_algorithm c_qop].
  rewrite <- model_ha2_eq, <- HA. unfold auth_text. rewrite U. unfold rfc_response.
  destruct (d_qop d) as [|q0 qo] eqn:Q.
  - change (beq [] []) with true. cbv iota. rewrite md5hex_H, colonnade_colons. apply header_text.
  - change (beq (q0 :: qo) []) with false. cbv iota. rewrite md5hex_H, colonnade_colons. apply header_text_qop.
Qed.

(* calls only change ha1 (in a session) and ha2 *)
Lemma call_frame auth d verb body : let d' := fst (auth_call auth d verb body) in
  d_basic d' = d_basic d /\ d_username d' = d_username d /\ chal_of d' = chal_of d /\ d_uri d' = d_uri d /\ d_nc d' = d_nc d /\
  d_cnonce d' = d_cnonce d /\ d_count d' = d_count d /\ (beq (d_algorithm d) (bs "md5-sess") = false \/ beq (d_qop d) [] = true -> d_ha1 d' = d_ha1 d).
Proof.
  cbv zeta. unfold auth_call. destruct (d_basic d) eqn:B; [cbn [fst]; splits; auto|].
  destruct d as [ba us re dm no op st al cn qo ur h1 h2 nc ct]. unfold digest_response. cbv zeta.
  cbn [d_algorithm d_qop d_basic] in *. destruct (beq qo []); cbn [fst].
  - splits; auto.
  - splits; auto. intros [E|E]; [|discriminate]. cbn [d_ha1]. rewrite E. reflexivity.
Qed.

Lemma next_frame d rnd : let d' := digest_next d rnd in
  d_basic d' = d_basic d /\ d_username d' = d_username d /\ chal_of d' = chal_of d /\ d_uri d' = d_uri d /\ d_ha1 d' = d_ha1 d /\
  (d_qop d <> [] -> d_nc d' = hex8 (d_count d + 1) /\ d_count d' = d_count d + 1 /\ d_cnonce d' = cnonce_of rnd).
Proof.
  cbv zeta. unfold digest_next. destruct (beq (d_qop d) []) eqn:Q.
  - splits; auto. intros N. apply beq_eq in Q. contradiction.
  - destruct d. cbn. splits; auto.
Qed.

Lemma chal_text d d' : d_username d' = d_username d -> chal_of d' = chal_of d -> d_uri d' = d_uri d -> auth_text d' = auth_text d.
Proof. intros U C R. unfold auth_text. unfold chal_of in C. injection C as -> -> -> -> _. rewrite U, R. reflexivity. Qed.

Lemma renewals_nonneg ops : 0 <= renewals ops.
Proof. induction ops as [|[v b|r] ops IH]; cbn [renewals]; lia. Qed.

(* without qop neither the count nor the client nonce matters *)
Lemma header_noqop c uri user pass n1 c1 n2 c2 verb body : c_qop c = [] -> beq (c_algorithm c) (bs "md5-sess") = false ->
  rfc_header c uri user pass n1 c1 verb body = rfc_header c uri user pass n2 c2 verb body.
Proof. intros Q A. unfold rfc_header, rfc_response, rfc_ha1. rewrite Q, A. reflexivity. Qed.

Lemma calls_plain ops : forall d user pass n cn, d_basic d = false -> d_username d = user -> beq (d_algorithm d) (bs "md5-sess") = false ->
  d_ha1 d = H (colons [user; d_realm d; pass]) ->
  (d_qop d <> [] -> d_nc d = hex8 n /\ d_cnonce d = cn /\ d_count d = n) -> 0 <= n -> n + renewals ops < 2 ^ 32 ->
  calls (auth_text d) d ops = rfc_calls (chal_of d) (d_uri d) user pass n cn ops.
Proof.
  induction ops as [|[verb body|rnd] ops IH]; intros d user pass n cn B U A HA Q N0 N1; [reflexivity| |]; cbn [calls rfc_calls renewals] in *.
  - destruct (auth_call (auth_text d) d verb body) as [d' out] eqn:E.
    pose proof (call_frame (auth_text d) d verb body) as F. rewrite E in F. cbv zeta in F. cbn [fst] in F.
    destruct F as (F1 & F2 & F3 & F4 & F5 & F6 & F7 & F8). f_equal.
    + replace out with (snd (auth_call (auth_text d) d verb body)) by (rewrite E; reflexivity).
      rewrite (response_header d user pass verb body B U).
      * destruct (list_eq_dec Z.eq_dec (d_qop d) []) as [q|q].
        -- apply header_noqop; [exact q|exact A].
        -- destruct (Q q) as (Q1 & Q2 & Q3). rewrite Q1, Q2. rewrite hex8_text by (pose proof (renewals_nonneg ops); lia). reflexivity.
      * rewrite A. unfold model_ha1. rewrite A. unfold rfc_ha1. destruct (beq (d_qop d) []); exact HA.
    + assert (C : d_realm d' = d_realm d /\ d_algorithm d' = d_algorithm d /\ d_qop d' = d_qop d) by (unfold chal_of in F3; injection F3; auto).
      destruct C as (C1 & C2 & C3).
      rewrite <- (chal_text d d' F2 F3 F4). rewrite (IH d' user pass n cn); try congruence.
      * rewrite F8 by (left; exact A). rewrite C1. exact HA.
      * rewrite C3, F5, F6, F7. exact Q.
  - destruct (next_frame d rnd) as (F1 & F2 & F3 & F4 & F5 & F6). cbv zeta in *.
    assert (C : d_realm (digest_next d rnd) = d_realm d /\ d_algorithm (digest_next d rnd) = d_algorithm d /\ d_qop (digest_next d rnd) = d_qop d)
      by (unfold chal_of in F3; injection F3; auto).
    destruct C as (C1 & C2 & C3). rewrite <- (chal_text d (digest_next d rnd) F2 F3 F4).
    rewrite (IH (digest_next d rnd) user pass (n + 1) (cnonce_of rnd)); try congruence; try lia.
    rewrite C3. intros q. destruct (F6 q) as (G1 & G2 & G3). destruct (Q q) as (Q1 & Q2 & Q3). rewrite G1, G2, G3, Q3. auto.
Qed.

(* Authenticate *)
Lemma authenticate_frame d user pass rnd : d_basic d = false ->
  let '(d', auth) := authenticate d user pass rnd in
  auth = auth_text d' /\ d_basic d' = false /\ d_username d' = user /\ chal_of d' = chal_of d /\ d_uri d' = d_uri d /\
  d_ha1 d' = H (colons [user; d_realm d; pass]) /\
  (d_qop d <> [] -> d_nc d' = hex8 (d_count d + 1) /\ d_count d' = d_count d + 1 /\ d_cnonce d' = cnonce_of rnd).
Proof.
  intros B. unfold authenticate. rewrite B. destruct d as [ba us re dm no op st al cn qo ur h1 h2 nc ct].
  cbn [d_basic] in B. subst ba. cbv zeta.
  set (d1 := mkDigest false user re dm no op st al cn qo ur (md5hex (colonnade user [re; pass])) h2 nc ct).
  destruct (next_frame d1 rnd) as (F1 & F2 & F3 & F4 & F5 & F6). cbv zeta in *.
  rewrite (chal_text d1 (digest_next d1 rnd) F2 F3 F4), F1, F2, F3, F4, F5.
  splits; try reflexivity.
  - unfold d1. cbn [d_ha1 d_realm]. rewrite md5hex_H, colonnade_colons. reflexivity.
  - exact F6.
Qed.

Lemma session_plain uri ch d user pass rnd ops : new_digest uri ch = Ok d -> d_basic d = false -> d_algorithm d <> bs "md5-sess" ->
  1 + renewals ops < 2 ^ 32 ->
  session_calls d user pass rnd ops = rfc_calls (chal_of d) uri user pass 1 (cnonce_of rnd) ops.
Proof.
  intros E B A N. apply new_digest_fresh in E as [C U]. unfold session_calls.
  pose proof (authenticate_frame d user pass rnd B) as F. destruct (authenticate d user pass rnd) as [d' auth].
  destruct F as (-> & F1 & F2 & F3 & F4 & F5 & F6).
  assert (C' : d_realm d' = d_realm d /\ d_algorithm d' = d_algorithm d /\ d_qop d' = d_qop d) by (unfold chal_of in F3; injection F3; auto).
  destruct C' as (C1 & C2 & C3).
  rewrite (calls_plain ops d' user pass 1 (cnonce_of rnd)); try congruence; try lia.
  - rewrite C2. apply beq_neq. exact A.
  - rewrite C3. intros q. destruct (F6 q) as (G1 & G2 & G3). rewrite G1, G2, G3, C. auto.
Qed.

Lemma session_first uri ch d user pass rnd verb body : new_digest uri ch = Ok d -> d_basic d = false -> d_qop d <> [] ->
  session_calls d user pass rnd [Call verb body] = rfc_calls (chal_of d) uri user pass 1 (cnonce_of rnd) [Call verb body].
Proof.
  intros E B Q. apply new_digest_fresh in E as [C U]. unfold session_calls.
  pose proof (authenticate_frame d user pass rnd B) as F. destruct (authenticate d user pass rnd) as [d' auth].
  destruct F as (-> & F1 & F2 & F3 & F4 & F5 & F6).
  assert (C' : d_realm d' = d_realm d /\ d_algorithm d' = d_algorithm d /\ d_qop d' = d_qop d) by (unfold chal_of in F3; injection F3; auto).
  destruct C' as (C1 & C2 & C3). destruct (F6 Q) as (G1 & G2 & G3).
  cbn [calls rfc_calls]. destruct (auth_call (auth_text d') d' verb body) as [d2 out] eqn:Ec. f_equal.
  replace out with (snd (auth_call (auth_text d') d' verb body)) by (rewrite Ec; reflexivity).
  rewrite (response_header d' user pass verb body F1 F2).
  - rewrite F3, F4, U, G1, G3, C, hex8_text by lia. reflexivity.
  - rewrite C3. replace (beq (d_qop d) []) with false by (symmetry; apply beq_neq; exact Q). cbv iota.
    unfold model_ha1, rfc_ha1. rewrite md5hex_H, colonnade_colons, F5, C1. reflexivity.
Qed.

(* every algorithm, every history: what the headers are exactly *)
Lemma key_header d verb body : d_basic d = false ->
  snd (auth_call (auth_text d) d verb body) =
  header_with (chal_of d) (d_uri d) (d_username d) (hash_again (chal_of d) (d_ha1 d) (d_cnonce d)) (d_nc d) (d_cnonce d) verb body.
Proof.
  intros B. rewrite auth_call_out by exact B. unfold header_with, hash_again, chal_of. cbv zeta. cbn [c_realm c_nonce c_opaque c_algorithm c_qop].
  rewrite <- model_ha2_eq. unfold auth_text, rfc_response.
  destruct (d_qop d) as [|q0 qo] eqn:Q.
  - change (beq [] []) with true. cbv iota. rewrite md5hex_H, colonnade_colons. apply header_text.
  - change (beq (q0 :: qo) []) with false. cbv iota. unfold model_ha1. rewrite !md5hex_H, !colonnade_colons. apply header_text_qop.
Qed.

Lemma key_kept d verb body : d_basic d = false ->
  d_ha1 (fst (auth_call (auth_text d) d verb body)) = hash_again (chal_of d) (d_ha1 d) (d_cnonce d).
Proof.
  intros B. unfold auth_call. rewrite B. destruct d as [ba us re dm no op st al cn qo ur h1 h2 nc ct]. unfold digest_response, hash_again, chal_of. cbv zeta.
  cbn [d_algorithm d_qop d_basic d_ha1 d_cnonce d_realm d_nonce d_opaque c_qop c_algorithm c_nonce] in *.
  destruct qo as [|q0 qo]; [reflexivity|]. change (beq (q0 :: qo) []) with false. cbv iota. cbn [fst d_ha1].
  rewrite md5hex_H, colonnade_colons. reflexivity.
Qed.

Lemma calls_drift ops : forall d n cn, d_basic d = false ->
  (d_qop d <> [] -> d_nc d = hex8 n /\ d_cnonce d = cn /\ d_count d = n) -> 0 <= n -> n + renewals ops < 2 ^ 32 ->
  calls (auth_text d) d ops = drift_calls (chal_of d) (d_uri d) (d_username d) (d_ha1 d) n cn ops.
Proof.
  induction ops as [|[verb body|rnd] ops IH]; intros d n cn B Q N0 N1; [reflexivity| |]; cbn [calls drift_calls renewals] in *.
  - pose proof (key_header d verb body B) as K1. pose proof (key_kept d verb body B) as K2.
    destruct (auth_call (auth_text d) d verb body) as [d' out] eqn:E.
    pose proof (call_frame (auth_text d) d verb body) as F. rewrite E in F. cbv zeta in F. cbn [fst snd] in F, K1, K2.
    destruct F as (F1 & F2 & F3 & F4 & F5 & F6 & F7 & _).
    assert (C3 : d_qop d' = d_qop d) by (unfold chal_of in F3; injection F3; auto).
    cbv zeta. assert (K : hash_again (chal_of d) (d_ha1 d) cn = hash_again (chal_of d) (d_ha1 d) (d_cnonce d)).
    { unfold hash_again. cbn [c_qop chal_of]. destruct (d_qop d) eqn:q; [reflexivity|]. destruct Q as (_ & -> & _); [discriminate|reflexivity]. }
    rewrite K. f_equal.
    + rewrite K1. destruct (d_qop d) eqn:q.
      * unfold header_with, chal_of, rfc_response. cbn [c_qop]. rewrite q. reflexivity.
      * destruct Q as (-> & -> & _); [discriminate|]. rewrite hex8_text by (pose proof (renewals_nonneg ops); lia). reflexivity.
    + rewrite <- (chal_text d d' F2 F3 F4). rewrite (IH d' n cn); try congruence. rewrite C3, F5, F6, F7. exact Q.
  - destruct (next_frame d rnd) as (F1 & F2 & F3 & F4 & F5 & F6). cbv zeta in *.
    assert (C3 : d_qop (digest_next d rnd) = d_qop d) by (unfold chal_of in F3; injection F3; auto).
    rewrite <- (chal_text d (digest_next d rnd) F2 F3 F4).
    rewrite (IH (digest_next d rnd) (n + 1) (cnonce_of rnd)); try congruence; try lia.
    rewrite C3. intros q. destruct (F6 q) as (G1 & G2 & G3). destruct (Q q) as (Q1 & Q2 & Q3). rewrite G1, G2, G3, Q3. auto.
Qed.

Lemma session_drift uri ch d user pass rnd ops : new_digest uri ch = Ok d -> d_basic d = false -> 1 + renewals ops < 2 ^ 32 ->
  session_calls d user pass rnd ops = drift_calls (chal_of d) uri user (H (colons [user; d_realm d; pass])) 1 (cnonce_of rnd) ops.
Proof.
  intros E B N. apply new_digest_fresh in E as [C U]. unfold session_calls.
  pose proof (authenticate_frame d user pass rnd B) as F. destruct (authenticate d user pass rnd) as [d' auth].
  destruct F as (-> & F1 & F2 & F3 & F4 & F5 & F6).
  assert (C3 : d_qop d' = d_qop d) by (unfold chal_of in F3; injection F3; auto).
  rewrite (calls_drift ops d' 1 (cnonce_of rnd)); try congruence; try lia.
  rewrite C3. intros q. destruct (F6 q) as (G1 & G2 & G3). rewrite G1, G2, G3, C. auto.
Qed.

Lemma calls_basic ops : forall d auth, d_basic d = true -> calls auth d ops =
  flat_map (fun o => match o with Call _ _ => [auth] | Renew _ => [] end) ops.
Proof.
  induction ops as [|[v b|r] ops IH]; intros d auth B; [reflexivity| |]; cbn [calls flat_map app].
  - unfold auth_call. rewrite B. f_equal. apply IH. exact B.
  - apply IH. rewrite (proj1 (next_frame d r)). exact B.
Qed.

Lemma parsed_items basic uri ch l : trim_space ch = scheme basic ++ items_text l -> l <> [] -> Forall item_ok l ->
  new_digest uri ch = finish (fold_left apply_item l (fresh basic uri)).
Proof.
  intros E N F. rewrite (new_digest_scheme uri ch basic _ E). rewrite items_join, split_join.
  - rewrite set_attrs_items by exact F. reflexivity.
  - destruct l; [contradiction|discriminate].
  - apply Forall_map. eapply Forall_impl; [|exact F]. intros i. apply item_no_comma.
Qed.

Lemma challenge_parsed basic uri ch l : trim_space ch = scheme basic ++ items_text l -> l <> [] -> Forall item_ok l ->
  (given (bs "nonce") [] l = [] \/ In (to_lower (given (bs "algorithm") (bs "md5") l)) [bs "md5"; bs "md5-sess"]) ->
  exists d, new_digest uri ch = Ok d /\ d_basic d = basic /\ d_uri d = uri /\ d_realm d = given (bs "realm") [] l /\
    d_domain d = given (bs "domain") [] l /\ d_nonce d = given (bs "nonce") [] l /\ d_opaque d = given (bs "opaque") [] l /\
    d_stale d = given (bs "stale") [] l /\ d_algorithm d = to_lower (given (bs "algorithm") (bs "md5") l) /\
    d_qop d = to_lower (given (bs "qop") [] l).
Proof.
  intros E N F A. rewrite (parsed_items basic uri ch l E N F).
  destruct (items_fields l (fresh basic uri) F) as (B1 & B2 & B3 & B4 & B5 & B6 & B7 & B8 & B9 & B10 & B11 & B12). cbv zeta in *.
  specialize (B11 (bs "md5") eq_refl). specialize (B12 [] eq_refl).
  exists (fold_left apply_item l (fresh basic uri)). splits; auto. unfold finish. rewrite B8, B11.
  destruct A as [A|A]; [change (d_nonce (fresh basic uri)) with (@nil Z); rewrite A; reflexivity|].
  cbn [In] in A. destruct A as [A|[A|[]]]; rewrite <- A; [change (beq (bs "md5") (bs "md5")) with true|change (beq (bs "md5-sess") (bs "md5-sess")) with true];
    cbn [negb]; rewrite ?andb_false_r; reflexivity.
Qed.

Lemma algorithm_refused basic uri ch l : trim_space ch = scheme basic ++ items_text l -> l <> [] -> Forall item_ok l ->
  given (bs "nonce") [] l <> [] -> ~ In (to_lower (given (bs "algorithm") (bs "md5") l)) [bs "md5"; bs "md5-sess"] ->
  new_digest uri ch = Err ErrAuthNotImplemented.
Proof.
  intros E N F A K. rewrite (parsed_items basic uri ch l E N F).
  destruct (items_fields l (fresh basic uri) F) as (B1 & B2 & B3 & B4 & B5 & B6 & B7 & B8 & B9 & B10 & B11 & B12). cbv zeta in *.
  specialize (B11 (bs "md5") eq_refl). unfold finish. rewrite B8, B11.
  replace (beq (given (bs "nonce") (d_nonce (fresh basic uri)) l) []) with false by (symmetry; apply beq_neq; exact A).
  cbn [In] in K. replace (beq (to_lower (given (bs "algorithm") (bs "md5") l)) (bs "md5")) with false by (symmetry; apply beq_neq; intros X; apply K; left; symmetry; exact X).
  replace (beq (to_lower (given (bs "algorithm") (bs "md5") l)) (bs "md5-sess")) with false by (symmetry; apply beq_neq; intros X; apply K; right; left; symmetry; exact X).
  reflexivity.
Qed.

Lemma new_digest_total uri ch : (exists d, new_digest uri ch = Ok d) \/ new_digest uri ch = Err ErrAuthMalformedChallenge \/
  new_digest uri ch = Err ErrAuthNotImplemented.
Proof.
  assert (T : forall basic rest, let r := (let! d := set_attrs (fresh basic uri) (split_on 44 rest) in finish d) in
    (exists d, r = Ok d) \/ r = Err ErrAuthMalformedChallenge \/ r = Err ErrAuthNotImplemented).
  { intros basic rest. cbv zeta. destruct (set_attrs_total (split_on 44 rest) (fresh basic uri)) as [[d E]|E]; rewrite E; cbn [bind]; [|auto].
    unfold finish. destruct (negb (beq (d_nonce d) []) && negb (beq (d_algorithm d) (bs "md5")) && negb (beq (d_algorithm d) (bs "md5-sess"))); eauto. }
  unfold new_digest. cbv zeta. destruct (has_prefix (bs "Digest ") (trim_space ch)); [apply (T false)|].
  destruct (has_prefix (bs "Basic ") (trim_space ch)); [apply (T true)|auto].
Qed.
