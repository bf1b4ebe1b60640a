(* Lemmas: challenges in the forms of the standard. *)
From Coq Require Import String.
From Verif Require Import Base GoStrings S_md5 S_digest S_challenge M_digest L_base L_rtp L_strings L_digest.
From Coq Require Import ZifyBool.

Lemma trim_rev_spaces b s : spaces b -> trim_rev (b ++ s) = trim_rev s.
Proof. induction 1 as [|x b -> _ IH]; [reflexivity|]. cbn [app trim_rev]. exact IH. Qed.
Lemma trim_space_around b a s z e : spaces b -> spaces e -> 33 <= a <= 126 -> 33 <= z <= 126 -> trim_space (b ++ (a :: s ++ [z]) ++ e) = a :: s ++ [z].
Proof.
  intros B E A Y. rewrite trim_space_blanks by exact B. unfold trim_space. change ((a :: s ++ [z]) ++ e) with (a :: (s ++ [z]) ++ e). rewrite trim_left_ink by exact A.
  change (a :: (s ++ [z]) ++ e) with ((a :: s ++ [z]) ++ e). rewrite rev_app_distr. rewrite trim_rev_spaces by (apply Forall_rev; exact E).
  change (a :: s ++ [z]) with ((a :: s) ++ [z]). rewrite rev_app_distr. cbn [rev app]. rewrite trim_rev_ink by exact Y. cbn [rev]. rewrite rev_app_distr, rev_involutive. reflexivity.
Qed.
Lemma token_ink c : token_char c -> 33 <= c <= 126.
Proof. intros [B _]. exact B. Qed.
Lemma token_not c x : token_char c -> In x [40; 41; 60; 62; 64; 44; 59; 58; 92; 34; 47; 91; 93; 63; 61; 123; 125] -> c <> x.
Proof. intros [_ N] I ->. contradiction. Qed.
Lemma tokens_not s x : Forall token_char s -> In x [40; 41; 60; 62; 64; 44; 59; 58; 92; 34; 47; 91; 93; 63; 61; 123; 125] -> ~ In x s.
Proof. intros F I X. apply (token_not x x); [exact (proj1 (Forall_forall _ _) F x X)|exact I|reflexivity]. Qed.

Definition raw (p : cparam) : bytes := if cp_quoted p then bs """" ++ cp_value p ++ bs """" else cp_value p.
Lemma raw_last p : cparam_ok p -> exists m z, raw p = m ++ [z] /\ 33 <= z <= 126.
Proof.
  intros (_ & _ & _ & _ & V). unfold raw. destruct (cp_quoted p).
  - exists (bs """" ++ cp_value p), 34. split; [rewrite <- app_assoc; reflexivity|lia].
  - destruct V as [NE F]. destruct (list_last_dec (cp_value p)) as [E|(m & z & E)]; [contradiction|]. rewrite E in F. apply Forall_app in F as [_ F]. apply Forall_cons_iff in F as [T _].
    exists m, z. split; [exact E|apply token_ink, T].
Qed.
Lemma raw_value p : cparam_ok p -> trim_byte 34 (raw p) = cp_value p.
Proof.
  intros (_ & _ & _ & _ & V). unfold raw. destruct (cp_quoted p).
  - destruct V as [Q _]. apply trim_quotes. exact Q.
  - destruct V as [_ F]. pose proof (tokens_not _ 34 F ltac:(cbn; tauto)) as N. unfold trim_byte. rewrite (drop_byte_notin 34 (cp_value p)) by exact N. rewrite drop_byte_notin by (rewrite <- in_rev; exact N). apply rev_involutive.
Qed.
Lemma cparam_trim p : cparam_ok p -> trim_space (cparam_text p) = cp_name p ++ 61 :: raw p.
Proof.
  intros O. destruct (raw_last p O) as (m & z & E & Y). destruct O as (B & A & NE & N & _). unfold cparam_text. change (if cp_quoted p then bs """" ++ cp_value p ++ bs """" else cp_value p) with (raw p). rewrite E. change (bs "=") with [61].
  destruct (cp_name p) as [|c n]; [contradiction|]. apply Forall_cons_iff in N as [C _].
  replace (cp_before p ++ (c :: n) ++ [61] ++ (m ++ [z]) ++ cp_after p) with (cp_before p ++ (c :: (n ++ 61 :: m) ++ [z]) ++ cp_after p) by (cbn [app]; rewrite <- !app_assoc; reflexivity).
  rewrite trim_space_around by (try assumption; apply token_ink, C). cbn [app]. rewrite <- !app_assoc. reflexivity.
Qed.
Lemma cparam_split p : cparam_ok p -> cut 61 (trim_space (cparam_text p)) = Some (cp_name p, raw p).
Proof. intros O. rewrite cparam_trim by exact O. destruct O as (_ & _ & _ & N & _). apply cut_app. apply tokens_not; [exact N|cbn; tauto]. Qed.
Lemma cparam_no_comma p : cparam_ok p -> ~ In 44 (cp_value p) -> ~ In 44 (cparam_text p).
Proof.
  intros (B & A & _ & N & _) V I. unfold cparam_text in I. change (bs "=") with [61] in I. rewrite !in_app_iff in I.
  destruct I as [I|[I|[I|[I|I]]]].
  - pose proof (proj1 (Forall_forall _ _) B _ I) as X. cbv beta in X. lia.
  - revert I. apply tokens_not; [exact N|cbn; tauto].
  - cbn in I. lia.
  - destruct (cp_quoted p); [|auto]. rewrite !in_app_iff in I. destruct I as [I|[I|I]]; [cbn in I; lia|auto|cbn in I; lia].
  - pose proof (proj1 (Forall_forall _ _) A _ I) as X. cbv beta in X. lia.
Qed.
Lemma cparams_join l : cparams_text l = join 44 (map cparam_text l).
Proof. induction l as [|i [|j r] IH]; [reflexivity|reflexivity|]. cbn [cparams_text map join] in *. rewrite IH. reflexivity. Qed.

Definition plain_item (p : cparam) : aitem := mkItem [] (cp_name p) (cp_value p).
Lemma plain_item_ok p : cparam_ok p -> In (to_lower (cp_name p)) known_attrs -> Forall ascii_letter (cp_name p) -> ~ In 44 (cp_value p) -> item_ok (plain_item p).
Proof.
  intros (_ & _ & _ & _ & V) K L C. unfold item_ok, plain_item. cbn [a_blank a_name a_val]. splits; [constructor|exact L|exact K|exact C|].
  destruct (cp_quoted p); [apply V|]. apply tokens_not; [apply V|cbn; tauto].
Qed.
Lemma set_attrs_params l : forall d, Forall cparam_ok l -> Forall item_ok (map plain_item l) -> set_attrs d (map cparam_text l) = Ok (fold_left apply_item (map plain_item l) d).
Proof.
  induction l as [|p l IH]; intros d F G; [reflexivity|]. apply Forall_cons_iff in F as [F1 F]. cbn [map] in *. apply Forall_cons_iff in G as [G1 G]. cbn [set_attrs fold_left]. cbv zeta.
  rewrite cparam_split by exact F1. destruct G1 as (_ & _ & K & _). cbn [plain_item a_name] in K. pose proof (raw_value p F1) as RV. destruct F1 as (_ & _ & NE & _).
  destruct (cp_name p) as [|c n] eqn:En; [contradiction|]. rewrite <- En in *. rewrite RV. unfold apply_item at 2. cbn [plain_item a_name a_val].
  destruct (set_attr_known d (to_lower (cp_name p)) (cp_value p) K) as [d' E]. rewrite E. cbn [bind]. apply IH; assumption.
Qed.
Lemma given_value k l : forall v, given k v (map plain_item l) = value_of k v l.
Proof. induction l as [|p l IH]; intros v; [reflexivity|]. cbn [map]. unfold given, value_of in *. cbn [fold_left plain_item a_name a_val]. apply IH. Qed.

Lemma forms_parsed basic uri ch l : trim_space ch = scheme basic ++ cparams_text l -> l <> [] -> Forall cparam_ok l ->
  Forall (fun p => Forall ascii_letter (cp_name p) /\ In (to_lower (cp_name p)) known_attrs /\ ~ In 44 (cp_value p)) l ->
  (value_of (bs "nonce") [] l = [] \/ In (to_lower (value_of (bs "algorithm") (bs "md5") l)) [bs "md5"; bs "md5-sess"]) ->
  exists d, new_digest uri ch = Ok d /\ d_basic d = basic /\ d_uri d = uri /\ d_realm d = value_of (bs "realm") [] l /\
    d_domain d = value_of (bs "domain") [] l /\ d_nonce d = value_of (bs "nonce") [] l /\ d_opaque d = value_of (bs "opaque") [] l /\
    d_stale d = value_of (bs "stale") [] l /\ d_algorithm d = to_lower (value_of (bs "algorithm") (bs "md5") l) /\
    d_qop d = to_lower (value_of (bs "qop") [] l).
Proof.
  intros E NE F K A. rewrite (new_digest_scheme uri ch basic _ E), cparams_join, split_join;
    [|destruct l; [contradiction|discriminate]|apply Forall_map, Forall_forall; intros p I; apply cparam_no_comma; [exact (proj1 (Forall_forall _ _) F p I)|apply (proj1 (Forall_forall _ _) K p I)]].
  assert (G : Forall item_ok (map plain_item l)).
  { apply Forall_map, Forall_forall. intros p I. destruct (proj1 (Forall_forall _ _) K p I) as (K1 & K2 & K3). apply plain_item_ok; try assumption. exact (proj1 (Forall_forall _ _) F p I). }
  rewrite set_attrs_params by assumption. cbn [bind].
  destruct (items_fields (map plain_item l) (fresh basic uri) G) as (B1 & B2 & B3 & B4 & B5 & B6 & B7 & B8 & B9 & B10 & B11 & B12). cbv zeta in *.
  specialize (B11 (bs "md5") eq_refl). specialize (B12 [] eq_refl). rewrite given_value in B6, B7, B8, B9, B10, B11, B12.
  exists (fold_left apply_item (map plain_item l) (fresh basic uri)). splits; auto. unfold finish. rewrite B8, B11.
  destruct A as [A|A]; [change (d_nonce (fresh basic uri)) with (@nil Z); rewrite A; reflexivity|].
  cbn [In] in A. destruct A as [A|[A|[]]]; rewrite <- A; [change (beq (bs "md5") (bs "md5")) with true|change (beq (bs "md5-sess") (bs "md5-sess")) with true];
    cbn [negb]; rewrite ?andb_false_r; reflexivity.
Qed.

(* ---- what is not understood ---- *)
Lemma other_scheme uri ch sch rest : trim_space ch = sch ++ 32 :: rest -> ~ In 32 sch -> sch <> bs "Digest" -> sch <> bs "Basic" -> new_digest uri ch = Err ErrAuthMalformedChallenge.
Proof.
  intros E N D B. apply new_digest_malformed. intros basic r X. rewrite E in X.
  assert (C : cut 32 (sch ++ 32 :: rest) = Some (sch, rest)) by (apply cut_app; exact N). rewrite X in C.
  destruct basic; [change (scheme true ++ r) with (bs "Basic" ++ 32 :: r) in C|change (scheme false ++ r) with (bs "Digest" ++ 32 :: r) in C];
    rewrite cut_app in C by (apply absent_spec; reflexivity); congruence.
Qed.
Lemma split_parts c a b : split_on c (a ++ c :: b) = split_on c a ++ split_on c b.
Proof.
  induction a as [|x a IH]; cbn [app split_on]; [rewrite Z.eqb_refl; reflexivity|]. destruct (x =? c); [rewrite IH; reflexivity|]. rewrite IH.
  destruct (split_on_nonempty c a) as (p & ps & E). rewrite E. reflexivity.
Qed.
Lemma cparams_app a p b : cparams_text (a ++ p :: b) = (match a with [] => [] | _ => cparams_text a ++ bs "," end) ++ cparam_text p ++ (match b with [] => [] | _ => bs "," ++ cparams_text b end).
Proof.
  induction a as [|x a IH]; [destruct b; cbn [app cparams_text]; rewrite ?app_nil_r; reflexivity|]. cbn [app].
  destruct a as [|y a]; [cbn [app cparams_text] in *; rewrite <- app_assoc; f_equal; f_equal; destruct b; cbn [cparams_text]; rewrite ?app_nil_r; reflexivity|].
  transitivity (cparam_text x ++ bs "," ++ cparams_text ((y :: a) ++ p :: b)); [reflexivity|]. rewrite IH.
  change (cparams_text (x :: y :: a)) with (cparam_text x ++ bs "," ++ cparams_text (y :: a)). rewrite <- !app_assoc. reflexivity.
Qed.
(* a part of the text that has the parameter's name and no comma before its value *)
Lemma split_head c s t : ~ In c s -> exists q r, split_on c (s ++ t) = (s ++ q) :: r.
Proof.
  intros N. destruct (split_on_nonempty c t) as (q & r & E). exists q, r. induction s as [|x s IH]; [exact E|]. cbn [app split_on].
  destruct (Z.eqb_spec x c) as [->|]; [exfalso; apply N; left; reflexivity|]. rewrite IH by (intros I; apply N; right; exact I). reflexivity.
Qed.
Lemma trim_left_first a s : 33 <= a <= 126 -> trim_left (a :: s) = a :: s.
Proof. apply trim_left_ink. Qed.
Lemma trim_rev_prefix n : forall s k, (length s <= n)%nat -> 33 <= k <= 126 -> exists q, trim_rev (s ++ [k]) = q ++ [k].
Proof.
  induction n as [|n IH]; intros s k L K.
  - destruct s; [|cbn in L; lia]. exists []. apply (trim_rev_ink k []). exact K.
  - destruct s as [|a s]; [exists []; apply (trim_rev_ink k []); exact K|]. cbn [length] in L. cbn [app trim_rev]. destruct (sp1 a); [apply IH; [lia|exact K]|].
    destruct s as [|b s]; cbn [app].
    + destruct (sp2 k a) eqn:E; [unfold sp2 in E; lia|]. exists [a]. reflexivity.
    + destruct (sp2 b a); [cbn [length] in L; apply IH; [lia|exact K]|]. destruct s as [|c s]; cbn [app].
      * destruct (sp3 k b a) eqn:E; [unfold sp3 in E; lia|]. exists [a; b]. reflexivity.
      * destruct (sp3 c b a); [cbn [length] in L; apply IH; [lia|exact K]|]. exists (a :: b :: c :: s). reflexivity.
Qed.
(* trimming keeps a text that begins and ends with printing characters *)
Lemma trim_rev_keeps s : forall k t, 33 <= k <= 126 -> exists q, trim_rev (s ++ k :: t) = q ++ k :: t.
Proof.
  intros k t K. remember (length s) as n eqn:E. revert s E. induction n as [n IH] using lt_wf_ind. intros s ->.
  destruct s as [|a s]; [exists []; apply trim_rev_ink; exact K|]. cbn [app trim_rev]. destruct (sp1 a); [apply (IH (length s)); [cbn; lia|reflexivity]|].
  destruct s as [|b s]; cbn [app].
  - destruct (sp2 k a) eqn:E; [unfold sp2 in E; lia|]. destruct t as [|t0 t]; [exists [a]; reflexivity|]. destruct (sp3 t0 k a) eqn:E3; [unfold sp3 in E3; lia|]. exists [a]. reflexivity.
  - destruct (sp2 b a); [apply (IH (length s)); [cbn; lia|reflexivity]|]. destruct s as [|c s]; cbn [app].
    + destruct (sp3 k b a) eqn:E; [unfold sp3 in E; lia|]. exists [a; b]. reflexivity.
    + destruct (sp3 c b a); [apply (IH (length s)); [cbn; lia|reflexivity]|]. exists (a :: b :: c :: s). reflexivity.
Qed.
Lemma trim_head b a s k t : spaces b -> 33 <= a <= 126 -> 33 <= k <= 126 -> exists q, trim_space (b ++ a :: s ++ k :: t) = a :: s ++ k :: q.
Proof.
  intros B A K. rewrite trim_space_blanks by exact B. unfold trim_space. rewrite trim_left_ink by exact A.
  replace (rev (a :: s ++ k :: t)) with (rev t ++ k :: rev (a :: s)) by (change (a :: s ++ k :: t) with ((a :: s) ++ k :: t); rewrite rev_app_distr; cbn [rev]; rewrite <- !app_assoc; reflexivity).
  destruct (trim_rev_keeps (rev t) k (rev (a :: s)) K) as (q & ->). exists (rev q). rewrite rev_app_distr. cbn [rev]. rewrite rev_app_distr, rev_involutive. cbn [rev app]. rewrite <- !app_assoc. reflexivity.
Qed.

(* a text before a comma, then blanks, a name that is not known (it may have blanks inside) and an equals sign *)
Lemma bad_part uri ch basic pre b name t : trim_space ch = scheme basic ++ pre ++ b ++ name ++ 61 :: t -> (pre = [] \/ exists x, pre = x ++ [44]) ->
  spaces b -> ~ In 44 name -> ~ In 61 name -> (exists c n, name = c :: n /\ 33 <= c <= 126) -> ~ In (to_lower name) known_attrs ->
  new_digest uri ch = Err ErrAuthMalformedChallenge.
Proof.
  intros E P B N1 N2 (c & n & -> & C) K. rewrite (new_digest_scheme uri ch basic _ E).
  assert (NB : ~ In 44 (b ++ (c :: n) ++ [61])).
  { intros I. rewrite !in_app_iff in I. destruct I as [I|[I|I]]; [pose proof (proj1 (Forall_forall _ _) B _ I) as X; cbv beta in X; lia|auto|cbn in I; lia]. }
  assert (S : exists part r1 r2 q, split_on 44 (pre ++ b ++ (c :: n) ++ 61 :: t) = r1 ++ part :: r2 /\ part = b ++ (c :: n) ++ 61 :: q).
  { assert (S1 : exists q r, split_on 44 (b ++ (c :: n) ++ 61 :: t) = (b ++ (c :: n) ++ 61 :: q) :: r).
    { destruct (split_head 44 (b ++ (c :: n) ++ [61]) t NB) as (q & r & S). exists q, r. replace (b ++ (c :: n) ++ 61 :: t) with ((b ++ (c :: n) ++ [61]) ++ t) by (rewrite <- !app_assoc; reflexivity).
      rewrite S. rewrite <- !app_assoc. reflexivity. }
    destruct S1 as (q & r & S1). destruct P as [->|(x & ->)].
    - exists (b ++ (c :: n) ++ 61 :: q), [], r, q. split; [exact S1|reflexivity].
    - exists (b ++ (c :: n) ++ 61 :: q), (split_on 44 x), r, q. split; [|reflexivity]. rewrite <- app_assoc. change ([44] ++ b ++ (c :: n) ++ 61 :: t) with (44 :: b ++ (c :: n) ++ 61 :: t). rewrite split_parts, S1. reflexivity. }
  destruct S as (part & r1 & r2 & q & S & PE). rewrite S.
  destruct (trim_head b c n 61 q B C ltac:(lia)) as (q' & T).
  rewrite (set_attrs_bad (r1 ++ part :: r2) part (c :: n) q'); [reflexivity|apply in_or_app; right; left; reflexivity|rewrite PE; exact T|discriminate|exact N2|exact K].
Qed.

(* ---- commas ---- *)
Lemma trim_left_sub n : forall s, (length s <= n)%nat -> incl (trim_left s) s.
Proof.
  induction n as [|n IH]; intros s L; [destruct s; [intros ? []|cbn in L; lia]|]. destruct s as [|a s]; [intros ? []|]. cbn [length] in L. cbn [trim_left].
  destruct (sp1 a); [intros x X; right; apply (IH s); [lia|exact X]|]. destruct s as [|b s]; [apply incl_refl|]. cbn [length] in L.
  destruct (sp2 a b); [intros x X; right; right; apply (IH s); [lia|exact X]|]. destruct s as [|c s]; [apply incl_refl|]. cbn [length] in L.
  destruct (sp3 a b c); [intros x X; right; right; right; apply (IH s); [lia|exact X]|]. apply incl_refl.
Qed.
Lemma trim_rev_sub n : forall s, (length s <= n)%nat -> incl (trim_rev s) s.
Proof.
  induction n as [|n IH]; intros s L; [destruct s; [intros ? []|cbn in L; lia]|]. destruct s as [|a s]; [intros ? []|]. cbn [length] in L. cbn [trim_rev].
  destruct (sp1 a); [intros x X; right; apply (IH s); [lia|exact X]|]. destruct s as [|b s]; [apply incl_refl|]. cbn [length] in L.
  destruct (sp2 b a); [intros x X; right; right; apply (IH s); [lia|exact X]|]. destruct s as [|c s]; [apply incl_refl|]. cbn [length] in L.
  destruct (sp3 c b a); [intros x X; right; right; right; apply (IH s); [lia|exact X]|]. apply incl_refl.
Qed.
Lemma trim_space_sub s : incl (trim_space s) s.
Proof. unfold trim_space. intros x X. rewrite <- in_rev in X. apply (trim_rev_sub _ _ (le_n _)) in X. rewrite <- in_rev in X. apply (trim_left_sub _ _ (le_n _)) in X. exact X. Qed.
Lemma drop_byte_sub c s : incl (drop_byte c s) s.
Proof. induction s as [|x s IH]; [intros ? []|]. cbn [drop_byte]. destruct (x =? c); [intros y Y; right; apply IH; exact Y|apply incl_refl]. Qed.
Lemma trim_byte_sub c s : incl (trim_byte c s) s.
Proof. unfold trim_byte. intros x X. rewrite <- in_rev in X. apply drop_byte_sub in X. rewrite <- in_rev in X. apply drop_byte_sub in X. exact X. Qed.
Lemma cut_sub c s a b : cut c s = Some (a, b) -> incl b s.
Proof.
  revert a. induction s as [|x s IH]; intros a E; [discriminate|]. cbn [cut] in E. destruct (x =? c); [injection E as <- <-; intros y Y; right; exact Y|].
  destruct (cut c s) as [[a' b']|] eqn:C; [|discriminate]. injection E as <- <-. intros y Y. right. apply (IH a' eq_refl). exact Y.
Qed.
Lemma split_no c s : Forall (fun p => ~ In c p) (split_on c s).
Proof.
  induction s as [|x s IH]; [repeat constructor; intros []|]. cbn [split_on]. destruct (Z.eqb_spec x c) as [->|N]; [constructor; [intros []|exact IH]|].
  destruct (split_on_nonempty c s) as (p & ps & E). rewrite E in *. inversion IH; subst. constructor; [intros [X|X]; [congruence|contradiction]|assumption].
Qed.
Definition commaless (d : digest) : Prop := ~ In 44 (d_realm d) /\ ~ In 44 (d_domain d) /\ ~ In 44 (d_nonce d) /\ ~ In 44 (d_opaque d).
Lemma set_attr_commaless d k v d' : commaless d -> ~ In 44 v -> set_attr d k v = Ok d' -> commaless d'.
Proof.
  intros (A & B & C & D) V. destruct d as [ba us re dm no op st al cn qo ur h1 h2 nc ct]. unfold set_attr, commaless in *. cbn [d_realm d_domain d_nonce d_opaque] in *.
  repeat match goal with |- context [if beq k ?x then _ else _] => destruct (beq k x) end;
    intros E; try discriminate; apply Ok_inj in E; subst; cbn [d_realm d_domain d_nonce d_opaque]; splits; assumption.
Qed.
Lemma set_attrs_commaless ps : forall d d', commaless d -> Forall (fun p => ~ In 44 p) ps -> set_attrs d ps = Ok d' -> commaless d'.
Proof.
  induction ps as [|p ps IH]; intros d d' C F E; [apply Ok_inj in E; subst; exact C|]. apply Forall_cons_iff in F as [F1 F]. cbn [set_attrs] in E. cbv zeta in E.
  destruct (cut 61 (trim_space p)) as [[[|c a] v]|] eqn:CU; try (apply (IH d d' C F E)).
  destruct (set_attr d (to_lower (c :: a)) (trim_byte 34 v)) as [d1| | |] eqn:E1; cbn [bind] in E; try discriminate.
  apply (IH d1 d'); [|exact F|exact E]. apply (set_attr_commaless d _ _ _ C) in E1; [exact E1|]. intros I. apply F1. apply trim_space_sub. apply (cut_sub _ _ _ _ CU). apply (trim_byte_sub 34). exact I.
Qed.
Lemma new_digest_commaless uri ch d : new_digest uri ch = Ok d -> commaless d.
Proof.
  intros E. unfold new_digest in E. cbv zeta in E.
  assert (F : forall basic rest, (let! d := set_attrs (fresh basic uri) (split_on 44 rest) in finish d) = Ok d -> commaless d).
  { intros basic rest X. destruct (set_attrs (fresh basic uri) (split_on 44 rest)) as [d1| | |] eqn:E1; cbn [bind] in X; try discriminate.
    apply set_attrs_commaless in E1; [|unfold commaless; cbn; tauto|apply split_no]. unfold finish in X.
    destruct (negb (beq (d_nonce d1) []) && negb (beq (d_algorithm d1) (bs "md5")) && negb (beq (d_algorithm d1) (bs "md5-sess"))); [discriminate|].
    apply Ok_inj in X. subst d1. exact E1. }
  destruct (has_prefix (bs "Digest ") (trim_space ch)); [exact (F false _ E)|].
  destruct (has_prefix (bs "Basic ") (trim_space ch)); [exact (F true _ E)|discriminate].
Qed.

(* ---- two challenges in one field ---- *)
Lemma to_lower_keeps n : forall s, (length s <= n)%nat -> In 32 s -> In 32 (to_lower s).
Proof.
  induction n as [|n IH]; intros s L I; [destruct s; [contradiction I|cbn in L; lia]|].
  destruct s as [|a s]; [contradiction I|]. cbn [length] in L. cbn [to_lower]. destruct s as [|b s].
  - destruct I as [->|[]]; left; reflexivity.
  - cbn [length] in L. destruct ((a =? 196) && (b =? 176)) eqn:E1; [destruct I as [->|[->|I]]; [lia|lia|right; apply IH; [lia|exact I]]|].
    destruct s as [|c s].
    + destruct I as [->|I]; [left; reflexivity|right; apply IH; [cbn [length]; lia|exact I]].
    + cbn [length] in L. destruct ((a =? 226) && (b =? 132) && (c =? 170)) eqn:E2; [destruct I as [->|[->|[->|I]]]; [lia|lia|lia|right; apply IH; [lia|exact I]]|].
      destruct I as [->|I]; [left; reflexivity|right; apply IH; [cbn [length]; lia|exact I]].
Qed.
Lemma spaced_unknown s : In 32 s -> ~ In (to_lower s) known_attrs.
Proof.
  intros I K. apply (to_lower_keeps (length s) s (le_n _)) in I. unfold known_attrs in K. cbn [In] in K.
  destruct K as [K|[K|[K|[K|[K|[K|[K|[]]]]]]]]; rewrite <- K in I; revert I; apply absent_spec; reflexivity.
Qed.
Lemma several_refused uri ch basic basic2 l b p l2 : trim_space ch = scheme basic ++ cparams_text l ++ bs "," ++ b ++ scheme basic2 ++ cparams_text (p :: l2) ->
  spaces b -> cparam_ok p -> new_digest uri ch = Err ErrAuthMalformedChallenge.
Proof.
  intros E B (PB & PA & NE & N & _).
  apply (bad_part uri ch basic (cparams_text l ++ [44]) b (scheme basic2 ++ cp_before p ++ cp_name p)
    ((if cp_quoted p then bs """" ++ cp_value p ++ bs """" else cp_value p) ++ cp_after p ++ (match l2 with [] => [] | _ => bs "," ++ cparams_text l2 end))).
  - rewrite E. pose proof (cparams_app [] p l2) as X. cbn [app] in X. rewrite X. unfold cparam_text. change (bs "=") with [61]. change (bs ",") with [44]. rewrite <- !app_assoc. reflexivity.
  - right. eexists. reflexivity.
  - exact B.
  - intros I. rewrite !in_app_iff in I. destruct I as [I|[I|I]]; [revert I; destruct basic2; apply absent_spec; reflexivity|pose proof (proj1 (Forall_forall _ _) PB _ I) as X; cbv beta in X; lia|revert I; apply tokens_not; [exact N|cbn; tauto]].
  - intros I. rewrite !in_app_iff in I. destruct I as [I|[I|I]]; [revert I; destruct basic2; apply absent_spec; reflexivity|pose proof (proj1 (Forall_forall _ _) PB _ I) as X; cbv beta in X; lia|revert I; apply tokens_not; [exact N|cbn; tauto]].
  - destruct basic2; [exists 66, (bs "asic " ++ cp_before p ++ cp_name p)|exists 68, (bs "igest " ++ cp_before p ++ cp_name p)]; (split; [reflexivity|lia]).
  - apply spaced_unknown. apply in_or_app. left. destruct basic2; cbn; tauto.
Qed.
Lemma unknown_refused uri ch basic a p b : trim_space ch = scheme basic ++ cparams_text (a ++ p :: b) -> cparam_ok p -> ~ In (to_lower (cp_name p)) known_attrs ->
  new_digest uri ch = Err ErrAuthMalformedChallenge.
Proof.
  intros E (PB & PA & NE & N & _) K.
  apply (bad_part uri ch basic (match a with [] => [] | _ => cparams_text a ++ [44] end) (cp_before p) (cp_name p)
    ((if cp_quoted p then bs """" ++ cp_value p ++ bs """" else cp_value p) ++ cp_after p ++ (match b with [] => [] | _ => bs "," ++ cparams_text b end))).
  - rewrite E, cparams_app. unfold cparam_text. change (bs "=") with [61]. change (bs ",") with [44]. rewrite <- !app_assoc. reflexivity.
  - destruct a; [left; reflexivity|right; eexists; reflexivity].
  - exact PB.
  - apply tokens_not; [exact N|cbn; tauto].
  - apply tokens_not; [exact N|cbn; tauto].
  - destruct (cp_name p) as [|c n]; [contradiction|]. apply Forall_cons_iff in N as [C _]. exists c, n. split; [reflexivity|apply token_ink, C].
  - exact K.
Qed.
