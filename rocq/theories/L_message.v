(* Lemmas about the message models. *)
From Coq Require Import String Permutation.
From Verif Require Import Base GoStrings M_conn S_message M_message L_base L_strings L_rtp L_digest.
From Coq Require Import ZifyBool ZifyNat.

(* ---- canonical keys ---- *)
Lemma lower_upper c : lower1 (upper1 c) = lower1 c.
Proof. unfold lower1, upper1. destruct ((97 <=? c) && (c <=? 122)) eqn:E; [|reflexivity]. destruct ((65 <=? c - 32) && (c - 32 <=? 90)) eqn:?, ((65 <=? c) && (c <=? 90)) eqn:?; lia. Qed.
Lemma lower_lower c : lower1 (lower1 c) = lower1 c.
Proof. unfold lower1. destruct ((65 <=? c) && (c <=? 90)) eqn:E; [|rewrite E; reflexivity]. destruct ((65 <=? c + 32) && (c + 32 <=? 90)) eqn:?; lia. Qed.
Lemma upper_lower c : upper1 (lower1 c) = upper1 c.
Proof. unfold lower1, upper1. destruct ((65 <=? c) && (c <=? 90)) eqn:E; [|reflexivity]. destruct ((97 <=? c + 32) && (c + 32 <=? 122)) eqn:?, ((97 <=? c) && (c <=? 122)) eqn:?; lia. Qed.

Lemma canon_lower s : forall up, map lower1 (canon up s) = map lower1 s.
Proof.
  induction s as [|c s IH]; intros up; [reflexivity|]. cbn [canon map]. cbv zeta. rewrite IH. f_equal.
  destruct up; [apply lower_upper|apply lower_lower].
Qed.
Lemma canon_of_lower s : forall t up, map lower1 s = map lower1 t -> canon up s = canon up t.
Proof.
  induction s as [|c s IH]; intros [|d t] up E; try discriminate; [reflexivity|]. cbn [map] in E. injection E as E1 E2.
  cbn [canon]. cbv zeta. assert (X : (if up then upper1 c else lower1 c) = (if up then upper1 d else lower1 d)).
  { destruct up; [rewrite <- (upper_lower c), <- (upper_lower d), E1; reflexivity|exact E1]. }
  rewrite X. f_equal. apply IH. exact E2.
Qed.

Lemma token_forallb k : token k -> forallb token_byte k = true.
Proof. intros T. apply forallb_forall. intros c I. exact (proj1 (Forall_forall _ _) T c I). Qed.

Lemma canonical_same a b : token a -> token b -> beq (canonical_key a) (canonical_key b) = same_name a b.
Proof.
  intros Ta Tb. unfold canonical_key, same_name. rewrite !token_forallb by assumption.
  destruct (beq (map lower1 a) (map lower1 b)) eqn:E.
  - apply beq_eq in E. rewrite (canon_of_lower a b true E). apply beq_refl.
  - apply beq_neq in E. apply beq_neq. intros X. apply E. rewrite <- (canon_lower a true), <- (canon_lower b true), X. reflexivity.
Qed.

(* ---- maps ---- *)
Lemma get_set h k v k' : map_get (map_set h k v) k' = if beq k' k then Some v else map_get h k'.
Proof.
  induction h as [|[a b] h IH]; cbn [map_set map_get]; [reflexivity|].
  destruct (beq k a) eqn:E; cbn [map_get].
  - apply beq_eq in E. subst a. destruct (beq k' k); reflexivity.
  - rewrite IH. destruct (beq k' a) eqn:E1; [|reflexivity]. apply beq_eq in E1. subst a.
    destruct (beq k' k) eqn:E2; [|reflexivity]. apply beq_eq in E2. subst k'. rewrite beq_refl in E. discriminate.
Qed.
Lemma get_del h k k' : map_get (map_del h k) k' = if beq k' k then None else map_get h k'.
Proof.
  induction h as [|[a b] h IH]; cbn [map_del filter map_get fst]; [destruct (beq k' k); reflexivity|].
  unfold map_del in IH. destruct (beq k a) eqn:E; cbn [negb].
  - apply beq_eq in E. subst a. rewrite IH. destruct (beq k' k); reflexivity.
  - cbn [map_get]. rewrite IH. destruct (beq k' a) eqn:E1; [|reflexivity]. apply beq_eq in E1. subst a.
    destruct (beq k' k) eqn:E2; [|reflexivity]. apply beq_eq in E2. subst k'. rewrite beq_refl in E. discriminate.
Qed.

Definition header_run (h : header) (ops : list hop) : header :=
  fold_left (fun h o => match o with HSet k v => header_set h k v | HDel k => header_del h k end) ops h.

Lemma header_run_get ops : forall h k, token k -> Forall (fun o => token (hop_name o)) ops ->
  header_get (header_run h ops) k =
  fold_left (fun v o => match o with HSet k' v' => if same_name k k' then v' else v | HDel k' => if same_name k k' then [] else v end) ops (header_get h k).
Proof.
  induction ops as [|o ops IH]; intros h k T F; [reflexivity|]. apply Forall_cons_iff in F as [F1 F]. cbn [header_run fold_left].
  fold (header_run (match o with HSet k0 v => header_set h k0 v | HDel k0 => header_del h k0 end) ops). rewrite IH by assumption. f_equal.
  destruct o as [k' v'|k']; cbn [hop_name] in F1; unfold header_get, header_set, header_del.
  - rewrite get_set, canonical_same by assumption. destruct (same_name k k'); reflexivity.
  - rewrite get_del, canonical_same by assumption. destruct (same_name k k'); reflexivity.
Qed.

(* one entry per key *)
Lemma map_set_keys h k v : NoDup (map fst h) -> NoDup (map fst (map_set h k v)) /\ (forall x, In x (map fst (map_set h k v)) <-> x = k \/ In x (map fst h)).
Proof.
  induction h as [|[a b] h IH]; intros N; cbn [map_set map fst].
  - split; [repeat constructor; intros []|]. cbn. intuition.
  - cbn [map fst] in N. inversion N as [|? ? N1 N2]; subst. destruct (beq k a) eqn:E; cbn [map fst].
    + apply beq_eq in E. subst a. split; [exact N|]. cbn. intuition.
    + destruct (IH N2) as [I1 I2]. split.
      * constructor; [|exact I1]. rewrite I2. intros [->|I]; [rewrite beq_refl in E; discriminate|auto].
      * intros x. cbn [In]. rewrite I2. intuition.
Qed.

(* ---- streams ---- *)
Lemma read_line_sent l s : ~ In 10 l -> read_line (sent (l ++ [10]) ++ s) = (s, Ok (l ++ [10])).
Proof.
  induction l as [|b l IH]; intros N; [reflexivity|]. cbn [app sent map read_line].
  destruct (b =? 10) eqn:E; [exfalso; apply N; left; lia|]. fold (sent (l ++ [10])).
  rewrite IH by (intros I; apply N; right; exact I). reflexivity.
Qed.

Lemma take_sent l s : take_bytes (length l) (sent l ++ s) = (sent l ++ s, Ok l).
Proof. induction l as [|b l IH]; [reflexivity|]. cbn [length sent map app take_bytes]. fold (sent l). rewrite IH. reflexivity. Qed.

Lemma peek_sent l s : zlen l <= 2048 -> peek (zlen l) (sent l ++ s) = (sent l ++ s, Ok l).
Proof.
  intros L. unfold peek, bufio_size. destruct (zlen l >? 2048) eqn:E; [lia|]. unfold zlen. rewrite Nat2Z.id. apply take_sent.
Qed.

Lemma skipn_sent l s : skipn (length l) (sent l ++ s) = s.
Proof. apply skipn_app_exact. unfold sent. rewrite map_length. reflexivity. Qed.

Lemma read_bytes_sent l s : zlen l <= 2048 -> read_bytes (zlen l) (sent l ++ s) = (s, Ok l).
Proof. intros L. unfold read_bytes. rewrite peek_sent by exact L. unfold discard. rewrite skipn_sent. reflexivity. Qed.

Lemma read_bytes_long (l : bytes) s : zlen l > 2048 -> read_bytes (zlen l) s = (s, Err ErrBufferFull).
Proof. intros L. unfold read_bytes, peek, bufio_size. destruct (zlen l >? 2048) eqn:E; [reflexivity|lia]. Qed.

Lemma sent_app a b : sent (a ++ b) = sent a ++ sent b.
Proof. apply map_app. Qed.

(* ---- the status line ---- *)
Lemma itoa_code_len c : 100 <= c <= 999 -> length (itoa c) = 3%nat.
Proof.
  intros H. assert (A : forallb (fun n => (length (itoa (100 + Z.of_nat n)) =? 3)%nat) (seq 0 900) = true) by (vm_compute; reflexivity).
  rewrite forallb_forall in A. specialize (A (Z.to_nat (c - 100)) ltac:(apply in_seq; lia)).
  replace (100 + Z.of_nat (Z.to_nat (c - 100))) with c in A by lia. apply Nat.eqb_eq. exact A.
Qed.

Lemma itoa_ink c : 0 <= c -> exists a r, itoa c = a :: r /\ 48 <= a <= 57.
Proof.
  intros H. destruct (itoa_nonneg c H) as [D N]. destruct (itoa c) as [|a r]; [contradiction|]. exists a, r. split; [reflexivity|].
  apply Forall_cons_iff in D as [D _]. exact D.
Qed.

Lemma trim_right_crlf s : trim_space (s ++ [13; 10]) = trim_space s.
Proof.
  unfold trim_space.
  (* trim_left of an appended string *)
  assert (L : exists t, trim_left (s ++ [13; 10]) = trim_left s ++ t /\ (t = [13; 10] \/ (t = [] /\ trim_left s = []))).
  { assert (G : forall n s, (length s <= n)%nat -> exists t, trim_left (s ++ [13; 10]) = trim_left s ++ t /\ (t = [13; 10] \/ (t = [] /\ trim_left s = []))).
    { clear. induction n as [|n IH]; intros s Hl.
      - destruct s; [|cbn in Hl; lia]. exists []. split; [reflexivity|right; split; reflexivity].
      - destruct s as [|a s]; [exists []; split; [reflexivity|right; split; reflexivity]|]. cbn [app trim_left]. cbn [length] in Hl.
        destruct (sp1 a) eqn:E1; [apply IH; lia|]. destruct s as [|b s].
        + cbn [app]. unfold sp2. replace ((a =? 194) && ((13 =? 133) || (13 =? 160))) with false by (cbn; lia).
          unfold sp3. replace (_ || _ || _ || _) with false by (cbn; lia). exists [13; 10]. split; [reflexivity|left; reflexivity].
        + cbn [app length] in *. destruct (sp2 a b) eqn:E2; [apply IH; lia|]. destruct s as [|c s].
          * cbn [app]. unfold sp3. replace (_ || _ || _ || _) with false by (cbn; lia). exists [13; 10]. split; [reflexivity|left; reflexivity].
          * cbn [app length] in *. destruct (sp3 a b c) eqn:E3; [apply IH; lia|]. exists [13; 10]. split; [reflexivity|left; reflexivity]. }
    apply (G (length s)). lia. }
  destruct L as (t & -> & [->|[-> _]]); [|rewrite app_nil_r; reflexivity].
  rewrite rev_app_distr. reflexivity.
Qed.

Lemma trim_inner a r : trim_space (a :: r) = rev (trim_rev (rev (trim_left (a :: r)))).
Proof. reflexivity. Qed.

(* trimming a digit-first text keeps its front *)
Lemma trim_rev_suffix s : exists p, s = p ++ trim_rev s.
Proof.
  assert (G : forall n s, (length s <= n)%nat -> exists p, s = p ++ trim_rev s).
  { clear. induction n as [|n IH]; intros s Hl; [destruct s; [exists []; reflexivity|cbn in Hl; lia]|].
    destruct s as [|a s]; [exists []; reflexivity|]. cbn [length] in Hl. cbn [trim_rev].
    destruct (sp1 a). { destruct (IH s ltac:(lia)) as [p E]. exists (a :: p). cbn [app]. rewrite <- E. reflexivity. }
    destruct s as [|b s]; [exists []; reflexivity|]. cbn [length] in Hl.
    destruct (sp2 b a). { destruct (IH s ltac:(lia)) as [p E]. exists (a :: b :: p). cbn [app]. rewrite <- E. reflexivity. }
    destruct s as [|c s]; [exists []; reflexivity|]. cbn [length] in Hl.
    destruct (sp3 c b a). { destruct (IH s ltac:(lia)) as [p E]. exists (a :: b :: c :: p). cbn [app]. rewrite <- E. reflexivity. }
    exists []. reflexivity. }
  apply (G (length s)). lia.
Qed.

Lemma trim_rev_app_ink s z t : 33 <= z <= 126 -> exists s', trim_rev (s ++ z :: t) = s' ++ z :: t /\ exists p, s = p ++ s'.
Proof.
  intros Z. assert (G : forall n s, (length s <= n)%nat -> exists s', trim_rev (s ++ z :: t) = s' ++ z :: t /\ exists p, s = p ++ s').
  { clear s. induction n as [|n IH]; intros s Hl.
    - destruct s; [|cbn in Hl; lia]. exists []. cbn [app]. rewrite trim_rev_ink by exact Z. split; [reflexivity|exists []; reflexivity].
    - destruct s as [|a s]; [exists []; cbn [app]; rewrite trim_rev_ink by exact Z; split; [reflexivity|exists []; reflexivity]|].
      cbn [length] in Hl. cbn [app trim_rev].
      destruct (sp1 a). { destruct (IH s ltac:(lia)) as (s' & E & p & Ep). exists s'. split; [exact E|]. exists (a :: p). rewrite Ep. reflexivity. }
      destruct s as [|b s].
      + cbn [app]. unfold sp2. replace ((z =? 194) && ((a =? 133) || (a =? 160))) with false by lia.
        destruct t as [|c t].
        * exists [a]. split; [reflexivity|exists []; reflexivity].
        * unfold sp3. destruct (_ || _ || _ || _) eqn:E3; [lia|]. exists [a]. split; [reflexivity|exists []; reflexivity].
      + cbn [app length] in *. destruct (sp2 b a). { destruct (IH s ltac:(lia)) as (s' & E & p & Ep). exists s'. split; [exact E|]. exists (a :: b :: p). rewrite Ep. reflexivity. }
        destruct s as [|c s].
        * cbn [app]. unfold sp3. destruct (_ || _ || _ || _) eqn:E3; [lia|]. exists [a; b]. split; [reflexivity|exists []; reflexivity].
        * cbn [app length] in *. destruct (sp3 c b a). { destruct (IH s ltac:(lia)) as (s' & E & p & Ep). exists s'. split; [exact E|]. exists (a :: b :: c :: p). rewrite Ep. reflexivity. }
          exists (a :: b :: c :: s). split; [reflexivity|exists []; reflexivity]. }
  apply (G (length s)). lia.
Qed.

(* ink, then anything: the ink stays in front *)
Lemma trim_space_front a m z r : 33 <= a <= 126 -> 33 <= z <= 126 -> exists r', trim_space (a :: m ++ z :: r) = a :: m ++ z :: r' /\ exists p, r = r' ++ p.
Proof.
  intros A Z. unfold trim_space. rewrite trim_left_ink by exact A.
  change (a :: m ++ z :: r) with ((a :: m) ++ z :: r).
  replace ((a :: m) ++ z :: r) with (((a :: m) ++ [z]) ++ r) by (rewrite <- app_assoc; reflexivity).
  rewrite rev_app_distr. rewrite (rev_app_distr (a :: m) [z]). cbn [rev app].
  destruct (trim_rev_app_ink (rev r) z (rev m ++ [a]) Z) as (s' & E & p & Ep). rewrite E.
  exists (rev s'). split.
  - rewrite rev_app_distr. cbn [rev]. rewrite rev_app_distr. cbn [rev app]. rewrite rev_involutive. rewrite <- app_assoc. reflexivity.
  - exists (rev p). rewrite <- rev_app_distr, <- Ep, rev_involutive. reflexivity.
Qed.

Lemma status_line_ok proto code reason : ~ In 32 proto -> 100 <= code <= 999 ->
  status_line proto (proto ++ 32 :: itoa code ++ 32 :: reason ++ [13; 10]) = Ok (trim_space (itoa code ++ 32 :: reason), code).
Proof.
  intros N C. unfold status_line. rewrite cut_app by exact N. rewrite beq_refl. cbn [negb].
  replace (itoa code ++ 32 :: reason ++ [13; 10]) with ((itoa code ++ 32 :: reason) ++ [13; 10]) by (rewrite <- app_assoc; reflexivity).
  rewrite trim_right_crlf. cbv zeta.
  pose proof (itoa_code_len code C) as L. destruct (itoa_nonneg code ltac:(lia)) as [D _].
  destruct (itoa code) as [|a [|b [|c [|d t]]]] eqn:Ei; cbn in L; try lia.
  assert (Ink : 48 <= a <= 57 /\ 48 <= b <= 57 /\ 48 <= c <= 57).
  { apply Forall_cons_iff in D as [D1 D]. apply Forall_cons_iff in D as [D2 D]. apply Forall_cons_iff in D as [D3 _]. auto. }
  destruct Ink as (I1 & I2 & I3).
  destruct (trim_space_front a [b] c (32 :: reason) ltac:(lia) ltac:(lia)) as (r' & E & p & Ep).
  change ([a; b; c] ++ 32 :: reason) with (a :: [b] ++ c :: 32 :: reason). rewrite E.
  assert (X : match cut 32 (a :: [b] ++ c :: r') with Some (x, _) => x | None => a :: [b] ++ c :: r' end = itoa code).
  { rewrite Ei. destruct r' as [|x r'].
    - rewrite cut_none; [reflexivity|]. cbn. lia.
    - assert (x = 32) by (cbn [app] in Ep; congruence). subst x. change (a :: [b] ++ c :: 32 :: r') with ([a; b; c] ++ 32 :: r').
      rewrite cut_app; [reflexivity|]. cbn. lia. }
  rewrite X. rewrite Ei at 1. change (zlen [a; b; c] =? 3) with true. cbn [negb].
  rewrite atoi_itoa by lia. destruct (code <? 0) eqn:?; [lia|reflexivity].
Qed.

(* ---- header lines ---- *)
Lemma token_byte_ink c : token_byte c = true -> 33 <= c <= 126 /\ c <> 58.
Proof.
  unfold token_byte, is_digit. intros H. apply orb_true_iff in H as [H|H]; [|].
  - lia.
  - apply existsb_exists in H as (x & I & E). apply Z.eqb_eq in E. subst x.
    repeat (destruct I as [<-|I]; [lia|]). destruct I.
Qed.

Lemma token_no c k : token k -> ~ (33 <= c <= 126 /\ c <> 58) -> ~ In c k.
Proof. intros T N I. apply N. apply token_byte_ink. exact (proj1 (Forall_forall _ _) T c I). Qed.

Lemma trim_token k : token k -> trim_space k = k.
Proof.
  intros T. destruct k as [|a k]; [reflexivity|]. apply Forall_cons_iff in T as [T1 T]. apply token_byte_ink in T1.
  destruct (list_last_dec k) as [->|(m & z & ->)].
  - unfold trim_space. rewrite trim_left_ink by lia. cbn [rev app]. rewrite trim_rev_ink by lia. reflexivity.
  - apply Forall_app in T as [_ T]. apply Forall_cons_iff in T as [Tz _]. apply token_byte_ink in Tz. apply trim_space_ink; lia.
Qed.

Lemma trim_left_suffix s : exists p, s = p ++ trim_left s.
Proof.
  assert (G : forall n s, (length s <= n)%nat -> exists p, s = p ++ trim_left s).
  { clear. induction n as [|n IH]; intros s Hl; [destruct s; [exists []; reflexivity|cbn in Hl; lia]|].
    destruct s as [|a s]; [exists []; reflexivity|]. cbn [length] in Hl. cbn [trim_left].
    destruct (sp1 a). { destruct (IH s ltac:(lia)) as [p E]. exists (a :: p). cbn [app]. rewrite <- E. reflexivity. }
    destruct s as [|b s]; [exists []; reflexivity|]. cbn [length] in Hl.
    destruct (sp2 a b). { destruct (IH s ltac:(lia)) as [p E]. exists (a :: b :: p). cbn [app]. rewrite <- E. reflexivity. }
    destruct s as [|c s]; [exists []; reflexivity|]. cbn [length] in Hl.
    destruct (sp3 a b c). { destruct (IH s ltac:(lia)) as [p E]. exists (a :: b :: c :: p). cbn [app]. rewrite <- E. reflexivity. }
    exists []. reflexivity. }
  apply (G (length s)). lia.
Qed.

Lemma trim_fixed v : trim_space v = v -> trim_left v = v /\ trim_rev (rev v) = rev v.
Proof.
  intros E. destruct (trim_left_suffix v) as [p Ep]. destruct (trim_rev_suffix (rev (trim_left v))) as [q Eq].
  unfold trim_space in E.
  assert (L1 : length v = (length p + length (trim_left v))%nat) by (rewrite Ep at 1; apply app_length).
  assert (L2 : length (trim_left v) = (length q + length v)%nat).
  { rewrite <- (rev_length (trim_left v)), Eq at 1. rewrite app_length. f_equal. rewrite <- E at 2. rewrite rev_length. reflexivity. }
  destruct p; [|cbn in L1; lia]. cbn [app] in Ep. rewrite <- Ep in E. split; [symmetry; exact Ep|].
  rewrite <- E at 2. rewrite rev_involutive. reflexivity.
Qed.

Lemma trim_rev_len s : (length (trim_rev s) <= length s)%nat.
Proof. destruct (trim_rev_suffix s) as [p E]. rewrite E at 2. rewrite app_length. lia. Qed.

Lemma trim_rev_more s x t : s <> [] -> trim_rev s = s -> x = 32 \/ x = 58 -> trim_rev (s ++ x :: t) = s ++ x :: t.
Proof.
  intros N E X. destruct s as [|a s]; [contradiction|]. cbn [trim_rev app] in *.
  destruct (sp1 a). { apply (f_equal (@length Z)) in E. pose proof (trim_rev_len s). cbn [length] in E. lia. }
  destruct s as [|b s]; cbn [app].
  { unfold sp2. replace ((x =? 194) && ((a =? 133) || (a =? 160))) with false by lia. destruct t as [|c t]; [reflexivity|].
    unfold sp3. destruct (_ || _ || _ || _) eqn:E3; [lia|reflexivity]. }
  destruct (sp2 b a). { apply (f_equal (@length Z)) in E. pose proof (trim_rev_len s). cbn [length] in E. lia. }
  destruct s as [|c s]; cbn [app].
  { unfold sp3. destruct (_ || _ || _ || _) eqn:E3; [lia|reflexivity]. }
  destruct (sp3 c b a). { apply (f_equal (@length Z)) in E. pose proof (trim_rev_len s). cbn [length] in E. lia. }
  reflexivity.
Qed.

Lemma trim_left_blanks bl s : Forall (fun c => c = 32) bl -> trim_left (bl ++ s) = trim_left s.
Proof. induction 1 as [|c bl -> F IH]; [reflexivity|]. cbn [app trim_left]. change (sp1 32) with true. cbn iota. exact IH. Qed.
Lemma trim_rev_blanks bl s : Forall (fun c => c = 32) bl -> trim_rev (bl ++ s) = trim_rev s.
Proof. induction 1 as [|c bl -> F IH]; [reflexivity|]. cbn [app trim_rev]. change (sp1 32) with true. cbn iota. exact IH. Qed.

Lemma trim_space_field bl v : Forall (fun c => c = 32) bl -> trim_space v = v -> trim_space (bl ++ v) = v.
Proof.
  intros B V. destruct (trim_fixed v V) as [L R]. unfold trim_space. rewrite trim_left_blanks, L, R by exact B. apply rev_involutive.
Qed.

(* a field line as read: the key and value found *)
Lemma field_line_split f : sfield_ok f -> exists line, trim_space (sfield_text f) = line /\ line <> [] /\
  exists w, split2 58 line = [f_name f; w] /\ trim_space w = f_value f.
Proof.
  intros (T & N & B & (V1 & V2) & V). unfold sfield_text.
  replace (f_name f ++ 58 :: f_blank f ++ f_value f ++ [13; 10]) with ((f_name f ++ 58 :: f_blank f ++ f_value f) ++ [13; 10])
    by (rewrite <- app_assoc; cbn [app]; rewrite <- app_assoc; reflexivity).
  rewrite trim_right_crlf. eexists. split; [reflexivity|].
  destruct (f_name f) as [|a k] eqn:En; [contradiction|]. pose proof T as T'. apply Forall_cons_iff in T' as [T1 T2]. apply token_byte_ink in T1.
  assert (Sp : forall r', split2 58 ((a :: k) ++ 58 :: r') = [a :: k; r']) by (intros; apply split2_app; apply (token_no 58 _ T); lia).
  unfold trim_space at 1 2. cbn [app]. rewrite trim_left_ink by lia. change (a :: k ++ 58 :: f_blank f ++ f_value f) with ((a :: k) ++ 58 :: f_blank f ++ f_value f).
  rewrite rev_app_distr. cbn [rev]. rewrite rev_app_distr.
  destruct (list_last_dec (f_value f)) as [Ev|(m & z & Ev)].
  - rewrite Ev. cbn [rev app]. rewrite <- app_assoc. rewrite trim_rev_blanks by (apply Forall_rev; exact B). cbn [app]. rewrite trim_rev_ink by lia.
    split. { cbn [rev]. intros X. apply app_eq_nil in X as [_ X]. discriminate. }
    exists []. split; [|reflexivity]. cbn [rev]. rewrite rev_app_distr. cbn [rev app]. rewrite rev_involutive. change ((a :: k ++ [58])) with ((a :: k) ++ 58 :: []). apply Sp.
  - destruct (trim_fixed _ V) as [_ R].
    assert (X : trim_rev ((rev (f_value f) ++ rev (f_blank f)) ++ [58] ++ rev k ++ [a]) = (rev (f_value f) ++ rev (f_blank f)) ++ [58] ++ rev k ++ [a]).
    { rewrite <- app_assoc. destruct (rev (f_blank f)) as [|x bl] eqn:Eb.
      - cbn [app]. apply trim_rev_more; [|exact R|right; reflexivity]. rewrite Ev, rev_app_distr. discriminate.
      - cbn [app]. apply trim_rev_more; [|exact R|left]; [rewrite Ev, rev_app_distr; discriminate|].
        apply Forall_rev in B. rewrite Eb in B. apply Forall_cons_iff in B as [B _]. exact B. }
    rewrite <- app_assoc in X |- *. rewrite <- app_assoc. 
    assert (Y : rev (f_value f) ++ rev (f_blank f) ++ [58] ++ rev k ++ [a] = rev ((a :: k) ++ 58 :: f_blank f ++ f_value f)).
    { rewrite rev_app_distr. cbn [rev]. rewrite rev_app_distr. rewrite <- !app_assoc. reflexivity. }
    rewrite X, Y, rev_involutive. split; [discriminate|]. exists (f_blank f ++ f_value f). split; [apply Sp|]. apply trim_space_field; assumption.
Qed.

Lemma sfield_no_nl f : sfield_ok f -> ~ In 10 (f_name f ++ 58 :: f_blank f ++ f_value f ++ [13]).
Proof.
  intros (T & N & B & (V1 & V2) & V) I. apply in_app_iff in I as [I|[I|I]]; [exact (token_no 10 _ T ltac:(lia) I)|lia|].
  apply in_app_iff in I as [I|I]; [pose proof (proj1 (Forall_forall _ _) B _ I) as X; cbv beta in X; lia|]. apply in_app_iff in I as [I|[I|[]]]; [auto|lia].
Qed.

Lemma sfield_read f s : sfield_ok f -> read_line (sent (sfield_text f) ++ s) = (s, Ok (sfield_text f)).
Proof.
  intros O. unfold sfield_text.
  replace (f_name f ++ 58 :: f_blank f ++ f_value f ++ [13; 10]) with ((f_name f ++ 58 :: f_blank f ++ f_value f ++ [13]) ++ [10])
    by (rewrite <- app_assoc; cbn [app]; rewrite <- !app_assoc; reflexivity).
  apply read_line_sent. apply sfield_no_nl. exact O.
Qed.

Definition fields_ops (fs : list sfield) : list hop := map (fun f => HSet (f_name f) (f_value f)) fs.

Lemma header_lines_ok fs : forall fuel h s, Forall sfield_ok fs -> (length fs < fuel)%nat ->
  header_lines fuel h (sent (flat_map sfield_text fs ++ [13; 10]) ++ s) = (s, Ok (header_run h (fields_ops fs))).
Proof.
  induction fs as [|f fs IH]; intros [|fuel] h s F L; try (cbn in L; lia).
  - reflexivity.
  - apply Forall_cons_iff in F as [O F]. cbn [flat_map header_lines]. rewrite <- !app_assoc, sent_app, <- app_assoc.
    rewrite sfield_read by exact O. destruct (field_line_split f O) as (line & El & Nl & w & Es & Ew). cbv zeta. rewrite El.
    destruct (beq line []) eqn:Eb; [apply beq_eq in Eb; contradiction|]. rewrite Es, Ew.
    destruct O as (T & _). rewrite trim_token by exact T. rewrite IH; [reflexivity|exact F|cbn [length] in L; lia].
Qed.

Lemma http_lines_ok fs : forall fuel s, Forall sfield_ok fs -> (length fs < fuel)%nat ->
  http_lines fuel (sent (flat_map sfield_text fs ++ [13; 10]) ++ s) = (s, Ok tt).
Proof.
  induction fs as [|f fs IH]; intros [|fuel] s F L; try (cbn in L; lia).
  - reflexivity.
  - apply Forall_cons_iff in F as [O F]. cbn [flat_map http_lines]. rewrite <- !app_assoc, sent_app, <- app_assoc.
    rewrite sfield_read by exact O. destruct (field_line_split f O) as (line & El & Nl & w & Es & Ew). cbv zeta. rewrite El.
    destruct (beq line []) eqn:Eb; [apply beq_eq in Eb; contradiction|]. rewrite Es.
    rewrite IH; [reflexivity|exact F|cbn [length] in L; lia].
Qed.

Lemma fields_length fs : (length fs <= length (flat_map sfield_text fs))%nat.
Proof. induction fs as [|f fs IH]; [apply le_n|]. cbn [flat_map length]. rewrite app_length. unfold sfield_text at 1. rewrite app_length. cbn [length]. lia. Qed.

Lemma header_run_fields fs k : Forall sfield_ok fs -> token k -> header_get (header_run [] (fields_ops fs)) k = field_value fs k.
Proof.
  intros F T. unfold field_value, spec_get, fields_ops. rewrite header_run_get; [reflexivity|exact T|].
  apply Forall_map. eapply Forall_impl; [|exact F]. intros f (O & _). exact O.
Qed.

Lemma line_no_nl proto code reason : ~ In 10 proto -> 100 <= code <= 999 -> line_text reason -> ~ In 10 (proto ++ 32 :: itoa code ++ 32 :: reason ++ [13]).
Proof.
  intros P C (R1 & R2) I. destruct (itoa_nonneg code ltac:(lia)) as [D _].
  apply in_app_iff in I as [I|[I|I]]; [auto|lia|]. apply in_app_iff in I as [I|[I|I]]; [|lia|].
  - pose proof (proj1 (Forall_forall _ _) D _ I) as X. cbv beta in X. lia.
  - apply in_app_iff in I as [I|[I|[]]]; [auto|lia].
Qed.

Lemma first_line_read proto code reason s : ~ In 10 proto -> 100 <= code <= 999 -> line_text reason ->
  read_line (sent (proto ++ 32 :: itoa code ++ 32 :: reason ++ [13; 10]) ++ s) = (s, Ok (proto ++ 32 :: itoa code ++ 32 :: reason ++ [13; 10])).
Proof.
  intros P C R. replace (proto ++ 32 :: itoa code ++ 32 :: reason ++ [13; 10]) with ((proto ++ 32 :: itoa code ++ 32 :: reason ++ [13]) ++ [10])
    by (rewrite <- app_assoc; cbn [app]; rewrite <- app_assoc; cbn [app]; rewrite <- app_assoc; reflexivity).
  apply read_line_sent. apply line_no_nl; assumption.
Qed.

Lemma response_text_split proto code reason fs body :
  response_text proto code reason fs body =
  (proto ++ 32 :: itoa code ++ 32 :: reason ++ [13; 10]) ++ (flat_map sfield_text fs ++ [13; 10]) ++ body.
Proof. unfold response_text. rewrite <- !app_assoc. cbn [app]. rewrite <- !app_assoc. cbn [app]. rewrite <- !app_assoc. reflexivity. Qed.

Lemma response_sent proto code reason fs body rest :
  sent (response_text proto code reason fs body) ++ rest =
  sent (proto ++ 32 :: itoa code ++ 32 :: reason ++ [13; 10]) ++ (sent (flat_map sfield_text fs ++ [13; 10]) ++ (sent body ++ rest)).
Proof.
  rewrite response_text_split. generalize (proto ++ 32 :: itoa code ++ 32 :: reason ++ [13; 10]) (flat_map sfield_text fs ++ [13; 10]).
  intros a b. rewrite !sent_app, <- !app_assoc. reflexivity.
Qed.

Lemma unpack_response_ok code reason fs body rest :
  100 <= code <= 999 -> line_text reason -> Forall sfield_ok fs -> content_ok fs body -> zlen body <= 2048 ->
  exists len, unpack_response (sent (response_text (bs "RTSP/1.0") code reason fs body) ++ rest) =
  (rest, Ok (mkRsp (trim_space (itoa code ++ 32 :: reason)) code len (fst (atoi (field_value fs (bs "CSeq")))) (header_run [] (fields_ops fs))
                   (match body with [] => None | _ => Some body end))) /\ (body <> [] -> len = zlen body).
Proof.
  intros C R F K L. rewrite response_sent. unfold unpack_response.
  rewrite first_line_read; [|vm_compute; intuition discriminate|exact C|exact R].
  rewrite status_line_ok; [|vm_compute; intuition discriminate|exact C].
  rewrite header_lines_ok;
    [|exact F|unfold sent; rewrite app_length, map_length, app_length; pose proof (fields_length fs); lia].
  cbv zeta. rewrite !header_run_fields; [|exact F|repeat constructor|exact F|repeat constructor].
  destruct body as [|b body]; cbn [content_ok] in K.
  - exists (match atoi (field_value fs (bs "Content-Length")) with (n, None) => n | _ => 0 end).
    split; [|intros X; contradiction X; reflexivity]. destruct (atoi (field_value fs (bs "Content-Length"))) as [n [e|]].
    + reflexivity.
    + specialize (K n eq_refl). destruct (n >? 0) eqn:E; [lia|reflexivity].
  - exists (zlen (b :: body)). split; [|reflexivity]. rewrite K. rewrite atoi_itoa by (pose proof (zlen_nonneg body); rewrite zlen_cons in *; lia).
    destruct (zlen (b :: body) >? 0) eqn:E; [|pose proof (zlen_nonneg body); rewrite zlen_cons in *; lia].
    rewrite read_bytes_sent by exact L. reflexivity.
Qed.

Lemma receive_http_ok code reason fs rest :
  100 <= code <= 999 -> line_text reason -> Forall sfield_ok fs ->
  receive_http (sent (response_text (bs "HTTP/1.0") code reason fs []) ++ rest) = (rest, Ok tt).
Proof.
  intros C R F. rewrite response_sent. unfold receive_http. cbn [sent map app].
  rewrite first_line_read; [|vm_compute; intuition discriminate|exact C|exact R].
  rewrite status_line_ok; [|vm_compute; intuition discriminate|exact C].
  apply http_lines_ok; [exact F|]. unfold sent. rewrite app_length, map_length, app_length. pose proof (fields_length fs). lia.
Qed.

(* ---- reading back what is packed ---- *)
Lemma cut_crlf_line l t : line_text l -> cut_crlf (l ++ 13 :: 10 :: t) = Some (l, t).
Proof.
  induction l as [|a l IH]; intros (N1 & N2); [reflexivity|]. cbn [app cut_crlf].
  assert (Ha : a <> 13) by (intros ->; apply N1; left; reflexivity).
  assert (IH' : cut_crlf (l ++ 13 :: 10 :: t) = Some (l, t)) by (apply IH; split; intros I; [apply N1|apply N2]; right; exact I).
  destruct l as [|b l]; cbn [app] in *.
  - destruct ((a =? 13) && (13 =? 10)) eqn:E; [lia|]. rewrite IH'. reflexivity.
  - destruct ((a =? 13) && (b =? 10)) eqn:E; [lia|]. rewrite IH'. reflexivity.
Qed.

Lemma read_fields_ok es : forall fuel t, Forall field_ok es -> (length es < fuel)%nat ->
  read_fields fuel (flat_map (fun e => field_line (fst e) (snd e)) es ++ 13 :: 10 :: t) = Some (es, t).
Proof.
  induction es as [|[k v] es IH]; intros [|fuel] t F L; try (cbn in L; lia); [reflexivity|].
  apply Forall_cons_iff in F as [(K & (K1 & K2) & Kc & (V1 & V2)) F]. cbn [fst snd] in *. cbn [flat_map read_fields fst snd].
  unfold field_line at 1, crnl, colsp.
  replace (((k ++ bs ": " ++ v ++ [13; 10]) ++ flat_map (fun e => field_line (fst e) (snd e)) es) ++ 13 :: 10 :: t)
    with ((k ++ 58 :: 32 :: v) ++ 13 :: 10 :: (flat_map (fun e => field_line (fst e) (snd e)) es ++ 13 :: 10 :: t))
    by (rewrite <- !app_assoc; change (bs ": ") with [58; 32]; cbn [app]; rewrite <- ?app_assoc; reflexivity).
  rewrite cut_crlf_line.
  2:{ split; intros I; apply in_app_iff in I as [I|[I|[I|I]]]; try lia; auto. }
  destruct (k ++ 58 :: 32 :: v) as [|x y] eqn:E; [apply app_eq_nil in E as [_ E]; discriminate|]. rewrite <- E. unfold cut_field.
  rewrite cut_app by exact Kc. rewrite IH; [reflexivity|exact F|cbn [length] in L; lia].
Qed.

Lemma read_message_ok first es t : line_text first -> Forall field_ok es ->
  read_message (first ++ crnl ++ flat_map (fun e => field_line (fst e) (snd e)) es ++ crnl ++ t) = Some (first, es, t).
Proof.
  intros A F. unfold read_message, crnl. cbn [app]. rewrite cut_crlf_line by exact A. rewrite read_fields_ok; [reflexivity|exact F|].
  rewrite app_length. cbn [length]. rewrite app_length. cbn [length].
  assert (X : (length es <= length (flat_map (fun e => field_line (fst e) (snd e)) es))%nat); [|lia].
  clear. induction es as [|e es IH]; [apply le_n|]. cbn [flat_map length]. rewrite app_length. unfold field_line at 1, crnl, colsp. rewrite !app_length. cbn [length]. lia.
Qed.

(* the fields of a request *)
Definition request_fields (r : request) (order : header) : list (bytes * bytes) :=
  (bs "CSeq", itoa (q_cseq r)) :: order ++
  (if negb (beq (q_session r) []) && negb (beq (q_verb r) (bs "OPTIONS")) && negb (beq (q_verb r) (bs "SETUP")) then [(bs "Session", q_session r)] else []) ++
  (if negb (beq (q_auth r) []) then [(bs "Authorization", q_auth r)] else []) ++
  [(bs "User-Agent", bs "Ouro/1.0"); (bs "Content-Length", bs "0")].

Lemma pack_request_fields r order : pack_request r order =
  (q_verb r ++ bs " " ++ q_uri r ++ bs " RTSP/1.0") ++ crnl ++ flat_map (fun e => field_line (fst e) (snd e)) (request_fields r order) ++ crnl ++ [].
Proof.
  unfold pack_request, request_fields. cbn [flat_map fst snd]. rewrite !flat_map_app, app_nil_r. cbn [flat_map fst snd]. rewrite app_nil_r.
  destruct (negb (beq (q_session r) []) && negb (beq (q_verb r) (bs "OPTIONS")) && negb (beq (q_verb r) (bs "SETUP"))), (negb (beq (q_auth r) []));
    cbn [flat_map fst snd]; rewrite ?app_nil_r; rewrite <- !app_assoc; reflexivity.
Qed.

Lemma itoa_line n : line_text (itoa n).
Proof. split; intros I; apply itoa_chars in I; lia. Qed.

Definition plain (s : bytes) : bool := forallb (fun c => negb (c =? 13) && negb (c =? 10)) s.
Lemma plain_line s : plain s = true -> line_text s.
Proof. unfold plain. rewrite forallb_forall. intros H. split; intros I; specialize (H _ I); lia. Qed.
Definition named (s : bytes) : bool := negb (beq s []) && plain s && negb (existsb (Z.eqb 58) s).
Lemma named_field k v : named k = true -> line_text v -> field_ok (k, v).
Proof.
  unfold named. intros H V. apply andb_true_iff in H as [H H3]. apply andb_true_iff in H as [H1 H2]. unfold field_ok. cbn [fst snd].
  splits; [|apply plain_line; exact H2| |exact V].
  - intros ->. discriminate.
  - intros I. apply negb_true_iff in H3. assert (X : existsb (Z.eqb 58) k = true) by (apply existsb_exists; exists 58; split; [exact I|reflexivity]). congruence.
Qed.

Lemma request_fields_ok r order : Forall field_ok order -> line_text (q_session r) -> line_text (q_auth r) -> Forall field_ok (request_fields r order).
Proof.
  intros F S A. unfold request_fields. constructor; [apply named_field; [reflexivity|apply itoa_line]|].
  apply Forall_app. split; [exact F|]. apply Forall_app. split.
  { match goal with |- context [if ?b then _ else _] => destruct b end; [constructor; [apply named_field; [reflexivity|exact S]|constructor]|constructor]. }
  apply Forall_app. split.
  { match goal with |- context [if ?b then _ else _] => destruct b end; [constructor; [apply named_field; [reflexivity|exact A]|constructor]|constructor]. }
  constructor; [apply named_field; [reflexivity|apply plain_line; reflexivity]|].
  constructor; [apply named_field; [reflexivity|apply plain_line; reflexivity]|constructor].
Qed.

(* ---- statements used by the property files ---- *)
Lemma map_del_keys h k : NoDup (map fst h) -> NoDup (map fst (map_del h k)).
Proof.
  induction h as [|[a b] h IH]; intros N; [exact N|]. cbn [map fst] in N. inversion N as [|? ? N1 N2]; subst. cbn [map_del filter fst].
  destruct (negb (beq k a)); [|apply IH; exact N2]. cbn [map fst]. constructor; [|apply IH; exact N2].
  intros I. apply N1. apply in_map_iff in I as (e & E & I). apply filter_In in I as [I _]. apply in_map_iff. exists e. auto.
Qed.

Lemma header_run_unique ops : NoDup (map fst (header_run [] ops)).
Proof.
  assert (G : forall h, NoDup (map fst h) -> NoDup (map fst (header_run h ops))); [|apply G; constructor].
  induction ops as [|o ops IH]; intros h N; [exact N|]. cbn [header_run fold_left]. apply IH. destruct o as [k v|k].
  - apply (proj1 (map_set_keys h (canonical_key k) v N)).
  - apply map_del_keys. exact N.
Qed.

Lemma header_set_raw h k v k' : forallb token_byte k = false -> forallb token_byte k' = false ->
  header_get (header_set h k v) k' = if beq k' k then v else header_get h k'.
Proof.
  intros A B. unfold header_get, header_set, canonical_key. rewrite A, B. rewrite get_set. destruct (beq k' k); reflexivity.
Qed.

Lemma pack_request_read r order : Permutation (q_header r) order ->
  line_text (q_verb r) -> line_text (q_uri r) -> line_text (q_session r) -> line_text (q_auth r) -> Forall field_ok (q_header r) ->
  exists middle,
    read_message (pack_request r order) = Some (q_verb r ++ bs " " ++ q_uri r ++ bs " RTSP/1.0", (bs "CSeq", itoa (q_cseq r)) :: middle, []) /\
    Permutation middle
      (q_header r ++
       (if beq (q_session r) [] || beq (q_verb r) (bs "OPTIONS") || beq (q_verb r) (bs "SETUP") then [] else [(bs "Session", q_session r)]) ++
       (if beq (q_auth r) [] then [] else [(bs "Authorization", q_auth r)]) ++
       [(bs "User-Agent", bs "Ouro/1.0"); (bs "Content-Length", bs "0")]).
Proof.
  intros P (V1 & V2) (U1 & U2) S A F. rewrite pack_request_fields. rewrite read_message_ok.
  - unfold request_fields. eexists. split; [reflexivity|].
    replace (negb (beq (q_session r) []) && negb (beq (q_verb r) (bs "OPTIONS")) && negb (beq (q_verb r) (bs "SETUP")))
      with (negb (beq (q_session r) [] || beq (q_verb r) (bs "OPTIONS") || beq (q_verb r) (bs "SETUP")))
      by (rewrite !negb_orb; reflexivity).
    apply Permutation_app; [symmetry; exact P|]. apply Permutation_app; [destruct (beq (q_session r) [] || beq (q_verb r) (bs "OPTIONS") || beq (q_verb r) (bs "SETUP")); reflexivity|].
    apply Permutation_app; [destruct (beq (q_auth r) []); reflexivity|reflexivity].
  - assert (X : plain (bs " ") = true /\ plain (bs " RTSP/1.0") = true) by (split; reflexivity). destruct X as [X1 X2].
    destruct (plain_line _ X1), (plain_line _ X2).
    split; intros I; repeat (apply in_app_iff in I; destruct I as [I|I]); auto.
  - apply request_fields_ok; [|exact S|exact A]. eapply Permutation_Forall; [exact P|exact F].
Qed.

Definition folded (e : bytes * bytes) : bytes := map lower1 (fst e).
Definition reserved : list bytes := map (map lower1) [bs "CSeq"; bs "Session"; bs "Authorization"; bs "User-Agent"; bs "Content-Length"].

Lemma pack_request_once r order first fields rest : Permutation (q_header r) order ->
  line_text (q_verb r) -> line_text (q_uri r) -> line_text (q_session r) -> line_text (q_auth r) -> Forall field_ok (q_header r) ->
  NoDup (map (fun e => map lower1 (fst e)) (q_header r)) ->
  (forall k, In k (map fst (q_header r)) -> Forall (fun k' => same_name k k' = false) [bs "CSeq"; bs "Session"; bs "Authorization"; bs "User-Agent"; bs "Content-Length"]) ->
  read_message (pack_request r order) = Some (first, fields, rest) ->
  NoDup (map (fun e => map lower1 (fst e)) fields).
Proof.
  intros P V U S A F N D E. destruct (pack_request_read r order P V U S A F) as (m & E' & Pm). rewrite E in E'.
  assert (Ef : fields = (bs "CSeq", itoa (q_cseq r)) :: m) by congruence. subst fields.
  eapply Permutation_NoDup.
  { apply Permutation_map. apply perm_skip. symmetry. exact Pm. }
  set (tail := (if beq (q_session r) [] || beq (q_verb r) (bs "OPTIONS") || beq (q_verb r) (bs "SETUP") then [] else [(bs "Session", q_session r)]) ++
       (if beq (q_auth r) [] then [] else [(bs "Authorization", q_auth r)]) ++ [(bs "User-Agent", bs "Ouro/1.0"); (bs "Content-Length", bs "0")]).
  assert (T1 : NoDup (map (fun e => map lower1 (fst e)) tail) /\ ~ In (map lower1 (bs "CSeq")) (map (fun e => map lower1 (fst e)) tail) /\
     (forall x, In x (map (fun e => map lower1 (fst e)) tail) -> In x (map (map lower1) [bs "CSeq"; bs "Session"; bs "Authorization"; bs "User-Agent"; bs "Content-Length"]))).
  { unfold tail. destruct (beq (q_session r) [] || beq (q_verb r) (bs "OPTIONS") || beq (q_verb r) (bs "SETUP")), (beq (q_auth r) []); cbn [app map fst]; (split; [repeat constructor; vm_compute; intuition discriminate|split; [vm_compute; intuition discriminate|]]);
      intros x I; cbn [map In] in *; tauto. }
  destruct T1 as (T1 & T2 & T3).
  assert (D' : forall x, In x (map (fun e => map lower1 (fst e)) (q_header r)) -> ~ In x (map (map lower1) [bs "CSeq"; bs "Session"; bs "Authorization"; bs "User-Agent"; bs "Content-Length"])).
  { intros x I J. apply in_map_iff in I as (e & <- & I). apply in_map_iff in J as (k' & Ek & J).
    specialize (D (fst e) (in_map fst _ _ I)). pose proof (proj1 (Forall_forall _ _) D k' J) as X. cbv beta in X. unfold same_name in X. rewrite <- Ek, beq_refl in X. discriminate. }
  change (map (fun e => map lower1 (fst e)) ((bs "CSeq", itoa (q_cseq r)) :: q_header r ++ tail))
    with (map lower1 (bs "CSeq") :: map (fun e : bytes * bytes => map lower1 (fst e)) (q_header r ++ tail)).
  rewrite map_app. constructor.
  - intros I. apply in_app_iff in I as [I|I]; [|exact (T2 I)]. apply (D' _ I). left. reflexivity.
  - assert (G : forall a b : list bytes, NoDup a -> NoDup b -> (forall x, In x a -> ~ In x b) -> NoDup (a ++ b)).
    { clear. induction a as [|x a IH]; intros b Na Nb D; [exact Nb|]. inversion Na; subst. cbn [app]. constructor.
      - intros I. apply in_app_iff in I as [I|I]; [contradiction|]. apply (D x); [left; reflexivity|exact I].
      - apply IH; [assumption|assumption|]. intros y I. apply D. right. exact I. }
    apply G; [exact N|exact T1|]. intros x I J. apply (D' x I). apply T3. exact J.
Qed.

Lemma unpack_response_spec code reason fs body rest :
  100 <= code <= 999 -> line_text reason -> Forall sfield_ok fs -> content_ok fs body -> zlen body <= 2048 ->
  exists r, unpack_response (map Some (response_text (bs "RTSP/1.0") code reason fs body) ++ rest) = (rest, Ok r) /\
    p_code r = code /\ p_body r = (match body with [] => None | _ => Some body end) /\
    (forall k, token k -> header_get (p_header r) k = field_value fs k) /\
    (forall n, 0 <= n < 2 ^ 63 -> field_value fs (bs "CSeq") = itoa n -> p_cseq r = n).
Proof.
  intros C R F K L. destruct (unpack_response_ok code reason fs body rest C R F K L) as (len & E & _). unfold sent in E. rewrite E.
  eexists. split; [reflexivity|]. cbn [p_code p_body p_header p_cseq]. splits; try reflexivity.
  - intros k T. apply header_run_fields; assumption.
  - intros n Hn En. rewrite En, atoi_itoa by lia. reflexivity.
Qed.

Lemma connect_http_read verb uri cookie : line_text verb -> line_text uri -> line_text cookie ->
  read_message (connect_http verb uri cookie) =
  Some (verb ++ bs " " ++ uri ++ bs " HTTP/1.0",
        [(bs "X-SessionCookie", cookie); (bs "Accept", bs "application/x-rtsp-tunnelled"); (bs "Pragma", bs "no-cache"); (bs "Cache-Control", bs "no-store")] ++
        (if beq verb (bs "POST") then [(bs "Content-Length", bs "32767")] else []) ++ [(bs "User-Agent", bs "Ouro/1.0")], []).
Proof.
  intros (V1 & V2) (U1 & U2) C.
  set (es := [(bs "X-SessionCookie", cookie); (bs "Accept", bs "application/x-rtsp-tunnelled"); (bs "Pragma", bs "no-cache"); (bs "Cache-Control", bs "no-store")] ++
        (if beq verb (bs "POST") then [(bs "Content-Length", bs "32767")] else []) ++ [(bs "User-Agent", bs "Ouro/1.0")]).
  assert (E : connect_http verb uri cookie = (verb ++ bs " " ++ uri ++ bs " HTTP/1.0") ++ crnl ++ flat_map (fun e => field_line (fst e) (snd e)) es ++ crnl ++ []).
  { unfold connect_http, es. rewrite !flat_map_app. cbn [flat_map fst snd]. rewrite !app_nil_r. destruct (beq verb (bs "POST")); cbn [flat_map fst snd]; rewrite ?app_nil_r; rewrite <- !app_assoc; reflexivity. }
  rewrite E. rewrite read_message_ok; [reflexivity| |].
  - assert (X : plain (bs " ") = true /\ plain (bs " HTTP/1.0") = true) by (split; reflexivity). destruct X as [X1 X2].
    destruct (plain_line _ X1), (plain_line _ X2). split; intros I; repeat (apply in_app_iff in I; destruct I as [I|I]); auto.
  - unfold es. destruct (beq verb (bs "POST")); cbn [app];
      repeat (apply Forall_cons; [apply named_field; [reflexivity|first [exact C|apply plain_line; reflexivity]]|]); apply Forall_nil.
Qed.

Lemma status_line_inv proto line st n : status_line proto line = Ok (st, n) ->
  exists rest, cut 32 line = Some (proto, rest) /\ st = trim_space rest /\
    zlen (match cut 32 (trim_space rest) with Some (a, _) => a | None => trim_space rest end) = 3 /\
    atoi (match cut 32 (trim_space rest) with Some (a, _) => a | None => trim_space rest end) = (n, None) /\ 0 <= n.
Proof.
  unfold status_line. destruct (cut 32 line) as [[p rest]|]; [|discriminate]. destruct (beq p proto) eqn:E; cbn [negb]; [|discriminate].
  apply beq_eq in E. subst p. cbv zeta. set (c := match cut 32 (trim_space rest) with Some (a, _) => a | None => trim_space rest end).
  destruct (zlen c =? 3) eqn:L; cbn [negb]; [|discriminate]. destruct (atoi c) as [m [e|]] eqn:Ea; [discriminate|].
  destruct (m <? 0) eqn:Em; [discriminate|]. intros X. apply Ok_inj in X. assert (st = trim_space rest /\ m = n) as [-> ->] by (split; congruence).
  exists rest. splits; try reflexivity; [apply Z.eqb_eq; exact L|exact Ea|apply Z.ltb_ge; exact Em].
Qed.

Lemma receive_http_inv s rest : receive_http s = (rest, Ok tt) ->
  exists line status tail code, fst (read_line s) = tail /\ snd (read_line s) = Ok (bs "HTTP/1.0" ++ 32 :: line) /\
    status = (match cut 32 (trim_space line) with Some (a, _) => a | None => trim_space line end) /\
    zlen status = 3 /\ atoi status = (code, None) /\ 0 <= code.
Proof.
  unfold receive_http. destruct (read_line s) as [s1 [l| | |]] eqn:E; try discriminate.
  destruct (status_line (bs "HTTP/1.0") l) as [[st n]| | |] eqn:Es; try discriminate. intros _.
  destruct (status_line_inv _ _ _ _ Es) as (r & C & -> & L & A & N). exists r. eexists. exists s1, n. cbn [fst snd].
  splits; try reflexivity; try assumption. apply cut_some in C as [C _]. rewrite C. reflexivity.
Qed.
