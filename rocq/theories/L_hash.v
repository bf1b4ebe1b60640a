(* Lemmas: concurrent calls of one authentication closure. *)
From Coq Require Import String.
From Verif Require Import Base GoStrings S_md5 S_digest M_digest M_race M_hash S_hash L_base L_race.

Definition sess (d : digest) : bool := negb (beq (d_qop d) []) && beq (d_algorithm d) (bs "md5-sess").
Lemma response_parts d v b : digest_response d v b =
  (let d2 := keep2 d (hash2 d (v, b)) in let d3 := if sess d then keep1 d2 (md5hex (colonnade (d_ha1 d) [d_nonce d; d_cnonce d])) else d2 in
   (d3, hash_text d (d_ha1 d3) (hash2 d (v, b)))).
Proof.
  destruct d as [ba us re dm no op st al cn qo ur h1 h2 nc ct]. unfold digest_response, sess, hash2, hash_text, keep2, keep1. cbn [d_qop d_algorithm d_ha1 d_nonce d_cnonce d_uri d_nc fst snd].
  destruct (beq qo []) eqn:Q; cbn [negb andb]; [reflexivity|]. destruct (beq al (bs "md5-sess")); reflexivity.
Qed.
Lemma text_keep2 d h a b : hash_text (keep2 d h) a b = hash_text d a b. Proof. destruct d; reflexivity. Qed.
Lemma text_keep1 d h a b : hash_text (keep1 d h) a b = hash_text d a b. Proof. destruct d; reflexivity. Qed.
Lemma hash2_keep2 d h a : hash2 (keep2 d h) a = hash2 d a. Proof. destruct d; reflexivity. Qed.
Lemma hash2_keep1 d h a : hash2 (keep1 d h) a = hash2 d a. Proof. destruct d; reflexivity. Qed.
Lemma keep2_ha2 d h : d_ha2 (keep2 d h) = h. Proof. destruct d; reflexivity. Qed.
Lemma keep2_ha1 d h : d_ha1 (keep2 d h) = d_ha1 d. Proof. destruct d; reflexivity. Qed.
Lemma keep1_ha2 d h : d_ha2 (keep1 d h) = d_ha2 d. Proof. destruct d; reflexivity. Qed.
Lemma sess_keep2 d h : sess (keep2 d h) = sess d. Proof. destruct d; reflexivity. Qed.
Lemma keep2_twice d h k : keep2 (keep2 d h) k = keep2 d k. Proof. destruct d; reflexivity. Qed.
Lemma keep2_basic d h : d_basic (keep2 d h) = d_basic d. Proof. destruct d; reflexivity. Qed.
Lemma keep1_basic d h : d_basic (keep1 d h) = d_basic d. Proof. destruct d; reflexivity. Qed.
Lemma keep2_nonce d h : d_nonce (keep2 d h) = d_nonce d /\ d_cnonce (keep2 d h) = d_cnonce d. Proof. destruct d; split; reflexivity. Qed.

(* ---- one by one ---- *)
Definition o_ask (o : nat * ask * bytes) : ask := snd (fst o).
Definition o_text (o : nat * ask * bytes) : bytes := snd o.
Definition op_of (a : ask) : dop := Call (fst a) (snd a).
Definition after (d : digest) (l : list ask) : digest := fold_left (fun d a => fst (digest_response d (fst a) (snd a))) l d.
Lemma response_basic d v b : d_basic (fst (digest_response d v b)) = d_basic d.
Proof. rewrite response_parts. cbv zeta. cbn [fst]. destruct (sess d); rewrite ?keep1_basic, keep2_basic; reflexivity. Qed.
Lemma calls_snoc auth l : forall d a, d_basic d = false ->
  calls auth d (map op_of (l ++ [a])) = calls auth d (map op_of l) ++ [auth ++ snd (digest_response (after d l) (fst a) (snd a))].
Proof.
  induction l as [|x l IH]; intros d a B.
  - cbn. unfold auth_call. rewrite B. destruct (digest_response d (fst a) (snd a)). reflexivity.
  - cbn [app map after fold_left op_of calls]. unfold auth_call. rewrite B. pose proof (response_basic d (fst x) (snd x)) as R. destruct (digest_response d (fst x) (snd x)) as [d' t] eqn:E. cbn [fst] in R. cbn [fst].
    rewrite IH by (rewrite R; exact B). reflexivity.
Qed.
Lemma after_basic l : forall d, d_basic (after d l) = d_basic d.
Proof. induction l as [|x l IH]; intros d; [reflexivity|]. cbn [after fold_left]. change (d_basic (after (fst (digest_response d (fst x) (snd x))) l) = d_basic d). rewrite IH. apply response_basic. Qed.
Lemma after_snoc l d a : after d (l ++ [a]) = fst (digest_response (after d l) (fst a) (snd a)).
Proof. unfold after. rewrite fold_left_app. reflexivity. Qed.

Definition stands (d : digest) (p : hpoint) (now : digest) : Prop :=
  match p with
  | HIdle => now = d
  | HKept a => now = keep2 d (hash2 d a)
  | HTook a h => now = keep2 d (hash2 d a) /\ h = d_ha1 d /\ sess d = true
  | HSess a => now = fst (digest_response d (fst a) (snd a))
  | HLast a h => now = fst (digest_response d (fst a) (snd a)) /\ h = d_ha1 now
  end.
Definition settled (auth : bytes) (d0 : digest) (g : hashing) : Prop :=
  map (fun o => auth ++ o_text o) (g_out g) = calls auth d0 (map op_of (map o_ask (g_out g))) /\
  (exists i, (forall j, j <> i -> g_at g j = HIdle) /\ stands (after d0 (map o_ask (g_out g))) (g_at g i) (g_d g)).
Lemma step_settled auth d0 g i : d_basic d0 = false -> settled auth d0 g -> (g_at g i = HIdle -> at_rest g) -> settled auth d0 (hash_step g i).
Proof.
  intros B (O & k & K & S) X. unfold hash_step. set (d := after d0 (map o_ask (g_out g))) in *.
  assert (KI : g_at g i <> HIdle -> k = i) by (intros N; destruct (Nat.eq_dec k i); [assumption|]; exfalso; apply N, K; congruence).
  destruct (g_at g i) as [|a|a h|a|a h] eqn:A.
  - specialize (X eq_refl). rewrite (X k) in S. cbn [stands] in S. destruct (g_todo g i) as [|a rest]; [split; [exact O|]; exists k; split; [exact K|]; rewrite X; exact S|].
    split; [exact O|]. exists i. cbn [g_at g_d g_out]. split; [intros j N; rewrite at_other by exact N; apply X|]. rewrite at_same. cbn [stands]. fold d. rewrite S. reflexivity.
  - rewrite (KI ltac:(discriminate)) in *. rewrite A in S. cbn [stands] in S. rewrite S. fold (sess (keep2 d (hash2 d a))). rewrite sess_keep2.
    destruct (sess d) eqn:SS; (split; [exact O|]; exists i; cbn [g_at g_d g_out]; split; [intros j N; rewrite at_other by exact N; apply K; exact N|]; rewrite at_same; cbn [stands]; fold d).
    + rewrite keep2_ha1. splits; [reflexivity|reflexivity|exact SS].
    + rewrite response_parts, SS. cbv zeta. cbn [fst snd]. destruct a. split; reflexivity.
  - rewrite (KI ltac:(discriminate)) in *. rewrite A in S. cbn [stands] in S. destruct S as (S & -> & SS). rewrite S. destruct (keep2_nonce d (hash2 d a)) as (-> & ->).
    split; [exact O|]. exists i. cbn [g_at g_d g_out]. split; [intros j N; rewrite at_other by exact N; apply K; exact N|]. rewrite at_same. cbn [stands]. fold d. rewrite response_parts, SS. destruct a. reflexivity.
  - rewrite (KI ltac:(discriminate)) in *. rewrite A in S. cbn [stands] in S.
    split; [exact O|]. exists i. cbn [g_at g_d g_out]. split; [intros j N; rewrite at_other by exact N; apply K; exact N|]. rewrite at_same. cbn [stands]. fold d. split; [exact S|reflexivity].
  - rewrite (KI ltac:(discriminate)) in *. rewrite A in S. cbn [stands] in S. destruct S as (S & ->).
    split; cbn [g_at g_d g_out].
    + rewrite !map_app. cbn [map o_ask o_text fst snd]. change ([op_of a]) with (map op_of [a]). rewrite <- map_app, calls_snoc, O by exact B. f_equal. f_equal. f_equal. fold d. rewrite S, response_parts. cbv zeta. cbn [fst snd].
      destruct (sess d); rewrite ?text_keep1, text_keep2, ?keep1_ha2, keep2_ha2; destruct a; reflexivity.
    + exists i. split; [intros j N; rewrite at_other by exact N; apply K; exact N|]. rewrite at_same. cbn [stands]. rewrite map_app. cbn [map o_ask fst snd]. rewrite after_snoc. exact S.
Qed.
Lemma run_settled auth d0 sch : forall g, d_basic d0 = false -> settled auth d0 g -> one_by_one g sch -> settled auth d0 (hash_run g sch).
Proof. induction sch as [|i sch IH]; intros g B S X; [exact S|]. destruct X as [X1 X2]. cbn [hash_run fold_left]. apply IH; [exact B| |exact X2]. apply step_settled; assumption. Qed.
Lemma one_by_one_calls auth g sch : d_basic (g_d g) = false -> at_rest g -> g_out g = [] -> one_by_one g sch ->
  map (fun o => auth ++ snd o) (g_out (hash_run g sch)) = calls auth (g_d g) (map (fun o => Call (fst (snd (fst o))) (snd (snd (fst o)))) (g_out (hash_run g sch))).
Proof.
  intros B R O X. destruct (run_settled auth (g_d g) sch g B) as (H & _).
  - split; [rewrite O; reflexivity|]. exists 0%nat. split; [intros; apply R|]. rewrite R, O. reflexivity.
  - exact X.
  - rewrite map_map in H. exact H.
Qed.

(* ---- in every order, when ha1 stays ---- *)
Definition mixing (d0 : digest) (P : ask -> Prop) (g : hashing) : Prop :=
  (exists h, g_d g = keep2 d0 h) /\ (forall i a, In a (g_todo g i) -> P a) /\
  ((exists i, g_at g i <> HIdle) -> exists a, P a /\ d_ha2 (g_d g) = hash2 d0 a) /\
  (forall i, match g_at g i with HIdle => True | HKept a => P a | HLast a h => P a /\ h = d_ha1 d0 | _ => False end) /\
  (forall o, In o (g_out g) -> P (snd (fst o)) /\ exists a, P a /\ snd o = snd (digest_response d0 (fst a) (snd a))).
Lemma step_mixing d0 P g i : sess d0 = false -> mixing d0 P g -> mixing d0 P (hash_step g i).
Proof.
  intros SS ((h0 & D) & T & H2 & AT & OU). unfold hash_step. pose proof (AT i) as Ai. destruct (g_at g i) as [|a|a h|a|a h] eqn:A; try contradiction.
  - destruct (g_todo g i) as [|a rest] eqn:TD; [split; [exists h0; exact D|]; splits; assumption|].
    assert (Pa : P a) by (apply (T i); rewrite TD; left; reflexivity).
    unfold mixing. cbn [g_d g_at g_todo g_out]. rewrite D, hash2_keep2, keep2_twice. splits.
    + eexists. reflexivity.
    + intros j b. destruct (Nat.eq_dec j i) as [->|N]; [rewrite at_same; intros I; apply (T i); rewrite TD; right; exact I|rewrite at_other by exact N; apply T].
    + intros _. exists a. split; [exact Pa|apply keep2_ha2].
    + intros j. destruct (Nat.eq_dec j i) as [->|N]; [rewrite at_same; exact Pa|rewrite at_other by exact N; apply AT].
    + exact OU.
  - fold (sess (g_d g)). rewrite D at 1. rewrite sess_keep2, SS. unfold mixing. cbn [g_d g_at g_todo g_out]. splits.
    + exists h0. exact D.
    + exact T.
    + intros _. apply H2. exists i. rewrite A. discriminate.
    + intros j. destruct (Nat.eq_dec j i) as [->|N]; [rewrite at_same; split; [exact Ai|]; rewrite D; apply keep2_ha1|rewrite at_other by exact N; apply AT].
    + exact OU.
  - destruct Ai as (Pa & ->). unfold mixing. cbn [g_d g_at g_todo g_out]. destruct H2 as (b & Pb & E2); [exists i; rewrite A; discriminate|]. splits.
    + exists h0. exact D.
    + exact T.
    + intros _. exists b. split; assumption.
    + intros j. destruct (Nat.eq_dec j i) as [->|N]; [rewrite at_same; exact I|rewrite at_other by exact N; apply AT].
    + intros o I. apply in_app_or in I as [I|[<-|[]]]; [apply OU; exact I|]. cbn [fst snd]. split; [exact Pa|]. exists b. split; [exact Pb|].
      rewrite E2, D, text_keep2, response_parts, SS. cbv zeta. cbn [snd]. rewrite keep2_ha1. destruct b. reflexivity.
Qed.
Lemma run_mixing d0 P sch : forall g, sess d0 = false -> mixing d0 P g -> mixing d0 P (hash_run g sch).
Proof. induction sch as [|i sch IH]; intros g S M; [exact M|]. cbn [hash_run fold_left]. apply IH; [exact S|]. apply step_mixing; assumption. Qed.
Lemma keep2_self d : d = keep2 d (d_ha2 d). Proof. destruct d; reflexivity. Qed.
Lemma mixed g sch : (d_qop (g_d g) = [] \/ d_algorithm (g_d g) <> bs "md5-sess") -> at_rest g -> g_out g = [] ->
  forall i a text, In (i, a, text) (g_out (hash_run g sch)) ->
  (exists j, In a (g_todo g j)) /\ exists b j, In b (g_todo g j) /\ text = snd (digest_response (g_d g) (fst b) (snd b)).
Proof.
  intros Q R O i a text I. assert (SS : sess (g_d g) = false).
  { unfold sess. destruct Q as [->|N]; [reflexivity|]. destruct (beq (d_algorithm (g_d g)) (bs "md5-sess")) eqn:E; [apply beq_eq in E; contradiction|]. apply andb_false_r. }
  destruct (run_mixing (g_d g) (fun a => exists j, In a (g_todo g j)) sch g SS) as (_ & _ & _ & _ & M).
  - split; [exists (d_ha2 (g_d g)); apply keep2_self|]. splits.
    + intros j b X. exists j. exact X.
    + intros (j & N). exfalso. apply N, R.
    + intros j. rewrite R. exact Logic.I.
    + rewrite O. intros o [].
  - destruct (M _ I) as (X & b & (j & J) & E). split; [exact X|]. exists b, j. split; [exact J|exact E].
Qed.
(* ---- crossed ---- *)
Lemma crossed d a b out : (d_qop d = [] \/ d_algorithm d <> bs "md5-sess") ->
  let g := mkH d (fun _ => HIdle) (fun i => match i with 0%nat => [a] | 1%nat => [b] | _ => [] end) out in
  g_out (hash_run g [0; 1; 0; 0; 1; 1]%nat) = out ++ [(0%nat, a, snd (digest_response d (fst b) (snd b))); (1%nat, b, snd (digest_response d (fst b) (snd b)))].
Proof.
  intros Q g. assert (SS : sess d = false).
  { unfold sess. destruct Q as [->|N]; [reflexivity|]. destruct (beq (d_algorithm d) (bs "md5-sess")) eqn:E; [apply beq_eq in E; contradiction|]. apply andb_false_r. }
  unfold g, hash_run. cbn [fold_left]. unfold hash_step at 6. cbn [g_at g_todo at_set Nat.eqb g_d]. unfold hash_step at 5. cbn [g_at g_todo at_set Nat.eqb g_d].
  unfold hash_step at 4. cbn [g_at g_todo at_set Nat.eqb g_d g_out]. fold (sess (keep2 (keep2 d (hash2 d a)) (hash2 (keep2 d (hash2 d a)) b))). rewrite !sess_keep2, SS.
  unfold hash_step at 3. cbn [g_at g_todo at_set Nat.eqb g_d g_out]. unfold hash_step at 2. cbn [g_at g_todo at_set Nat.eqb g_d g_out].
  fold (sess (keep2 (keep2 d (hash2 d a)) (hash2 (keep2 d (hash2 d a)) b))). rewrite !sess_keep2, SS.
  unfold hash_step at 1. cbn [g_at g_todo at_set Nat.eqb g_d g_out]. rewrite <- app_assoc. cbn [app].
  rewrite !text_keep2, !keep2_ha2, !keep2_ha1, !hash2_keep2, response_parts, SS. cbv zeta. cbn [snd]. rewrite keep2_ha1. destruct b. reflexivity.
Qed.
