(* Lemmas: concurrent commands. *)
From Coq Require Import String.
From Verif Require Import Base GoStrings M_conn M_message M_transport M_session S_session M_race S_race L_base L_session L_flow.
From Coq Require Import ZifyBool ZifyNat.

Lemma at_same {A} (f : nat -> A) i x : at_set f i x i = x.
Proof. unfold at_set. rewrite Nat.eqb_refl. reflexivity. Qed.
Lemma at_other {A} (f : nat -> A) i x j : j <> i -> at_set f i x j = f j.
Proof. intros N. unfold at_set. destruct (Nat.eqb j i) eqn:E; [apply Nat.eqb_eq in E; contradiction|reflexivity]. Qed.

(* a command running alone is the command of M_session *)
Lemma race_alone x i verb uri hs rest : r_at x i = Idle -> r_todo x i = (verb, uri, hs) :: rest -> s_conn (w_s (r_w x)) = true ->
  let y := race x [i; i; i; i] in
  r_w y = fst (command (r_w x) verb uri hs) /\ r_at y i = Idle /\ r_todo y i = rest /\ (forall j, j <> i -> r_at y j = r_at x j /\ r_todo y j = r_todo x j).
Proof.
  intros A T C. unfold race. cbn [fold_left]. unfold command. rewrite C. cbn [negb]. cbv zeta. destruct (call_auth (w_s (r_w x)) verb) as [s auth] eqn:CA.
  assert (E1 : race_step x i = mkR (upd_s (r_w x) (fun _ => s)) (at_set (r_at x) i (Loaded (mkReq verb 0 uri auth [] (fold_left (fun h e => header_set h (fst e) (snd e)) hs [])) (s_cseq s))) (at_set (r_todo x) i rest)).
  { unfold race_step. rewrite A, T, CA. reflexivity. }
  rewrite E1. clear E1.
  match goal with |- context [race_step (mkR ?a ?b ?c) i] => let x1 := constr:(mkR a b c) in assert (E2 : race_step x1 i = mkR (upd_s (r_w x1) (fun s => set_cseq s (i64 (s_cseq (w_s (r_w x1)) + 1)))) (at_set (r_at x1) i (Stored (mkReq verb 0 uri auth [] (fold_left (fun h e => header_set h (fst e) (snd e)) hs [])))) (r_todo x1))
    by (unfold race_step; cbn [r_at]; rewrite at_same; reflexivity) end.
  rewrite E2. clear E2. cbn [r_w r_at r_todo].
  match goal with |- context [race_step (mkR ?a ?b ?c) i] => let x1 := constr:(mkR a b c) in set (x2 := x1) end.
  set (sr := enqueue (w_s (r_w x2)) (mkReq verb 0 uri auth [] (fold_left (fun h e => header_set h (fst e) (snd e)) hs []))).
  assert (E3 : race_step x2 i = mkR (upd_s (r_w x2) (fun _ => fst sr)) (at_set (r_at x2) i (Queued (snd sr))) (r_todo x2)).
  { unfold race_step. unfold x2 at 1. cbn [r_at]. rewrite at_same. unfold sr. destruct (enqueue _ _). reflexivity. }
  rewrite E3. clear E3. match goal with |- context [race_step (mkR ?a ?b ?c) i] => let x1 := constr:(mkR a b c) in set (x3 := x1) end.
  assert (E4 : race_step x3 i = mkR (fst (write (r_w x3) false (snd sr))) (at_set (r_at x3) i Idle) (r_todo x3)).
  { unfold race_step. unfold x3 at 1. cbn [r_at]. rewrite at_same. reflexivity. }
  rewrite E4. clear E4. cbn [r_w r_at r_todo]. splits.
  - reflexivity.
  - apply at_same.
  - unfold x3, x2. cbn [r_todo]. apply at_same.
  - intros j N. unfold x3, x2. cbn [r_todo r_at]. rewrite !at_other by exact N. split; reflexivity.
Qed.

(* taken numbers *)
Definition top (x : racing) : Z -> Prop := fun n => n <= s_cseq (w_s (r_w x)) /\ (forall i r, r_at x i = Stored r -> n < s_cseq (w_s (r_w x))).
Record sane (x : racing) (c0 : Z) : Prop := {
  sane_one : forall i j, numbering (r_at x i) = true -> numbering (r_at x j) = true -> i = j;
  sane_load : forall i r t, r_at x i = Loaded r t -> t = s_cseq (w_s (r_w x));
  sane_store : forall i r, r_at x i = Stored r -> c0 < s_cseq (w_s (r_w x));
  sane_base : c0 <= s_cseq (w_s (r_w x));
  sane_log : forall n, In n (new_cseqs (w_log (r_w x))) -> c0 < n /\ top x n;
  sane_nodup : NoDup (new_cseqs (w_log (r_w x)));
  sane_queued : forall i r, r_at x i = Queued r -> c0 < q_cseq r /\ top x (q_cseq r) /\ ~ In (q_cseq r) (new_cseqs (w_log (r_w x))) /\ qget (s_queue (w_s (r_w x))) (q_cseq r) = Some r;
  sane_apart : forall i j r s, r_at x i = Queued r -> r_at x j = Queued s -> q_cseq r = q_cseq s -> i = j;
  sane_held : forall again r, In (Sent again r) (w_log (r_w x)) -> c0 < q_cseq r /\ top x (q_cseq r) /\ qget (s_queue (w_s (r_w x))) (q_cseq r) = Some r }.

Lemma new_cseqs_app a b : new_cseqs (a ++ b) = new_cseqs a ++ new_cseqs b.
Proof. apply flat_map_app. Qed.

Ltac at_cases i j := destruct (Nat.eq_dec j i) as [->|]; [rewrite ?at_same in *|rewrite ?at_other in * by assumption].

Lemma race_sane x i c0 : s_proto (w_s (r_w x)) <> ProtoHTTP -> - 2 ^ 63 <= c0 -> s_cseq (w_s (r_w x)) < 2 ^ 63 - 1 ->
  sane x c0 -> (r_at x i = Idle -> forall j, numbering (r_at x j) = false) -> sane (race_step x i) c0.
Proof.
  intros P C0 B S X. destruct S as [S1 S2 S3 S0 S4 S5 S6 S7 S8]. unfold race_step. destruct (r_at x i) as [|r t|r|r] eqn:A.
  - destruct (r_todo x i) as [|[[verb uri] hs] rest]; [constructor; assumption|]. specialize (X eq_refl).
    destruct (call_auth (w_s (r_w x)) verb) as [s auth] eqn:CA. destruct (call_auth_frame _ _ _ _ CA) as (a & -> & _).
    assert (NS : forall j r, r_at x j <> Stored r) by (intros j r E; specialize (X j); rewrite E in X; discriminate).
    constructor; cbn [r_w r_at upd_s w_s w_log set_auth s_cseq s_queue]; unfold top; cbn [r_w r_at upd_s w_s w_log set_auth s_cseq s_queue].
    + intros j k. at_cases i j; at_cases i k; try reflexivity; intros; try (rewrite X in *; discriminate).
    + intros j r t. at_cases i j; intros E; [inversion E; reflexivity|]. specialize (X j). rewrite E in X. discriminate.
    + intros j r. at_cases i j; intros E; [discriminate|]. eauto.
    + exact S0.
    + intros n I. destruct (S4 n I) as [G1 [G2 G3]]. splits; [exact G1|exact G2|]. intros j r. at_cases i j; intros E; [discriminate|eauto].
    + exact S5.
    + intros j r. at_cases i j; intros E; [discriminate|]. destruct (S6 _ _ E) as (G0 & [G1 G2] & G3 & G4). splits; auto. intros k q. at_cases i k; intros E2; [discriminate|eauto].
    + intros j k r q. at_cases i j; at_cases i k; intros; try discriminate; eauto.
    + intros ag r I. destruct (S8 _ _ I) as (G0 & [G1 G2] & G3). splits; auto. intros k q. at_cases i k; intros E2; [discriminate|eauto].
  - clear X. pose proof (S2 _ _ _ A) as ->.
    assert (NS : forall j q, r_at x j <> Stored q) by (intros j q E; assert (j = i) by (apply S1; [rewrite E|rewrite A]; reflexivity); subst; congruence).
    assert (NL : forall j q u, j <> i -> r_at x j <> Loaded q u) by (intros j q u N E; apply N; apply S1; [rewrite E|rewrite A]; reflexivity).
    assert (K : i64 (s_cseq (w_s (r_w x)) + 1) = s_cseq (w_s (r_w x)) + 1) by (apply i64_small; lia).
    constructor; cbn [r_w r_at upd_s w_s w_log set_cseq s_cseq s_queue]; unfold top; cbn [r_w r_at upd_s w_s w_log set_cseq s_cseq s_queue]; rewrite ?K.
    + intros j k. at_cases i j; at_cases i k; try reflexivity; intros N1 N2; [symmetry|..]; apply S1; try assumption; rewrite A; reflexivity.
    + intros j q u. at_cases i j; intros E; [discriminate|]. exfalso. eapply NL; eassumption.
    + intros j q. at_cases i j; intros E; [lia|]. exfalso. eapply NS; exact E.
    + lia.
    + intros n I. destruct (S4 n I) as [G1 [G2 _]]. splits; [exact G1|lia|]. intros. lia.
    + exact S5.
    + intros j q. at_cases i j; intros E; [discriminate|]. destruct (S6 _ _ E) as (G0 & [G1 G2] & G3 & G4). splits; auto; [lia|]. intros. lia.
    + intros j k q u. at_cases i j; at_cases i k; intros; try discriminate; eauto.
    + intros ag q I. destruct (S8 _ _ I) as (G0 & [G1 G2] & G3). splits; auto; [lia|]. intros. lia.
  - clear X. pose proof (S3 _ _ A) as C1.
    assert (NS : forall j q, j <> i -> r_at x j <> Stored q) by (intros j q N E; apply N; apply S1; [rewrite E|rewrite A]; reflexivity).
    assert (NL : forall j q u, r_at x j <> Loaded q u) by (intros j q u E; assert (j = i) by (apply S1; [rewrite E|rewrite A]; reflexivity); subst; congruence).
    assert (LT : forall n, top x n -> n < s_cseq (w_s (r_w x))) by (intros n [_ T]; eapply T; exact A).
    unfold enqueue. cbv zeta. constructor; cbn [r_w r_at upd_s w_s w_log set_queue s_cseq s_queue]; unfold top; cbn [r_w r_at upd_s w_s w_log set_queue s_cseq s_queue].
    + intros j k. at_cases i j; at_cases i k; try reflexivity; intros N1 N2; try discriminate. apply S1; assumption.
    + intros j q u. at_cases i j; intros E; [discriminate|]. exfalso. eapply NL; eassumption.
    + intros j q. at_cases i j; intros E; [discriminate|]. exfalso. eapply NS; eassumption.
    + lia.
    + intros n I. destruct (S4 n I) as [G1 G2]. apply LT in G2. splits; [exact G1|lia|]. intros. lia.
    + exact S5.
    + intros j q. at_cases i j; intros E.
      * inversion E; subst. cbn [q_cseq]. splits; [exact C1|lia| | |].
        -- intros k u. at_cases i k; intros E2; [discriminate|]. exfalso. eapply NS; eassumption.
        -- intros I. destruct (S4 _ I) as [_ G]. apply LT in G. lia.
        -- rewrite qget_set, Z.eqb_refl. reflexivity.
      * destruct (S6 _ _ E) as (G0 & G1 & G3 & G4). apply LT in G1. splits; [exact G0|lia|intros; lia|exact G3|]. rewrite qget_set. destruct (q_cseq q =? s_cseq (w_s (r_w x))) eqn:EE; [lia|exact G4].
    + intros j k q u. at_cases i j; at_cases i k; intros E1 E2 E3; try reflexivity; [| |eauto].
      * inversion E1; subst. cbn [q_cseq] in E3. destruct (S6 _ _ E2) as (_ & G & _). apply LT in G. lia.
      * inversion E2; subst. cbn [q_cseq] in E3. destruct (S6 _ _ E1) as (_ & G & _). apply LT in G. lia.
    + intros ag q I. destruct (S8 _ _ I) as (G0 & G1 & G3). apply LT in G1. splits; [exact G0|lia|intros; lia|]. rewrite qget_set. destruct (q_cseq q =? s_cseq (w_s (r_w x))) eqn:EE; [lia|exact G3].
  - clear X. destruct (S6 _ _ A) as (G0 & G1 & G3 & G4). unfold write. destruct (s_proto (w_s (r_w x)) =? ProtoHTTP) eqn:EP; [lia|]. cbv zeta.
    set (w' := mkW (w_s (r_w x)) (w_in (r_w x)) (tl (w_writes (r_w x))) (w_listens (r_w x)) (w_rand (r_w x)) (w_log (r_w x) ++ [Sent false r])).
    replace (fst (match w_writes (r_w x) with Some e :: _ => (w', Err e) | _ => (w', Ok tt) end)) with w' by (destruct (w_writes (r_w x)) as [|[?|] ?]; reflexivity).
    assert (TT : forall n, top x n -> top (mkR w' (at_set (r_at x) i Idle) (r_todo x)) n).
    { intros n [T1 T2]. split; [exact T1|]. intros j q. cbn [r_at r_w w' w_s]. at_cases i j; intros E; [discriminate|eauto]. }
    constructor; cbn [r_w r_at w' w_s w_log].
    + intros j k. at_cases i j; at_cases i k; try reflexivity; intros N1 N2; try discriminate. apply S1; assumption.
    + intros j q u. at_cases i j; intros E; [discriminate|eauto].
    + intros j q. at_cases i j; intros E; [discriminate|eauto].
    + exact S0.
    + intros n I. rewrite new_cseqs_app in I. apply in_app_or in I as [I|[<-|[]]]; [destruct (S4 _ I) as [H1 H2]; split; auto|split; auto].
    + rewrite new_cseqs_app. cbn [new_cseqs flat_map app]. apply NoDup_Add with (a := q_cseq r) (l := new_cseqs (w_log (r_w x))); [|split; assumption].
      rewrite <- (app_nil_r (new_cseqs (w_log (r_w x)))) at 1. apply Add_app.
    + intros j q. at_cases i j; intros E; [discriminate|]. destruct (S6 _ _ E) as (H0 & H1 & H3 & H4). splits; [exact H0|apply TT; exact H1| |exact H4].
      rewrite new_cseqs_app. intros I. apply in_app_or in I as [I|[I|[]]]; [contradiction|]. assert (i = j) by (eapply S7; [exact A|exact E|exact I]). congruence.
    + intros j k q u. at_cases i j; at_cases i k; intros; try discriminate; eauto.
    + intros ag q I. apply in_app_or in I as [I|[I|[]]]; [destruct (S8 _ _ I) as (H0 & H1 & H2); splits; auto; apply TT; exact H1|]. inversion I; subst. split; [exact G0|]. split; [apply TT; exact G1|exact G4].
Qed.

Lemma race_step_frame x i : s_proto (w_s (r_w (race_step x i))) = s_proto (w_s (r_w x)).
Proof.
  unfold race_step. destruct (r_at x i).
  - destruct (r_todo x i) as [|[[verb uri] hs] rest]; [reflexivity|]. destruct (call_auth (w_s (r_w x)) verb) as [s auth] eqn:CA. destruct (call_auth_frame _ _ _ _ CA) as (a & -> & _). reflexivity.
  - reflexivity.
  - reflexivity.
  - cbn [r_w]. unfold write. destruct (s_proto (w_s (r_w x)) =? ProtoHTTP); [reflexivity|]. cbv zeta. destruct (w_writes (r_w x)) as [|[?|] ?]; reflexivity.
Qed.
Lemma race_step_cseq x i c0 : - 2 ^ 63 <= c0 -> s_cseq (w_s (r_w x)) < 2 ^ 63 - 1 -> sane x c0 -> s_cseq (w_s (r_w (race_step x i))) <= s_cseq (w_s (r_w x)) + 1.
Proof.
  intros C B S. unfold race_step. destruct (r_at x i) as [|r t|r|r] eqn:A.
  - destruct (r_todo x i) as [|[[verb uri] hs] rest]; [lia|]. destruct (call_auth (w_s (r_w x)) verb) as [s auth] eqn:CA. destruct (call_auth_frame _ _ _ _ CA) as (a & -> & _). cbn [r_w upd_s w_s set_auth s_cseq]. lia.
  - pose proof (sane_load _ _ S _ _ _ A) as ->. pose proof (sane_base _ _ S). cbn [r_w upd_s w_s set_cseq s_cseq]. rewrite i64_small by lia. lia.
  - cbn. lia.
  - cbn [r_w]. unfold write. destruct (s_proto (w_s (r_w x)) =? ProtoHTTP); [cbn; lia|]. cbv zeta. destruct (w_writes (r_w x)) as [|[?|] ?]; cbn; lia.
Qed.

Lemma race_run_sane sch : forall x c0, s_proto (w_s (r_w x)) <> ProtoHTTP -> - 2 ^ 63 <= c0 -> s_cseq (w_s (r_w x)) + zlen sch < 2 ^ 63 -> sane x c0 -> exclusive x sch -> sane (race x sch) c0.
Proof.
  induction sch as [|i sch IH]; intros x c0 P C B S X; [exact S|]. destruct X as [X1 X2]. rewrite zlen_cons in B. pose proof (zlen_nonneg sch). cbn [race fold_left]. apply IH; auto.
  - rewrite race_step_frame. exact P.
  - pose proof (race_step_cseq x i c0 C ltac:(lia) S). lia.
  - apply race_sane; auto. lia.
Qed.

Lemma race_unique x sch : s_proto (w_s (r_w x)) <> ProtoHTTP -> - 2 ^ 63 <= s_cseq (w_s (r_w x)) -> s_cseq (w_s (r_w x)) + zlen sch < 2 ^ 63 ->
  (forall i, r_at x i = Idle) -> w_log (r_w x) = [] -> exclusive x sch ->
  NoDup (new_cseqs (w_log (r_w (race x sch)))) /\
  (forall again r, In (Sent again r) (w_log (r_w (race x sch))) -> qget (s_queue (w_s (r_w (race x sch)))) (q_cseq r) = Some r).
Proof.
  intros P C B I L X. assert (S : sane x (s_cseq (w_s (r_w x)))).
  { constructor; try (intros; rewrite ?I in *; discriminate); try lia; rewrite ?L; cbn; try (intros; contradiction). constructor. }
  pose proof (race_run_sane sch x _ P C B S X) as R. split; [apply R|]. intros ag r H. apply (sane_held _ _ R) in H. apply H.
Qed.
