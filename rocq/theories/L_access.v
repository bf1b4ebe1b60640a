(* Lemmas: what goroutines touch in common. *)
From Verif Require Import Base M_access S_access L_base.

Lemma rest_same f i x : rest_set f i x i = x.
Proof. unfold rest_set. rewrite Nat.eqb_refl. reflexivity. Qed.
Lemma rest_other f i x j : j <> i -> rest_set f i x j = f j.
Proof. intros N. unfold rest_set. destruct (Nat.eqb j i) eqn:E; [apply Nat.eqb_eq in E; contradiction|reflexivity]. Qed.

(* ---- the lock: the queue is touched with it, nothing waits with it ---- *)
Definition is_queue (v : shared) : bool := match v with VQueue => true | _ => false end.
Fixpoint locks (held : bool) (tr : list act) : option bool :=
  match tr with
  | [] => Some held
  | Acq :: r => if held then None else locks true r
  | Rel :: r => if held then locks false r else None
  | Wait :: r => if held then None else locks held r
  | Rd v :: r | Wr v :: r => if is_queue v && negb held then None else locks held r
  end.
Lemma locks_app h a b : locks h (a ++ b) = match locks h a with Some h' => locks h' b | None => None end.
Proof.
  revert h. induction a as [|x a IH]; intros h; [reflexivity|]. cbn [app locks].
  destruct x as [v|v| | |]; try (destruct (is_queue v && negb h); [reflexivity|apply IH]); destruct h; try reflexivity; apply IH.
Qed.
Definition neat (tr : list act) : Prop := locks false tr = Some false.
Lemma neat_app a b : neat a -> neat b -> neat (a ++ b).
Proof. unfold neat. intros A B. rewrite locks_app, A. exact B. Qed.
Lemma neat_nil : neat []. Proof. reflexivity. Qed.
Lemma neat_repeat a n : neat [a] -> neat (repeat a n).
Proof. intros H. induction n as [|n IH]; [reflexivity|]. change (repeat a (Datatypes.S n)) with ([a] ++ repeat a n). now apply neat_app. Qed.
Ltac neat := repeat first [assumption | reflexivity | apply neat_app | apply neat_repeat].
Lemma auth_neat a : auth_does a -> neat a. Proof. intros []; reflexivity. Qed.
Lemma command_neat c : command_does c -> neat c.
Proof. intros [| |a A]; [reflexivity|reflexivity|]. apply auth_neat in A. neat. Qed.
Lemma setup_neat c : setup_does c -> neat c.
Proof. intros H. induction H as [|c C|c r C R IH]; [reflexivity| |]; apply command_neat in C; neat. Qed.
Lemma keepalive_neat c : keepalive_does c -> neat c.
Proof. intros [| | |c' C]; try reflexivity. apply command_neat in C. neat. Qed.
Lemma call_neat c : call_does c -> neat c.
Proof. intros [c' C|c' C|c' C|n]; [apply command_neat; exact C|apply setup_neat; exact C|apply keepalive_neat; exact C|neat]. Qed.
Lemma app_neat c : app_does c -> neat c.
Proof. intros H. induction H as [|c r C R IH]; [reflexivity|]. apply call_neat in C. neat. Qed.
Lemma feeds_neat c : feeds_does c -> neat c.
Proof. intros H. induction H; try reflexivity; neat. Qed.
Lemma ready_neat c : ready_does c -> neat c. Proof. intros []; reflexivity. Qed.
Lemma handle_setup_neat c : handle_setup_does c -> neat c.
Proof. intros [f r F R|f F|r R]; try apply feeds_neat in F; try apply ready_neat in R; neat. Qed.
Lemma switch_neat c : switch_does c -> neat c.
Proof.
  intros [| |n c' C| |c' C| |c' C]; try reflexivity.
  - apply command_neat in C. neat.
  - apply setup_neat in C. neat.
  - apply handle_setup_neat. exact C.
Qed.
Lemma dequeue_neat c : dequeue_does c -> neat c. Proof. intros []; reflexivity. Qed.
Lemma authorize_neat c : authorize_does c -> neat c. Proof. intros [|a A]; [reflexivity|]. apply auth_neat in A. neat. Qed.
Lemma rtsp_neat c : rtsp_does c -> neat c.
Proof.
  intros [|d D|d a D A|d i c' D I C]; try apply dequeue_neat in D; try apply authorize_neat in A; try apply switch_neat in C; try (assert (neat i) by (destruct I; reflexivity)); neat.
Qed.
Lemma receive_neat c : receive_does c -> neat c.
Proof. intros [| |c' C]; try reflexivity. apply rtsp_neat in C. neat. Qed.
Lemma loop_neat c : loop_does c -> neat c.
Proof.
  intros H. induction H as [|k K|k s c r K S C R IH]; [reflexivity| |]; apply keepalive_neat in K; try apply receive_neat in C.
  - neat.
  - assert (neat s) by (destruct S as [->| ->]; reflexivity). neat.
Qed.

Definition holds (c : crowd) (i : nat) : bool := match c_lock c with Some k => Nat.eqb k i | None => false end.
Definition orderly (c : crowd) : Prop := forall i, locks (holds c i) (c_rest c i) = Some false.
Lemma starts_orderly c : starts c -> orderly c.
Proof. intros (L & Z0 & A) i. unfold holds. rewrite L. destruct i; [apply loop_neat; exact Z0|apply app_neat; apply A]. Qed.
Lemma step_orderly c i c' : orderly c -> crowd_step c i = Some c' -> orderly c'.
Proof.
  intros O E j. unfold crowd_step in E. pose proof (O i) as Oi. destruct (c_rest c i) as [|a r] eqn:R; [discriminate|].
  destruct a as [v|v| | |]; cbn [locks] in Oi.
  1,2: injection E as <-; unfold holds in *; cbn [c_rest c_lock] in *; destruct (Nat.eq_dec j i) as [->|N]; [rewrite rest_same; destruct (is_queue v && _); [discriminate|exact Oi]|rewrite rest_other by exact N; apply O].
  - destruct (c_lock c) as [k|] eqn:L; [discriminate|]. injection E as <-. unfold holds in *. rewrite L in Oi. cbn [c_rest c_lock] in *. destruct (Nat.eq_dec j i) as [->|N].
    + rewrite rest_same, Nat.eqb_refl. exact Oi.
    + rewrite rest_other by exact N. replace (Nat.eqb i j) with false by (symmetry; apply Nat.eqb_neq; congruence). specialize (O j). unfold holds in O. rewrite L in O. exact O.
  - injection E as <-. destruct (holds c i) eqn:H; [|discriminate]. unfold holds in *. cbn [c_rest c_lock]. destruct (Nat.eq_dec j i) as [->|N].
    + rewrite rest_same. exact Oi.
    + rewrite rest_other by exact N. specialize (O j). unfold holds in O. destruct (c_lock c) as [k|]; [|discriminate]. apply Nat.eqb_eq in H. subst k.
      replace (Nat.eqb i j) with false in O by (symmetry; apply Nat.eqb_neq; congruence). exact O.
  - injection E as <-. unfold holds in *. cbn [c_rest c_lock] in *. destruct (Nat.eq_dec j i) as [->|N]; [rewrite rest_same|rewrite rest_other by exact N; apply O].
    destruct (match c_lock c with Some k => Nat.eqb k i | None => false end); [discriminate|exact Oi].
Qed.
Lemma run_orderly sch : forall c c', orderly c -> crowd_run c sch = Some c' -> orderly c'.
Proof.
  induction sch as [|i sch IH]; intros c c' O E; cbn [crowd_run] in E; [injection E as <-; exact O|].
  destruct (crowd_step c i) as [c1|] eqn:S; [|discriminate]. eapply IH; [|exact E]. eapply step_orderly; eassumption.
Qed.
Lemma orderly_queue c : orderly c -> ~ clash c VQueue.
Proof.
  intros O (i & j & b & r & s & N & Ei & Ej & T). pose proof (O i) as Oi. pose proof (O j) as Oj. rewrite Ei in Oi. rewrite Ej in Oj.
  assert (Hi : holds c i = true) by (cbn [locks is_queue andb] in Oi; destruct (holds c i); [reflexivity|discriminate]).
  assert (Hj : holds c j = true) by (destruct T as [->| ->]; cbn [locks is_queue andb] in Oj; (destruct (holds c j); [reflexivity|discriminate])).
  unfold holds in *. destruct (c_lock c) as [k|]; [|discriminate]. apply Nat.eqb_eq in Hi, Hj. congruence.
Qed.
(* whoever has the lock gives it back without anybody's help *)
Lemma orderly_release tr : forall c i, orderly c -> c_lock c = Some i -> c_rest c i = tr -> exists n c', crowd_run c (repeat i n) = Some c' /\ c_lock c' = None.
Proof.
  induction tr as [|a tr IH]; intros c i O L R; pose proof (O i) as Oi; rewrite R in Oi; unfold holds in Oi; rewrite L, Nat.eqb_refl in Oi; cbn [locks] in Oi; [discriminate|].
  destruct (crowd_step c i) as [c1|] eqn:S.
  - pose proof (step_orderly c i c1 O S) as O1. unfold crowd_step in S. rewrite R in S. destruct a as [v|v| | |]; try discriminate.
    + injection S as <-. destruct (IH (mkCrowd (rest_set (c_rest c) i tr) (c_lock c)) i O1 L) as (n & c' & E & F); [cbn [c_rest]; apply rest_same|].
      exists (Datatypes.S n), c'. split; [|exact F]. cbn [repeat crowd_run]. unfold crowd_step at 1. rewrite R. exact E.
    + injection S as <-. destruct (IH (mkCrowd (rest_set (c_rest c) i tr) (c_lock c)) i O1 L) as (n & c' & E & F); [cbn [c_rest]; apply rest_same|].
      exists (Datatypes.S n), c'. split; [|exact F]. cbn [repeat crowd_run]. unfold crowd_step at 1. rewrite R. exact E.
    + exists 1%nat, c1. injection S as <-. split; [|reflexivity]. cbn [repeat crowd_run]. unfold crowd_step. rewrite R. reflexivity.
  - exfalso. unfold crowd_step in S. rewrite R in S. destruct a; discriminate.
Qed.

(* ---- what only the loop touches ---- *)
Definition private (v : shared) : bool := match v with VFeedidx | VVerbs | VReader => true | _ => false end.
Definition public (a : act) : bool := match a with Rd v | Wr v => negb (private v) | _ => true end.
Definition clear (tr : list act) : Prop := forallb public tr = true.
Lemma clear_app a b : clear a -> clear b -> clear (a ++ b).
Proof. unfold clear. intros A B. rewrite forallb_app, A. exact B. Qed.
Ltac clr := repeat first [assumption | reflexivity | apply clear_app].
Lemma command_clear c : command_does c -> clear c.
Proof. intros [| |a A]; [reflexivity|reflexivity|]. destruct A; reflexivity. Qed.
Lemma call_clear c : call_does c -> clear c.
Proof.
  intros [c' C|c' C|c' C|n].
  - apply command_clear. exact C.
  - induction C as [|x C|x r C R IH]; [reflexivity| |]; apply command_clear in C; clr.
  - destruct C as [| | |x C]; try reflexivity. apply command_clear in C. clr.
  - apply clear_app; [reflexivity|]. apply clear_app; [|reflexivity]. unfold clear. induction n; [reflexivity|assumption].
Qed.
Lemma app_clear c : app_does c -> clear c.
Proof. intros H. induction H as [|c r C R IH]; [reflexivity|]. apply call_clear in C. clr. Qed.
Definition apart (c : crowd) : Prop := forall i, clear (c_rest c (Datatypes.S i)).
Lemma starts_apart c : starts c -> apart c.
Proof. intros (_ & _ & A) i. apply app_clear, A. Qed.
Lemma step_rest c i c' : crowd_step c i = Some c' -> forall j, c_rest c' j = c_rest c j \/ exists a, c_rest c j = a :: c_rest c' j.
Proof.
  intros E j. unfold crowd_step in E. destruct (c_rest c i) as [|a r] eqn:R; [discriminate|].
  assert (X : c_rest c' = rest_set (c_rest c) i r) by (destruct a; [| |destruct (c_lock c); [discriminate|]| |]; injection E as <-; reflexivity).
  rewrite X. destruct (Nat.eq_dec j i) as [->|N]; [right; exists a; rewrite rest_same; exact R|left; apply rest_other; exact N].
Qed.
Lemma run_apart sch : forall c c', apart c -> crowd_run c sch = Some c' -> apart c'.
Proof.
  induction sch as [|i sch IH]; intros c c' O E; cbn [crowd_run] in E; [injection E as <-; exact O|].
  destruct (crowd_step c i) as [c1|] eqn:S; [|discriminate]. eapply IH; [|exact E]. intros j. pose proof (O j) as Oj. destruct (step_rest c i c1 S (Datatypes.S j)) as [->|(a & Ea)]; [exact Oj|].
  rewrite Ea in Oj. unfold clear in *. cbn [forallb] in Oj. apply andb_prop in Oj as (_ & Oj). exact Oj.
Qed.
Lemma apart_private c v : apart c -> private v = true -> ~ clash c v.
Proof.
  intros A P (i & j & b & r & s & N & Ei & Ej & T).
  assert (X : forall k x t, c_rest c k = x :: t -> touches x v -> k = 0%nat).
  { intros k x t E Tx. destruct k as [|k]; [reflexivity|]. exfalso. pose proof (A k) as Ak. unfold clear in Ak. rewrite E in Ak. cbn [forallb] in Ak. destruct Tx as [->| ->]; cbn [public] in Ak; rewrite P in Ak; discriminate. }
  apply N. rewrite (X i _ _ Ei) by (right; reflexivity). rewrite (X j _ _ Ej T). reflexivity.
Qed.

(* ---- witnesses ---- *)
Lemma pair_starts loop app : loop_does loop -> call_does app -> starts (pair_of loop app).
Proof. intros L A. split; [reflexivity|]. split; [exact L|]. intros [|i]; [|apply app_end]. cbn. rewrite <- (app_nil_r app). apply app_call; [exact A|apply app_end]. Qed.
Lemma one_turn c : rtsp_does c -> loop_does ([Wr VReader; Wait] ++ c).
Proof.
  intros R. rewrite <- (app_nil_r ([Wr VReader; Wait] ++ c)). apply (loop_turn [] [] ([Wr VReader; Wait] ++ c) []); [apply keepalive_tcp|left; reflexivity|apply receive_rtsp; exact R|apply loop_end].
Qed.

Lemma shown (P Q : Prop) c sch v : P -> Q ->
  match crowd_run c sch with
  | Some c' => match c_rest c' 0%nat, c_rest c' 1%nat with Wr x :: _, Rd y :: _ => x = v /\ y = v | Wr x :: _, Wr y :: _ => x = v /\ y = v | _, _ => False end
  | None => False
  end -> exists c', P /\ Q /\ crowd_run c sch = Some c' /\ clash c' v.
Proof.
  intros HP HQ. destruct (crowd_run c sch) as [c'|] eqn:R; [|intros []]. destruct (c_rest c' 0%nat) as [|[x|x| | |] r] eqn:E0; try (intros H; contradiction).
  destruct (c_rest c' 1%nat) as [|[y|y| | |] t] eqn:E1; try (intros H; contradiction); intros (-> & ->); exists c'; (split; [exact HP|split; [exact HQ|split; [reflexivity|]]]).
  - exists 0%nat, 1%nat, (Rd v), r, t. splits; [discriminate|exact E0|exact E1|left; reflexivity].
  - exists 0%nat, 1%nat, (Wr v), r, t. splits; [discriminate|exact E0|exact E1|right; reflexivity].
Qed.
