(* Lemmas: two commands with one number, whatever the commands and the session; statuses with a sign. *)
From Coq Require Import String.
From Verif Require Import Base GoStrings M_conn M_message M_transport M_session S_session M_race S_race L_base L_session L_flow L_race.
From Coq Require Import ZifyBool ZifyNat.

Lemma step_begin x i verb uri hs rest : r_at x i = Idle -> r_todo x i = (verb, uri, hs) :: rest ->
  exists a auth, race_step x i = mkR (upd_s (r_w x) (fun s => set_auth s a))
    (at_set (r_at x) i (Loaded (mkReq verb 0 uri auth [] (fold_left (fun h e => header_set h (fst e) (snd e)) hs [])) (s_cseq (w_s (r_w x))))) (at_set (r_todo x) i rest).
Proof.
  intros A T. unfold race_step. rewrite A, T. destruct (call_auth (w_s (r_w x)) verb) as [s auth] eqn:CA.
  destruct (call_auth_frame _ _ _ _ CA) as (a & -> & _). exists a, auth. reflexivity.
Qed.
Lemma step_store x i r t : r_at x i = Loaded r t -> race_step x i = mkR (upd_s (r_w x) (fun s => set_cseq s (i64 (t + 1)))) (at_set (r_at x) i (Stored r)) (r_todo x).
Proof. intros A. unfold race_step. rewrite A. reflexivity. Qed.
Lemma step_queue x i r : r_at x i = Stored r ->
  let r' := mkReq (q_verb r) (s_cseq (w_s (r_w x))) (q_uri r) (q_auth r) (s_session (w_s (r_w x))) (q_header r) in
  race_step x i = mkR (upd_s (r_w x) (fun s => set_queue s (qset (s_queue s) (s_cseq s) r'))) (at_set (r_at x) i (Queued r')) (r_todo x).
Proof. intros A. unfold race_step. rewrite A. reflexivity. Qed.
Lemma step_send x i r : r_at x i = Queued r -> s_proto (w_s (r_w x)) <> ProtoHTTP ->
  exists ws, race_step x i = mkR (mkW (w_s (r_w x)) (w_in (r_w x)) ws (w_listens (r_w x)) (w_rand (r_w x)) (w_log (r_w x) ++ [Sent false r])) (at_set (r_at x) i Idle) (r_todo x).
Proof.
  intros A P. unfold race_step. rewrite A. unfold write. destruct (s_proto (w_s (r_w x)) =? ProtoHTTP) eqn:E; [apply Z.eqb_eq in E; contradiction|].
  exists (tl (w_writes (r_w x))). destruct (w_writes (r_w x)) as [|[e|] ws]; reflexivity.
Qed.

Lemma race_same x i j verb1 uri1 hs1 rest1 verb2 uri2 hs2 rest2 : i <> j ->
  r_at x i = Idle -> r_at x j = Idle -> r_todo x i = (verb1, uri1, hs1) :: rest1 -> r_todo x j = (verb2, uri2, hs2) :: rest2 ->
  s_proto (w_s (r_w x)) <> ProtoHTTP ->
  exists r1 r2, let y := race x [i; j; i; j; i; j; i; j] in
    w_log (r_w y) = w_log (r_w x) ++ [Sent false r1; Sent false r2] /\
    q_verb r1 = verb1 /\ q_uri r1 = uri1 /\ q_verb r2 = verb2 /\ q_uri r2 = uri2 /\
    q_cseq r1 = i64 (s_cseq (w_s (r_w x)) + 1) /\ q_cseq r2 = q_cseq r1 /\ qget (s_queue (w_s (r_w y))) (q_cseq r1) = Some r2.
Proof.
  intros N Ai Aj Ti Tj P. assert (N' : j <> i) by auto. unfold race. cbn [fold_left].
  destruct (step_begin x i _ _ _ _ Ai Ti) as (a1 & u1 & ->). set (q1 := mkReq verb1 0 uri1 u1 [] _).
  match goal with |- context [race_step (mkR ?a ?b ?c) j] => destruct (step_begin (mkR a b c) j verb2 uri2 hs2 rest2) as (a2 & u2 & ->) end.
  { cbn [r_at]. rewrite at_other by exact N'. exact Aj. }
  { cbn [r_todo]. rewrite at_other by exact N'. exact Tj. }
  set (q2 := mkReq verb2 0 uri2 u2 [] _). cbn [r_w r_at r_todo].
  match goal with |- context [race_step (mkR ?a ?b ?c) i] => rewrite (step_store (mkR a b c) i q1 (s_cseq (w_s (r_w x)))) end.
  2: { cbn [r_at]. rewrite at_other by exact N. apply at_same. }
  cbn [r_w r_at r_todo].
  match goal with |- context [race_step (mkR ?a ?b ?c) j] => rewrite (step_store (mkR a b c) j q2 (s_cseq (w_s (r_w x)))) end.
  2: { cbn [r_at]. rewrite at_other by exact N'. rewrite at_same. reflexivity. }
  cbn [r_w r_at r_todo].
  match goal with |- context [race_step (mkR ?a ?b ?c) i] => rewrite (step_queue (mkR a b c) i q1) end.
  2: { cbn [r_at]. rewrite at_other by exact N. apply at_same. }
  cbn [r_w r_at r_todo].
  match goal with |- context [race_step (mkR ?a ?b ?c) j] => rewrite (step_queue (mkR a b c) j q2) end.
  2: { cbn [r_at]. rewrite at_other by exact N'. apply at_same. }
  cbn [r_w r_at r_todo].
  match goal with |- context [race_step (mkR ?a ?b ?c) i] => destruct (step_send (mkR a b c) i (mkReq verb1 (i64 (s_cseq (w_s (r_w x)) + 1)) uri1 u1 (s_session (w_s (r_w x))) (q_header q1))) as (ws & ->) end.
  { cbn [r_at]. rewrite at_other by exact N. rewrite at_same. reflexivity. }
  { exact P. }
  cbn [r_w r_at r_todo].
  match goal with |- context [race_step (mkR ?a ?b ?c) j] => destruct (step_send (mkR a b c) j (mkReq verb2 (i64 (s_cseq (w_s (r_w x)) + 1)) uri2 u2 (s_session (w_s (r_w x))) (q_header q2))) as (ws' & ->) end.
  { cbn [r_at]. rewrite at_other by exact N'. rewrite at_same. reflexivity. }
  { exact P. }
  cbn [r_w r_at r_todo w_log w_s]. eexists; eexists. splits.
  1: { cbn [upd_s w_log]. rewrite <- app_assoc. reflexivity. }
  all: try reflexivity.
  cbn [upd_s w_s s_queue set_queue set_cseq set_auth s_cseq q_cseq]. unfold qset, qget. cbn [find fst snd]. rewrite Z.eqb_refl. reflexivity.
Qed.
