(* Lemmas: turns of the loop without a keep-alive. *)
From Coq Require Import String.
From Verif Require Import Base GoStrings M_conn M_message M_transport M_session S_session S_message S_handshake L_base L_session L_frames.
From Coq Require Import ZifyBool.

Lemma idle_turns (items : list item) : forall (clocks : list (Z * Z)) (w : world),
  Forall (fun c => forall w1, w_s w1 = w_s w -> keepalive w1 (fst c) (snd c) = (w1, Ok tt)) clocks ->
  Forall (fun i => match i with Frame ch p => zlen p <= 2048 | Quiet => True | Resp _ _ _ _ => False end) items -> length clocks = length items ->
  forall rest, w_in w = flat_map item_stream items ++ rest ->
  exists w' more, M_session.run (w, Live) (turns_at clocks) = (w', Live) /\ w_log w' = w_log w ++ more /\ sent_requests more = [] /\ w_in w' = rest.
Proof.
  induction items as [|i items IH]; intros clocks w KA F L rest E.
  - destruct clocks; [|discriminate]. exists w, []. rewrite app_nil_r. splits; try reflexivity. exact E.
  - destruct clocks as [|[t1 t2] clocks]; [discriminate|]. injection L as L. apply Forall_cons_iff in F as [F1 F]. apply Forall_cons_iff in KA as [K KA]. cbn [flat_map] in E. rewrite <- app_assoc in E.
    specialize (K w eq_refl). cbn [fst snd] in K.
    assert (T : exists w1 new, turn w t1 t2 = (w1, Again) /\ w_s w1 = w_s w /\ w_in w1 = flat_map item_stream items ++ rest /\ w_log w1 = w_log w ++ new /\ sent_requests new = []).
    { unfold turn. rewrite K. destruct i as [ch p|code reason fields body|]; [| contradiction |].
      - rewrite (receive_frame w ch p (flat_map item_stream items ++ rest)) by (try lia; exact E). replace (zlen p <=? 2048) with true by lia.
        exists (note (upd_in w (flat_map item_stream items ++ rest)) (Delivered ch p)), [Delivered ch p]. splits; reflexivity.
      - unfold receive. rewrite E. cbn [item_stream app]. exists (upd_in w (flat_map item_stream items ++ rest)), []. cbn. rewrite app_nil_r. splits; reflexivity. }
    destruct T as (w1 & new & T & S1 & I1 & L1 & N1).
    destruct (IH clocks w1 ltac:(rewrite S1; exact KA) F L rest I1) as (w' & more & R & LG & SR & I2).
    exists w', (new ++ more). splits.
    + cbn [turns_at map M_session.run fold_left fst snd step]. rewrite T. exact R.
    + rewrite LG, L1, app_assoc. reflexivity.
    + unfold sent_requests in *. rewrite flat_map_app, N1, SR. reflexivity.
    + exact I2.
Qed.
