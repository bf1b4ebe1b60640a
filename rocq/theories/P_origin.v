(* C177: the origin of a stream's clock. *)
From Verif Require Import Base S_nal M_annexb M_nal S_origin L_base L_nal L_origin P_nal.

(* C177  Full statement: if the times of all packets are moved by the same amount, modulo 2^32, so are those of the units, and nothing else changes. *)
(* So it is, whatever the packets hold, if none of them holds an MTAP24.  As this is for all sequences it is for the units after each Push. *)
Theorem C177_partial : forall d ps, Forall no_mtap24 ps -> snd (push_all new_sink (map (later d) ps)) = snd (push_all new_sink ps) /\
  s_units (fst (push_all new_sink (map (later d) ps))) = map (moved d) (s_units (fst (push_all new_sink ps))).
Proof. exact move_new. Qed.
Print Assumptions C177_partial.

(* But the units of an MTAP24 move by 257 when the packet moves by one. *)
Theorem C177_mtap24_refuted : forall s h donb us ts i, byte_ok h -> nal_type h = 27 -> 0 <= donb < 2 ^ 16 -> Forall (mtap_entry_ok 3) us -> plain (mtap 3 h donb us) ->
  (i < length us)%nat -> exists u v, nth_error (s_units (fst (push s (mtap 3 h donb us) ts))) i = Some u /\
    nth_error (s_units (fst (push s (mtap 3 h donb us) (ts + 1)))) i = Some v /\ u_ts v = (u_ts u + 257) mod 2 ^ 32.
Proof.
  intros s h donb us ts i B Ht D F P L. destruct (C18_mtap24_partial s h donb us ts B Ht D F P) as (s1 & -> & _ & _ & _ & U1).
  destruct (C18_mtap24_partial s h donb us (ts + 1) B Ht D F P) as (s2 & -> & _ & _ & _ & U2). cbn [fst].
  destruct (nth_error us i) as [[[dond off] u]|] eqn:E; [|apply nth_error_None in E; lia]. rewrite (U1 _ _ _ _ E), (U2 _ _ _ _ E). do 2 eexists. splits; try reflexivity.
  cbn [u_ts]. rewrite !Zplus_mod_idemp_r, !Zplus_mod_idemp_l. f_equal. lia.
Qed.
Print Assumptions C177_mtap24_refuted.

Example C177_case :
  let ps := [([101; 9], 4294967290); ([28; 133; 7], 4294967290); ([28; 69; 8], 4294967290)] in
  let qs := [(mtap 2 26 257 [(1, 700, [101; 9; 7])], 4294967290)] in
  Forall no_mtap24 (ps ++ qs) /\
  s_units (fst (push_all new_sink ps)) = [mkUnit 5 1 4294967290 [7; 8]] /\ s_units (fst (push_all new_sink (map (later 10) ps))) = [mkUnit 5 1 4 [7; 8]] /\
  s_units (fst (push_all new_sink qs)) = [mkUnit 101 258 694 [9; 7]] /\ s_units (fst (push_all new_sink (map (later 10) qs))) = [mkUnit 101 258 704 [9; 7]] /\
  option_map u_ts (nth_error (s_units (fst (push new_sink (mtap 3 27 257 [(1, 700, [101; 9; 7])]) 0))) 0) = Some 188 /\
  option_map u_ts (nth_error (s_units (fst (push new_sink (mtap 3 27 257 [(1, 700, [101; 9; 7])]) 1))) 0) = Some 445.
Proof.
  intros ps qs. splits; try (vm_compute; reflexivity). subst ps qs. cbn [app].
  repeat (apply Forall_cons; [intros us E; vm_compute in E; injection E as <-; repeat apply Forall_cons; try apply Forall_nil; cbv; discriminate|]). apply Forall_nil.
Qed.
