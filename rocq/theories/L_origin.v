(* Lemmas for P_origin: a sink whose clock is moved. *)
From Verif Require Import Base S_nal M_annexb M_nal S_origin L_base.

Definition mfrag (d : Z) (f : fragment) : fragment := mkFrag (moved d (f_unit f)) (f_flags f).
Definition msink (d : Z) (s : sink) : sink := mkSink (map (moved d) (s_units s)) (map (mfrag d) (s_frags s)) (s_don s).
Notation T d ts := ((ts + d) mod 2 ^ 32).

Lemma move_frag d s ind h don ts data : add_fragment (msink d s) ind h don (T d ts) data = msink d (add_fragment s ind h don ts data).
Proof.
  unfold add_fragment. cbn [msink s_frags s_units s_don].
  assert (E : (if negb (Z.land h 128 =? 0) then [] else map (mfrag d) (s_frags s)) ++ [mkFrag (mkUnit ind don (T d ts) data) h] =
    map (mfrag d) ((if negb (Z.land h 128 =? 0) then [] else s_frags s) ++ [mkFrag (mkUnit ind don ts data) h]))
    by (rewrite map_app; destruct (negb (Z.land h 128 =? 0)); reflexivity).
  rewrite E. assert (F : forall l, flat_map (fun f => u_data (f_unit f)) (map (mfrag d) l) = flat_map (fun f => u_data (f_unit f)) l)
    by (induction l as [|x l IH]; [reflexivity|]; cbn; rewrite IH; reflexivity).
  rewrite F. destruct (negb (Z.land h 64 =? 0)); [|reflexivity]. unfold msink. cbn [s_units s_frags s_don]. rewrite !map_app. reflexivity.
Qed.
Definition mres {A} (d : Z) (p : sink * A) : sink * A := (msink d (fst p), snd p).
Lemma move_stap d fuel : forall s buf ts, stap_loop fuel (msink d s) buf (T d ts) = mres d (stap_loop fuel s buf ts).
Proof.
  induction fuel as [|f IH]; intros s buf ts; cbn [stap_loop]; destruct (zlen buf <? 2); try reflexivity.
  destruct (be_uint16 buf) as [size|e| |]; try reflexivity. destruct (zlen buf <? u16 (size + 2)); [reflexivity|].
  destruct (index buf 2) as [h|e| |]; try reflexivity. destruct (slice buf 3 (Z.to_nat (u16 (size + 2)))) as [x|e| |]; try reflexivity.
  destruct (slice_from buf (Z.to_nat (u16 (size + 2)))) as [rest|e| |]; try reflexivity. rewrite <- IH. f_equal.
  unfold msink. cbn [s_units s_frags s_don]. rewrite map_app. reflexivity.
Qed.
Lemma move_mtap d fuel : forall s buf ts, mtap_loop fuel false (msink d s) buf (T d ts) = mres d (mtap_loop fuel false s buf ts).
Proof.
  induction fuel as [|f IH]; intros s buf ts; cbn [mtap_loop]; destruct (zlen buf <? 5); try reflexivity.
  destruct (be_uint16 buf) as [size|e| |]; try reflexivity. destruct (index buf 2) as [dond|e| |]; try reflexivity.
  destruct (index buf 3) as [b3|e| |]; try reflexivity. destruct (index buf 4) as [b4|e| |]; try reflexivity.
  cbv zeta. destruct (zlen buf <? u16 (size + 5)); [reflexivity|].
  destruct (index buf (Z.to_nat 5)) as [h|e| |]; try reflexivity. destruct (slice buf (Z.to_nat (5 + 1)) (Z.to_nat (u16 (size + 5)))) as [x|e| |]; try reflexivity.
  destruct (slice_from buf (Z.to_nat (u16 (size + 5)))) as [rest|e| |]; try reflexivity. rewrite <- IH. f_equal.
  unfold msink. cbn [s_units s_frags s_don]. rewrite map_app. cbn [map].
  generalize (u32 (u32 (Z.shiftl b3 8) + b4)). intros o. do 3 f_equal. unfold moved. cbn [u_header u_don u_ts u_data]. f_equal.
  unfold u32. rewrite !Zplus_mod_idemp_l. f_equal. lia.
Qed.
Lemma move_nal d s buf ts : nal_type (hd 0 buf) <> 27 -> parse_nal (msink d s) buf (T d ts) = mres d (parse_nal s buf ts).
Proof.
  intros N. unfold parse_nal. destruct buf as [|b0 rest]; [reflexivity|]. cbn [hd] in N. unfold nal_type in N.
  replace (b0 mod 32) with (Z.land b0 31) in N by (change 31 with (Z.ones 5); rewrite Z.land_ones by lia; reflexivity). cbv zeta. cbn [msink s_frags s_don].
  change (mkSink [] (map (mfrag d) (s_frags s)) (s_don s)) with (msink d (mkSink [] (s_frags s) (s_don s))). set (s0 := mkSink [] (s_frags s) (s_don s)).
  destruct (Z.land b0 31 =? 24); [apply move_stap|]. destruct (Z.land b0 31 =? 25).
  { unfold parse_stap. destruct (zlen rest <? 2); [reflexivity|]. destruct (be_uint16 rest) as [don|e| |]; try reflexivity. destruct (slice_from rest 2) as [r|e| |]; try reflexivity.
    apply (move_stap d _ (mkSink (s_units s0) (s_frags s0) don)). }
  destruct (Z.land b0 31 =? 26).
  { unfold parse_mtap. destruct (zlen rest <? 2); [reflexivity|]. destruct (be_uint16 rest) as [don|e| |]; try reflexivity. destruct (slice_from rest 2) as [r|e| |]; try reflexivity.
    apply (move_mtap d _ (mkSink (s_units s0) (s_frags s0) don)). }
  destruct (Z.eqb_spec (Z.land b0 31) 27) as [X|_]; [contradiction|].
  destruct (Z.land b0 31 =? 28).
  { destruct (zlen (b0 :: rest) <? 2); [reflexivity|]. destruct (index (b0 :: rest) 1) as [b1|e| |]; try reflexivity. destruct (slice_from (b0 :: rest) 2) as [r|e| |]; try reflexivity.
    change (s_don (msink d s0)) with (s_don s0). rewrite move_frag. reflexivity. }
  destruct (Z.land b0 31 =? 29).
  { destruct (zlen (b0 :: rest) <? 4); [reflexivity|]. destruct (index (b0 :: rest) 1) as [b1|e| |]; try reflexivity. destruct (slice_from (b0 :: rest) 2) as [r|e| |]; try reflexivity.
    destruct (slice_from (b0 :: rest) 4) as [q|e| |]; try reflexivity. destruct (be_uint16 r) as [don|e| |]; try reflexivity. rewrite move_frag. reflexivity. }
  unfold mres, msink. cbn [fst snd s_units s_frags s_don]. rewrite map_app. reflexivity.
Qed.
Lemma move_nals d l : forall s ts, Forall (fun u => nal_type (hd 0 u) <> 27) l -> push_nals (msink d s) l (T d ts) = mres d (push_nals s l ts).
Proof.
  induction l as [|x l IH]; intros s ts F; [reflexivity|]. inversion F; subst. cbn [push_nals]. rewrite move_nal by assumption.
  destruct (parse_nal s x ts) as [s' [v|e| |]]; cbn [mres fst snd]; try reflexivity. apply IH. assumption.
Qed.
Lemma move_push d s p ts : no_mtap24 (p, ts) -> push (msink d s) p (T d ts) = mres d (push s p ts).
Proof.
  intros N. unfold push. specialize (N). unfold no_mtap24 in N. cbn [fst] in N. destruct (split_annexb p) as [us|e| |]; try reflexivity. apply move_nals, N. reflexivity.
Qed.
Lemma move_all d ps : forall s, Forall no_mtap24 ps -> push_all (msink d s) (map (later d) ps) = mres d (push_all s ps).
Proof.
  induction ps as [|[p ts] ps IH]; intros s F; [reflexivity|]. inversion F; subst. cbn [map push_all later fst snd]. rewrite move_push by assumption.
  destruct (push s p ts) as [s' o]. cbn [mres fst snd]. rewrite IH by assumption. destruct (push_all s' ps) as [s2 os]. reflexivity.
Qed.
Lemma move_new d ps : Forall no_mtap24 ps -> snd (push_all new_sink (map (later d) ps)) = snd (push_all new_sink ps) /\
  s_units (fst (push_all new_sink (map (later d) ps))) = map (moved d) (s_units (fst (push_all new_sink ps))).
Proof. intros F. change new_sink with (msink d new_sink) at 1 3. rewrite move_all by exact F. split; reflexivity. Qed.
