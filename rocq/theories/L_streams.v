(* Lemmas: several streams whose payloads go into one sink. *)
From Verif Require Import Base S_annexb S_nal M_annexb M_nal S_frags S_streams L_base L_nal L_frags.
From Coq Require Import ZifyBool ZifyNat.

Definition frag_data (s : sink) : list bytes := map (fun f => u_data (f_unit f)) (s_frags s).
Definition units_seen (s : sink) := map seen (s_units s).
Lemma join_data fs : flat_map (fun f => u_data (f_unit f)) fs = concat (map (fun f => u_data (f_unit f)) fs).
Proof. apply flat_map_concat_map. Qed.

Lemma stap_loop_alike : forall f s1 s2 buf ts, units_seen s1 = units_seen s2 ->
  snd (stap_loop f s1 buf ts) = snd (stap_loop f s2 buf ts) /\ units_seen (fst (stap_loop f s1 buf ts)) = units_seen (fst (stap_loop f s2 buf ts)).
Proof.
  induction f as [|f IH]; intros s1 s2 buf ts E; cbn [stap_loop]; destruct (zlen buf <? 2); try (split; [reflexivity|exact E]).
  destruct (be_uint16 buf) as [size| | |]; try (split; [reflexivity|exact E]). destruct (zlen buf <? u16 (size + 2)); try (split; [reflexivity|exact E]).
  destruct (index buf 2); try (split; [reflexivity|exact E]). destruct (slice buf 3 _); try (split; [reflexivity|exact E]). destruct (slice_from buf _); try (split; [reflexivity|exact E]).
  apply IH. unfold units_seen in *. cbn [s_units]. rewrite !map_app, E. reflexivity.
Qed.
Lemma mtap_loop_alike : forall f wide s1 s2 buf ts, units_seen s1 = units_seen s2 ->
  snd (mtap_loop f wide s1 buf ts) = snd (mtap_loop f wide s2 buf ts) /\ units_seen (fst (mtap_loop f wide s1 buf ts)) = units_seen (fst (mtap_loop f wide s2 buf ts)).
Proof.
  induction f as [|f IH]; intros wide s1 s2 buf ts E; cbn [mtap_loop]; destruct (zlen buf <? (if wide then 6 else 5)); try (split; [reflexivity|exact E]).
  destruct (be_uint16 buf) as [size| | |]; try (split; [reflexivity|exact E]).
  destruct (index buf 2); try (split; [reflexivity|exact E]). destruct (index buf 3); try (split; [reflexivity|exact E]). destruct (index buf 4); try (split; [reflexivity|exact E]).
  destruct (if wide then index buf 5 else Ok 0); try (split; [reflexivity|exact E]).
  destruct (zlen buf <? u16 (size + _)); try (split; [reflexivity|exact E]).
  destruct (index buf _); try (split; [reflexivity|exact E]). destruct (slice buf _ _); try (split; [reflexivity|exact E]). destruct (slice_from buf _); try (split; [reflexivity|exact E]).
  apply IH. unfold units_seen in *. cbn [s_units]. rewrite !map_app, E. reflexivity.
Qed.

(* what one packet does to two sinks *)
Definition alike (n : bytes) (s1 s2 : sink) (r1 r2 : sink * res unit) : Prop :=
  snd r1 = snd r2 /\
  match fu_of n with
  | [] => units_seen (fst r1) = units_seen (fst r2) /\ s_frags (fst r1) = s_frags s1 /\ s_frags (fst r2) = s_frags s2
  | (st, _, _) :: _ => st = true \/ frag_data s1 = frag_data s2 -> units_seen (fst r1) = units_seen (fst r2) /\ frag_data (fst r1) = frag_data (fst r2)
  end.
Lemma add_fragment_alike s1 s2 i h d1 d2 ts x : byte_ok h -> s_units s1 = [] -> s_units s2 = [] -> (128 <=? h) = true \/ frag_data s1 = frag_data s2 ->
  units_seen (add_fragment s1 i h d1 ts x) = units_seen (add_fragment s2 i h d2 ts x) /\ frag_data (add_fragment s1 i h d1 ts x) = frag_data (add_fragment s2 i h d2 ts x).
Proof.
  intros B U1 U2 E. destruct (flag_bits h B) as [F1 F2].
  assert (D : frag_data (add_fragment s1 i h d1 ts x) = frag_data (add_fragment s2 i h d2 ts x)).
  { unfold frag_data in *. rewrite !add_fragment_frags, F1, !map_app. destruct E as [->|E]; [reflexivity|]. destruct (128 <=? h); [reflexivity|]. rewrite E. reflexivity. }
  split; [|exact D]. unfold frag_data, units_seen, add_fragment in *. rewrite U1, U2. destruct (negb (Z.land h 64 =? 0)); cbn [s_units s_frags app map] in *; [|reflexivity].
  unfold seen. cbn [u_header u_ts u_data]. rewrite !join_data, D. reflexivity.
Qed.
Lemma parse_alike s1 s2 n ts : bytes_ok n -> alike n s1 s2 (parse_nal s1 n ts) (parse_nal s2 n ts).
Proof.
  intros H. destruct n as [|h r]; [unfold alike; cbn; auto|]. apply Forall_cons_iff in H as [Hh H].
  assert (U : units_seen (mkSink [] (s_frags s1) (s_don s1)) = units_seen (mkSink [] (s_frags s2) (s_don s2))) by reflexivity.
  assert (NF : nal_type h <> 28 -> nal_type h <> 29 -> fu_of (h :: r) = []).
  { intros A B. unfold fu_of. destruct r as [|b1 r]; [reflexivity|]. replace (nal_type h =? 28) with false by lia. replace (nal_type h =? 29) with false by lia. reflexivity. }
  unfold alike, parse_nal. rewrite land31 by exact Hh.
  destruct (nal_type h =? 24) eqn:T24; [rewrite NF by lia; unfold parse_stap; destruct (stap_loop_alike (length r) _ _ r ts U) as [A B]; rewrite !stap_loop_frags; auto|].
  destruct (nal_type h =? 25) eqn:T25.
  { rewrite NF by lia. unfold parse_stap. destruct (zlen r <? 2); [auto|]. destruct (be_uint16 r) as [don| | |]; [|cbn; auto..]. destruct (slice_from r 2) as [x| | |]; [|cbn; auto..].
    destruct (stap_loop_alike (length x) (mkSink [] (s_frags s1) don) (mkSink [] (s_frags s2) don) x ts eq_refl) as [A B]. cbn [s_units s_frags]. rewrite !stap_loop_frags; auto. }
  assert (MT : forall wide, let r1 := parse_mtap (mkSink [] (s_frags s1) (s_don s1)) wide r ts in let r2 := parse_mtap (mkSink [] (s_frags s2) (s_don s2)) wide r ts in
    snd r1 = snd r2 /\ units_seen (fst r1) = units_seen (fst r2) /\ s_frags (fst r1) = s_frags s1 /\ s_frags (fst r2) = s_frags s2).
  { intros wide. cbv zeta. unfold parse_mtap. destruct (zlen r <? 2); [auto|]. destruct (be_uint16 r) as [don| | |]; [|cbn; auto..]. destruct (slice_from r 2) as [x| | |]; [|cbn; auto..].
    destruct (mtap_loop_alike (length x) wide (mkSink [] (s_frags s1) don) (mkSink [] (s_frags s2) don) x ts eq_refl) as [A B]. cbn [s_units s_frags]. rewrite !mtap_loop_frags; auto. }
  destruct (nal_type h =? 26) eqn:T26; [rewrite NF by lia; apply MT|].
  destruct (nal_type h =? 27) eqn:T27; [rewrite NF by lia; apply MT|].
  destruct (nal_type h =? 28) eqn:T28.
  { destruct r as [|b1 r]; [cbn; auto|]. apply Forall_cons_iff in H as [H1 H]. replace (zlen (h :: b1 :: r) <? 2) with false by (rewrite !zlen_cons; pose proof (zlen_nonneg r); lia).
    unfold fu_of. rewrite T28. cbn [index nth_error slice_from length Nat.leb skipn]. 
    split; [reflexivity|]. intros E. apply add_fragment_alike; auto. }
  destruct (nal_type h =? 29) eqn:T29.
  { destruct (zlen (h :: r) <? 4) eqn:L.
    - assert (fu_of (h :: r) = []) as ->. { unfold fu_of. destruct r as [|b1 r]; [reflexivity|]. rewrite T28, T29. rewrite !zlen_cons in L. replace (2 <=? zlen r) with false by lia. reflexivity. }
      cbn. auto.
    - rewrite zlen_cons in L. destruct r as [|b1 r]; [cbn in L; lia|]. apply Forall_cons_iff in H as [H1 H]. rewrite zlen_cons in L.
      destruct r as [|b2 [|b3 r]]; [cbn in L; lia|cbn in L; lia|]. pose proof (zlen_nonneg r) as N. unfold fu_of. rewrite T28, T29. replace (2 <=? zlen (b2 :: b3 :: r)) with true by (rewrite !zlen_cons; lia). cbn [andb].
      cbn [index nth_error slice_from length Nat.leb skipn be_uint16]. 
      split; [reflexivity|]. intros E. apply add_fragment_alike; auto. }
  rewrite NF by lia. cbn. auto.
Qed.

Lemma yields_alike l : forall s1 s2, Forall (fun e => bytes_ok (fst (snd e)) /\ plain (fst (snd e)) /\ (fst e = false -> ~ crash (fst (snd e)))) l -> apart l ->
  resumes l \/ frag_data s1 = frag_data s2 -> yields s1 l = yields s2 (filter fst l).
Proof.
  induction l as [|[mine [p ts]] r IH]; intros s1 s2 F A R; [reflexivity|]. apply Forall_cons_iff in F as [(B & P & C) F]. cbn [fst snd] in B, P, C. destruct A as [A A']. cbn [resumes] in R.
  cbn [yields filter fst]. rewrite (push_plain s1) by exact P. destruct mine.
  - cbn [yields]. rewrite (push_plain s2) by exact P. pose proof (parse_alike s1 s2 p ts B) as K. unfold alike in K. destruct (parse_nal s1 p ts) as [t1 o1]. destruct (parse_nal s2 p ts) as [t2 o2].
    cbn [fst snd] in K. destruct K as [<- K]. fold (units_seen t1) (units_seen t2). destruct (fu_of p) as [|[[st en] d] ?].
    + destruct K as (-> & K1 & K2). f_equal. destruct o1; try reflexivity; apply IH; auto; destruct R as [R|R]; auto; right; unfold frag_data in *; rewrite K1, K2; exact R.
    + destruct (K R) as [-> K']. f_equal. destruct o1; try reflexivity; apply IH; auto.
  - pose proof (parse_alike s1 new_sink p ts B) as K. unfold alike in K. destruct (parse_outcome new_sink p ts B ltac:(cbn; lia)) as [[_ X]|X]; [elim C; auto|].
    destruct (parse_nal s1 p ts) as [t1 o1]. destruct (parse_nal new_sink p ts) as [t2 o2]. cbn [fst snd] in *. destruct K as [-> K]. cbn [app].
    assert (Y : yields t1 r = yields s2 (filter fst r)).
    { apply IH; auto. destruct (fu_of p) as [|f fs]; [|left; apply A; [reflexivity|discriminate]]. destruct K as (_ & K1 & _). destruct R as [R|R]; [auto|right]. unfold frag_data in *. rewrite K1. exact R. }
    destruct X as [->| ->]; exact Y.
Qed.

(* fragments of two streams in turn *)
Lemma mixed s h1 h2 t1 t2 t3 c1 c2 e1 : byte_ok h1 -> byte_ok h2 -> nal_type h1 <> 0 -> nal_type h2 <> 0 ->
  Forall (fun x => ~ contains [0; 0; 1] x) [c1; c2; e1] ->
  let l := [(true, (fu_a h1 true false c1, t1)); (false, (fu_a h2 true false c2, t2)); (true, (fu_a h1 false true e1, t3))] in
  yields s l = [([], Ok tt); ([(no_f h1, t3, ebsp_to_raw c2 ++ ebsp_to_raw e1)], Ok tt)] /\
  yields s (filter fst l) = [([], Ok tt); ([(no_f h1, t3, ebsp_to_raw c1 ++ ebsp_to_raw e1)], Ok tt)].
Proof.
  intros B1 B2 N1 N2 F l. apply Forall_cons_iff in F as [F1 F]. apply Forall_cons_iff in F as [F2 F]. apply Forall_cons_iff in F as [F3 _].
  assert (FB : forall st en h, byte_ok (fu_header st en h)). { intros st en h. unfold fu_header, byte_ok, nal_type. pose proof (Z.mod_pos_bound h 32). destruct st, en; cbn [Z.b2z]; lia. }
  assert (FS : forall st en h, (128 <=? fu_header st en h) = st). { intros st en h. unfold fu_header, nal_type. pose proof (Z.mod_pos_bound h 32). destruct st, en; cbn [Z.b2z]; lia. }
  assert (FE : forall st en h, (64 <=? fu_header st en h mod 128) = en).
  { intros st en h. unfold fu_header, nal_type. pose proof (Z.mod_pos_bound h 32) as X. rewrite <- (Z.add_assoc _ _ (h mod 32)), Z.add_comm, Z.mod_add by lia. rewrite Z.mod_small by (destruct en; cbn [Z.b2z]; lia). destruct en; cbn [Z.b2z]; lia. }
  unfold l. cbn [filter fst yields]. repeat (rewrite !push_fua by assumption; cbv beta iota).
  unfold add_fragment. rewrite !(proj1 (flag_bits _ (FB _ _ _))), !(proj2 (flag_bits _ (FB _ _ _))), !FS, !FE. cbn [fresh s_units s_frags s_don app map flat_map f_unit u_data seen u_header u_ts]. rewrite !app_nil_r. split; reflexivity.
Qed.
Lemma one_more s a b ta tb x y : byte_ok a -> byte_ok b -> L_nal.single a -> L_nal.single b -> plain (a :: x) -> plain (b :: y) ->
  map u_don (s_units (fst (push s (a :: x) ta))) = [s_don s] /\ map u_don (s_units (fst (push (fst (push s (b :: y) tb)) (a :: x) ta))) = [u16 (s_don s + 1)].
Proof. intros A B SA SB PA PB. rewrite (push_plain s (b :: y)) by exact PB. rewrite !push_plain by exact PA. rewrite !parse_single by assumption. split; reflexivity. Qed.
Lemma taken_along s p ts l : bytes_ok p -> plain p -> crash p -> yields s ((false, (p, ts)) :: l) = [].
Proof.
  intros B P C. cbn [yields]. rewrite push_plain by exact P. destruct (parse_alike s new_sink p ts B) as [E _]. rewrite (parse_crash new_sink p ts B ltac:(cbn; lia) C) in E.
  destruct (parse_nal s p ts) as [s' o]. cbn [snd] in E. subst o. reflexivity.
Qed.
