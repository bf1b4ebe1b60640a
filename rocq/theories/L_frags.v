(* Lemmas: the fragments a sink holds. *)
From Verif Require Import Base S_annexb S_nal M_annexb M_nal S_frags L_base L_annexb L_nal.
From Coq Require Import ZifyBool ZifyNat.

Lemma stap_loop_frags : forall f s buf ts, s_frags (fst (stap_loop f s buf ts)) = s_frags s.
Proof.
  induction f as [|f IH]; intros s buf ts; cbn [stap_loop]; destruct (zlen buf <? 2); try reflexivity.
  destruct (be_uint16 buf) as [size| | |]; try reflexivity. destruct (zlen buf <? u16 (size + 2)); try reflexivity.
  destruct (index buf 2); try reflexivity. destruct (slice buf 3 _); try reflexivity. destruct (slice_from buf _); try reflexivity.
  rewrite IH. reflexivity.
Qed.
Lemma mtap_loop_frags : forall f wide s buf ts, s_frags (fst (mtap_loop f wide s buf ts)) = s_frags s.
Proof.
  induction f as [|f IH]; intros wide s buf ts; cbn [mtap_loop]; destruct (zlen buf <? (if wide then 6 else 5)); try reflexivity.
  destruct (be_uint16 buf) as [size| | |]; try reflexivity.
  destruct (index buf 2); try reflexivity. destruct (index buf 3); try reflexivity. destruct (index buf 4); try reflexivity.
  destruct (if wide then index buf 5 else Ok 0); try reflexivity.
  destruct (zlen buf <? u16 (size + _)); try reflexivity.
  destruct (index buf _); try reflexivity. destruct (slice buf _ _); try reflexivity. destruct (slice_from buf _); try reflexivity.
  rewrite IH. reflexivity.
Qed.
Lemma add_fragment_frags s i h d ts x : s_frags (add_fragment s i h d ts x) = (if negb (Z.land h 128 =? 0) then [] else s_frags s) ++ [mkFrag (mkUnit i d ts x) h].
Proof. unfold add_fragment. destruct (negb (Z.land h 64 =? 0)); reflexivity. Qed.
Lemma flag_bits f : byte_ok f -> negb (Z.land f 128 =? 0) = (128 <=? f) /\ negb (Z.land f 64 =? 0) = (64 <=? f mod 128).
Proof.
  intros H. assert (X : (Bool.eqb (negb (Z.land f 128 =? 0)) (128 <=? f) && Bool.eqb (negb (Z.land f 64 =? 0)) (64 <=? f mod 128)) = true).
  { apply (byte_forall (fun f => Bool.eqb (negb (Z.land f 128 =? 0)) (128 <=? f) && Bool.eqb (negb (Z.land f 64 =? 0)) (64 <=? f mod 128))); [reflexivity|exact H]. }
  apply andb_prop in X as [X Y]. apply Bool.eqb_prop in X, Y. split; assumption.
Qed.
Definition shown_frag (f : fragment) : bool * bool * bytes := (is_start f, is_end f, u_data (f_unit f)).
Definition take (held : list (bool * bool * bytes)) (f : bool * bool * bytes) := (if fst (fst f) then [] else held) ++ [f].
Lemma parse_frags s n ts : bytes_ok n -> map shown_frag (s_frags (fst (parse_nal s n ts))) = fold_left take (fu_of n) (map shown_frag (s_frags s)).
Proof.
  intros H. destruct n as [|h r]; [reflexivity|]. apply Forall_cons_iff in H as [Hh H].
  assert (NF : nal_type h <> 28 -> nal_type h <> 29 -> fu_of (h :: r) = []).
  { intros A B. unfold fu_of. destruct r as [|b1 r]; [reflexivity|]. replace (nal_type h =? 28) with false by lia. replace (nal_type h =? 29) with false by lia. reflexivity. }
  destruct (type_cases h Hh) as [T|[T|[(w & T)|[T|[T|T]]]]].
  - rewrite NF by lia. rewrite parse_stap_a by assumption. unfold stap_run. rewrite stap_loop_frags. reflexivity.
  - rewrite NF by lia. destruct (Z_lt_ge_dec (zlen r) 2); [rewrite parse_short by auto; reflexivity|].
    destruct (split2 r H ltac:(unfold zlen in *; lia)) as (don & x & -> & Hn & Hx). rewrite parse_stap_b by assumption. unfold stap_run. rewrite stap_loop_frags. reflexivity.
  - rewrite NF by (unfold is_mtap in T; destruct w; lia). destruct (Z_lt_ge_dec (zlen r) 2); [rewrite parse_short by (destruct w; auto); reflexivity|].
    destruct (split2 r H ltac:(unfold zlen in *; lia)) as (don & x & -> & Hn & Hx). rewrite (parse_mtap_eq s w) by assumption. unfold mtap_run. rewrite mtap_loop_frags. reflexivity.
  - destruct r as [|b1 r]; [unfold parse_nal; rewrite land31, T by exact Hh; reflexivity|].
    apply Forall_cons_iff in H as [H1 H]. rewrite parse_fua by assumption. cbn [fst]. rewrite add_fragment_frags. unfold fu_of. rewrite T, Z.eqb_refl. destruct (flag_bits b1 H1) as [F1 F2].
    cbn [fold_left]. unfold take. cbn [fst]. rewrite map_app. cbn [map]. unfold shown_frag at 2, is_start, is_end. cbn [f_flags f_unit u_data]. rewrite F1, F2. destruct (128 <=? b1); reflexivity.
  - destruct (Z_lt_ge_dec (zlen (h :: r)) 4) as [L|L].
    + unfold parse_nal. rewrite land31, T by exact Hh. cbn [Z.eqb Pos.eqb]. replace (zlen (h :: r) <? 4) with true by lia. unfold fu_of. destruct r as [|b1 r]; [reflexivity|]. rewrite T. rewrite !zlen_cons in L. replace (2 <=? zlen r) with false by lia. reflexivity.
    + rewrite zlen_cons in L. destruct r as [|b1 r]; [cbn in L; lia|]. rewrite zlen_cons in L.
      apply Forall_cons_iff in H as [H1 H]. destruct (split2 r H ltac:(unfold zlen in *; lia)) as (don & x & -> & Hn & Hx).
      rewrite parse_fub by assumption. cbn [fst]. rewrite add_fragment_frags. unfold fu_of. rewrite T. replace (2 <=? zlen (be_put 2 don ++ x)) with true by lia. cbn [Z.eqb Pos.eqb andb]. destruct (flag_bits b1 H1) as [F1 F2].
      cbn [fold_left]. unfold take. cbn [fst]. rewrite map_app. cbn [map]. unfold shown_frag at 2, is_start, is_end. cbn [f_flags f_unit u_data]. rewrite F1, F2, be_put2. cbn [app skipn]. destruct (128 <=? b1); reflexivity.
  - rewrite NF by (unfold single in T; lia). rewrite parse_single by assumption. reflexivity.
Qed.
Lemma push_all_frags ps : forall s, Forall (fun p => bytes_ok (fst p) /\ plain (fst p)) ps ->
  map shown_frag (s_frags (fst (push_all s ps))) = fold_left take (flat_map (fun p => fu_of (fst p)) ps) (map shown_frag (s_frags s)).
Proof.
  induction ps as [|[p ts] ps IH]; intros s F; [reflexivity|]. apply Forall_cons_iff in F as [[B P] F]. cbn [fst] in *. cbn [push_all flat_map fst]. rewrite fold_left_app, <- (parse_frags s p ts B), <- (push_plain s p ts P).
  destruct (push s p ts) as [s1 o]. cbn [fst]. rewrite <- IH by exact F. destruct (push_all s1 ps) as [s2 os]. reflexivity.
Qed.
Definition suffix_of (l held : list (bool * bool * bytes)) : Prop :=
  exists pre, l = pre ++ held /\ (pre = [] \/ exists e d t, held = (true, e, d) :: t) /\ Forall (fun f => fst (fst f) = false) (tl held).
Lemma take_suffix fs : forall l held, suffix_of l held -> suffix_of (l ++ fs) (fold_left take fs held).
Proof.
  induction fs as [|[[st en] d] fs IH]; intros l held S; [rewrite app_nil_r; exact S|]. cbn [fold_left].
  replace (l ++ (st, en, d) :: fs) with ((l ++ [(st, en, d)]) ++ fs) by (rewrite <- app_assoc; reflexivity). apply IH. unfold take. cbn [fst]. destruct S as (pre & -> & P & T). destruct st.
  - exists (pre ++ held). split; [reflexivity|]. split; [right; exists en, d, []; reflexivity|constructor].
  - exists pre. split; [rewrite app_assoc; reflexivity|]. split.
    + destruct P as [->|(e & x & t & ->)]; [left; reflexivity|right; exists e, x, (t ++ [(false, en, d)]); reflexivity].
    + destruct held as [|h t]; [constructor|]. cbn [app tl] in *. apply Forall_app. split; [exact T|]. constructor; [reflexivity|constructor].
Qed.
Lemma held_exact ps : Forall (fun p => bytes_ok (fst p) /\ plain (fst p)) ps ->
  suffix_of (flat_map (fun p => fu_of (fst p)) ps) (map shown_frag (s_frags (fst (push_all new_sink ps)))).
Proof.
  intros F. rewrite push_all_frags by exact F. apply (take_suffix _ [] []). exists []. split; [reflexivity|]. split; [left; reflexivity|constructor].
Qed.
Lemma held_grows ps : Forall (fun p => bytes_ok (fst p) /\ plain (fst p) /\ Forall (fun f => fst (fst f) = false) (fu_of (fst p))) ps ->
  map shown_frag (s_frags (fst (push_all new_sink ps))) = flat_map (fun p => fu_of (fst p)) ps.
Proof.
  intros F. rewrite push_all_frags by (eapply Forall_impl; [|exact F]; cbv beta; tauto). cbn [new_sink s_frags map].
  assert (G : Forall (fun f => fst (fst f) = false) (flat_map (fun p : bytes * Z => fu_of (fst p)) ps)).
  { induction F as [|p ps (_ & _ & H) F IH]; [constructor|]. cbn [flat_map]. apply Forall_app. split; assumption. }
  revert G. generalize (flat_map (fun p : bytes * Z => fu_of (fst p)) ps). clear F ps. intros l G.
  assert (X : forall h, fold_left take l h = h ++ l).
  { induction G as [|f l Hf G IH]; intros h; [rewrite app_nil_r; reflexivity|]. cbn [fold_left]. rewrite IH. unfold take. rewrite Hf, <- app_assoc. reflexivity. }
  apply X.
Qed.
Lemma fu_of_a h s e c : byte_ok h -> fu_of (fu_a h s e c) = [(s, e, c)].
Proof.
  intros H. unfold fu_a, fu_of.
  assert (X : (nal_type (fu_indicator h 28) =? 28) && Bool.eqb (128 <=? fu_header s e h) s && Bool.eqb (64 <=? fu_header s e h mod 128) e = true).
  { apply (byte_forall (fun h => (nal_type (fu_indicator h 28) =? 28) && Bool.eqb (128 <=? fu_header s e h) s && Bool.eqb (64 <=? fu_header s e h mod 128) e)); [destruct s, e; reflexivity|exact H]. }
  apply andb_prop in X as [X Y]. apply andb_prop in X as [X Z0]. apply Bool.eqb_prop in Y, Z0. rewrite X, Y, Z0. reflexivity.
Qed.
Lemma fu_a_bytes h s e c : byte_ok h -> bytes_ok c -> bytes_ok (fu_a h s e c).
Proof.
  intros H C. unfold fu_a. assert (X : (0 <=? fu_indicator h 28) && (fu_indicator h 28 <? 256) && (0 <=? fu_header s e h) && (fu_header s e h <? 256) = true).
  { apply (byte_forall (fun h => (0 <=? fu_indicator h 28) && (fu_indicator h 28 <? 256) && (0 <=? fu_header s e h) && (fu_header s e h <? 256))); [destruct s, e; reflexivity|exact H]. }
  apply Forall_cons_iff. split; [unfold byte_ok; lia|]. apply Forall_cons_iff. split; [unfold byte_ok; lia|exact C].
Qed.
Lemma parse_fu_a h s e c x ts : byte_ok h -> bytes_ok c -> fst (parse_nal x (fu_a h s e c) ts) = add_fragment (fresh x) (nal_nri (fu_indicator h 28) * 32 + nal_type (fu_header s e h)) (fu_header s e h) (s_don x) ts c.
Proof.
  intros H C. pose proof (fu_a_bytes h s e c H C) as B. unfold fu_a in *. apply Forall_cons_iff in B as [B1 B]. apply Forall_cons_iff in B as [B2 B]. rewrite parse_fua; [reflexivity|exact B1|exact B2|].
  pose proof (fu_of_a h s e c H) as X. unfold fu_of, fu_a in X. destruct (nal_type (fu_indicator h 28) =? 28) eqn:E; [lia|]. unfold nal_type, fu_indicator in *. exfalso. revert E. replace ((h / 32 * 32 + 28) mod 32) with 28 by (rewrite Z.add_comm, Z.mod_add by lia; reflexivity). discriminate.
Qed.
Lemma kept_after_end : forall (h ts : Z) (c d : bytes), byte_ok h -> bytes_ok c -> bytes_ok d ->
  plain (fu_a h true false c) -> plain (fu_a h false true d) ->
  let s := fst (push_all new_sink [(fu_a h true false c, ts); (fu_a h false true d, ts)]) in
  map u_data (s_units s) = [c ++ d] /\ map (fun f => (is_start f, is_end f, u_data (f_unit f))) (s_frags s) = [(true, false, c); (false, true, d)].
Proof.
  intros h ts c d H C D P Q s. assert (F : Forall (fun p => bytes_ok (fst p) /\ plain (fst p)) [(fu_a h true false c, ts); (fu_a h false true d, ts)]).
  { apply Forall_cons_iff. split; [split; [apply fu_a_bytes; assumption|exact P]|]. apply Forall_cons_iff. split; [split; [apply fu_a_bytes; assumption|exact Q]|constructor]. }
  split.
  - unfold s. cbn [push_all]. rewrite (push_plain new_sink _ ts P). destruct (parse_nal new_sink (fu_a h true false c) ts) as [s1 o1] eqn:E1. pose proof (f_equal fst E1) as G1. cbn [fst] in G1. rewrite parse_fu_a in G1 by assumption.
    rewrite (push_plain s1 _ ts Q). destruct (parse_nal s1 (fu_a h false true d) ts) as [s2 o2] eqn:E2. pose proof (f_equal fst E2) as G2. cbn [fst] in G2. rewrite parse_fu_a in G2 by assumption. cbn [fst]. rewrite <- G2.
    rewrite (add_last (fresh s1) _ h _ _ _ _ H eq_refl). cbn [s_units fresh s_frags map app]. rewrite <- G1, (add_first (fresh new_sink) _ h _ _ _ _ H eq_refl). cbn [s_frags flat_map f_unit u_data]. rewrite app_nil_r. reflexivity.
  - unfold s. change (map (fun f => (is_start f, is_end f, u_data (f_unit f)))) with (map shown_frag). rewrite push_all_frags by exact F. cbn [flat_map fst]. rewrite !fu_of_a by exact H. reflexivity.
Qed.
Lemma held_unbounded : forall n : nat, exists ps : list (bytes * Z), Forall (fun p => bytes_ok (fst p) /\ plain (fst p) /\ (length (fst p) <= 3)%nat) ps /\
  length (s_frags (fst (push_all new_sink ps))) = n.
Proof.
  intros n. exists (repeat (fu_a 101 false false [7], 0) n).
  assert (B : bytes_ok (fu_a 101 false false [7])) by (apply fu_a_bytes; [unfold byte_ok; lia|repeat constructor; lia]).
  assert (P : plain (fu_a 101 false false [7])) by (split; apply not_contains; reflexivity). split.
  - apply Forall_forall. intros p I. apply repeat_spec in I. subst p. cbn [fst]. splits; [exact B|exact P|reflexivity || (cbn; lia)].
  - rewrite <- (map_length shown_frag), held_grows.
    + induction n as [|n IH]; [reflexivity|]. cbn [repeat flat_map]. rewrite app_length, IH. reflexivity.
    + apply Forall_forall. intros p I. apply repeat_spec in I. subst p. cbn [fst]. splits; [exact B|exact P|]. rewrite fu_of_a by (unfold byte_ok; lia). repeat constructor.
Qed.
