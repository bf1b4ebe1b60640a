(* Lemmas about the sink in memory. *)
From Verif Require Import Base S_annexb S_nal M_annexb M_nal M_share S_share L_base L_annexb L_nal.
From Coq Require Import ZifyBool ZifyNat.

(* ---- lists ---- *)
Lemma set_nth_length {A} i (x : A) l : (i < length l)%nat -> length (set_nth i x l) = length l.
Proof. intros H. unfold set_nth. rewrite app_length, firstn_length. cbn [length]. rewrite skipn_length. lia. Qed.
Lemma nth_set_same {A} i (x d : A) l : (i < length l)%nat -> nth i (set_nth i x l) d = x.
Proof. intros H. unfold set_nth. rewrite app_nth2; rewrite firstn_length; [|lia]. replace (i - Nat.min i (length l))%nat with 0%nat by lia. reflexivity. Qed.
Lemma nth_set_other {A} i j (x d : A) l : (i < length l)%nat -> i <> j -> nth j (set_nth i x l) d = nth j l d.
Proof.
  unfold set_nth. revert j l; induction i as [|i IH]; intros [|j] [|y l] L H; cbn [length] in L; try lia; try reflexivity.
  cbn [firstn skipn app nth]. apply (IH j l); lia.
Qed.
Lemma firstn_set {A} n (x : A) l : (n < length l)%nat -> firstn (S n) (set_nth n x l) = firstn n l ++ [x].
Proof.
  intros H. unfold set_nth. rewrite firstn_app, firstn_length, firstn_firstn. replace (S n - Nat.min n (length l))%nat with 1%nat by lia.
  replace (Nat.min (S n) n) with n by lia. reflexivity.
Qed.

(* ---- append ---- *)
Definition fits {A} (arrs : list (list A)) (s : lslice) : Prop := (snd s <= length (nth (fst s) arrs []))%nat.
Lemma append_ok {A} (zero : A) slack arrs s x : fits arrs s ->
  let r := append_to zero slack arrs s x in fits (fst r) (snd r) /\ elems (fst r) (snd r) = elems arrs s ++ [x].
Proof.
  destruct s as [a n]. unfold fits, append_to, elems. cbn [fst snd]. intros H. cbv zeta. destruct (n <? length (nth a arrs []))%nat eqn:C; cbn [fst snd].
  - assert (a < length arrs)%nat by (destruct (Nat.lt_ge_cases a (length arrs)); [assumption|]; rewrite nth_overflow in C by assumption; cbn in C; lia).
    rewrite nth_set_same by assumption. rewrite set_nth_length by lia. split; [lia|]. apply firstn_set. lia.
  - rewrite nth_middle. rewrite app_length, firstn_length. cbn [length]. rewrite repeat_length. split; [lia|].
    rewrite firstn_app, firstn_firstn, firstn_length. replace (Nat.min (S n) n) with n by lia. replace (S n - Nat.min n (length (nth a arrs [])))%nat with 1%nat by lia. reflexivity.
Qed.

(* ---- slices of bytes ---- *)
Definition ok_sl (m : mem) (s : bslice) : Prop :=
  (sl_at s < length (m_bytes m))%nat /\ (sl_off s + sl_cap s <= length (nth (sl_at s) (m_bytes m) []))%nat /\ (sl_len s <= sl_cap s)%nat.
Lemma read_length m s : ok_sl m s -> length (sl_read m s) = sl_len s.
Proof. intros (A & B & C). unfold sl_read. rewrite firstn_length, skipn_length. lia. Qed.
Lemma read_zlen m s : ok_sl m s -> zlen (sl_read m s) = Z.of_nat (sl_len s).
Proof. intros H. unfold zlen. now rewrite read_length. Qed.
Lemma nth_error_firstn {A} (l : list A) n i : (i < n)%nat -> nth_error (firstn n l) i = nth_error l i.
Proof. revert n l; induction i as [|i IH]; intros [|n] [|x l] H; try lia; try reflexivity. cbn. apply IH. lia. Qed.
Lemma index_ok m s i : ok_sl m s -> sl_index m s i = index (sl_read m s) i.
Proof.
  intros H. pose proof (read_length m s H) as L. unfold sl_index, index. destruct (i <? sl_len s)%nat eqn:C.
  - unfold sl_read. rewrite nth_error_firstn by lia. rewrite L_base.nth_error_skipn. reflexivity.
  - replace (nth_error (sl_read m s) i) with (@None Z) by (symmetry; apply nth_error_None; lia). reflexivity.
Qed.
Lemma sub_ok m s lo hi : ok_sl m s -> (hi <= sl_len s)%nat ->
  match sl_sub s lo hi with
  | Ok d => slice (sl_read m s) lo hi = Ok (sl_read m d) /\ ok_sl m d /\ sl_at d = sl_at s /\ sl_off d = (sl_off s + lo)%nat /\ sl_len d = (hi - lo)%nat
  | _ => slice (sl_read m s) lo hi = Panic
  end.
Proof.
  intros H L. pose proof (read_length m s H) as R. destruct H as (A & B & C). unfold sl_sub, slice. rewrite R.
  destruct (lo <=? hi)%nat eqn:E; cbn [andb]; [|reflexivity]. replace (hi <=? sl_cap s)%nat with true by lia. replace (hi <=? sl_len s)%nat with true by lia.
  splits; try reflexivity; [|unfold ok_sl; cbn; lia]. f_equal. unfold sl_read. cbn [sl_at sl_off sl_len]. rewrite skipn_firstn_comm, firstn_firstn.
  replace (Nat.min (hi - lo) (sl_len s - lo)) with (hi - lo)%nat by lia. rewrite L_base.skipn_skipn. do 2 f_equal. lia.
Qed.
Lemma from_ok m s lo : ok_sl m s ->
  match sl_from s lo with
  | Ok d => slice_from (sl_read m s) lo = Ok (sl_read m d) /\ ok_sl m d /\ sl_at d = sl_at s /\ sl_off d = (sl_off s + lo)%nat /\ sl_len d = (sl_len s - lo)%nat
  | _ => slice_from (sl_read m s) lo = Panic
  end.
Proof.
  intros H. pose proof (read_length m s H) as R. unfold sl_from, slice_from. rewrite R. destruct (lo <=? sl_len s)%nat eqn:C; [|reflexivity].
  pose proof (sub_ok m s lo (sl_len s) H (le_n _)) as S. unfold sl_sub in *. destruct ((lo <=? sl_len s)%nat && (sl_len s <=? sl_cap s)%nat) eqn:D; [|destruct H as (_ & _ & H); lia].
  destruct S as (S & S2). splits; try tauto. unfold slice in S. rewrite R in S. replace ((lo <=? sl_len s)%nat && (sl_len s <=? sl_len s)%nat) with true in S by lia.
  injection S as S. rewrite <- S. f_equal. rewrite firstn_all2; [reflexivity|]. rewrite skipn_length. lia.
Qed.

(* ---- memory only grows ---- *)
Definition grows (m m' : mem) : Prop := exists new, m_bytes m' = m_bytes m ++ new.
Lemma grows_refl m : grows m m.
Proof. exists []. now rewrite app_nil_r. Qed.
Lemma grows_trans m1 m2 m3 : grows m1 m2 -> grows m2 m3 -> grows m1 m3.
Proof. intros (a & A) (b & B). exists (a ++ b). now rewrite B, A, app_assoc. Qed.
Lemma grows_len m m' : grows m m' -> (length (m_bytes m) <= length (m_bytes m'))%nat.
Proof. intros (n & E). rewrite E, app_length. lia. Qed.
Lemma grows_nth m m' a : grows m m' -> (a < length (m_bytes m))%nat -> nth a (m_bytes m') [] = nth a (m_bytes m) [].
Proof. intros (n & E) L. rewrite E. now apply app_nth1. Qed.
Lemma grows_ok m m' s : grows m m' -> ok_sl m s -> ok_sl m' s.
Proof. intros G (A & B & C). pose proof (grows_len _ _ G). unfold ok_sl. rewrite (grows_nth _ _ _ G A). splits; try assumption; lia. Qed.
Lemma grows_read m m' s : grows m m' -> ok_sl m s -> sl_read m' s = sl_read m s.
Proof. intros G (A & B & C). unfold sl_read. now rewrite (grows_nth _ _ _ G A). Qed.
Lemma unit_read m u : unit_now m u = mkUnit (hu_header u) (hu_don u) (hu_ts u) (sl_read m (hu_data u)).
Proof. reflexivity. Qed.
Lemma grows_unit m m' u : grows m m' -> ok_sl m (hu_data u) -> unit_now m' u = unit_now m u.
Proof. intros G H. rewrite !unit_read. now rewrite (grows_read _ _ _ G H). Qed.

(* ---- what is reachable from the sink ---- *)
Definition safe (mine : list nat) (m : mem) (s : bslice) : Prop := ok_sl m s /\ ~ In (sl_at s) mine.
Definition wf (mine : list nat) (st : hstate) : Prop :=
  fits (m_units (fst st)) (k_units (snd st)) /\ fits (m_frags (fst st)) (k_frags (snd st)) /\
  Forall (fun u => safe mine (fst st) (hu_data u)) (elems (m_units (fst st)) (k_units (snd st))) /\
  Forall (fun f => safe mine (fst st) (hu_data (hf_unit f))) (elems (m_frags (fst st)) (k_frags (snd st))).
Lemma grows_safe mine m m' s : grows m m' -> safe mine m s -> safe mine m' s.
Proof. intros G (A & B). split; [eapply grows_ok; eauto|assumption]. Qed.
Lemma map_units_grow mine m m' us : grows m m' -> Forall (fun u => safe mine m (hu_data u)) us -> map (unit_now m') us = map (unit_now m) us.
Proof. intros G F. apply map_ext_in. intros u I. rewrite Forall_forall in F. apply grows_unit; [assumption|]. apply (F u I). Qed.
Lemma map_frags_grow mine m m' fs : grows m m' -> Forall (fun f => safe mine m (hu_data (hf_unit f))) fs -> map (frag_now m') fs = map (frag_now m) fs.
Proof. intros G F. apply map_ext_in. intros f I. rewrite Forall_forall in F. unfold frag_now. f_equal. apply grows_unit; [assumption|]. apply (F f I). Qed.

Lemma add_unit_ok slack mine m k u : wf mine (m, k) -> safe mine m (hu_data u) ->
  let st' := add_unit slack (m, k) u in
  wf mine st' /\ m_bytes (fst st') = m_bytes m /\ m_frags (fst st') = m_frags m /\ k_don (snd st') = k_don k /\ k_frags (snd st') = k_frags k /\
  elems (m_units (fst st')) (k_units (snd st')) = elems (m_units m) (k_units k) ++ [u] /\
  sink_now st' = mkSink (s_units (sink_now (m, k)) ++ [unit_now m u]) (s_frags (sink_now (m, k))) (k_don k).
Proof.
  intros (A & B & C & D) S. cbn [fst snd] in *. pose proof (append_ok zero_unit slack (m_units m) (k_units k) u A) as (P & Q). unfold add_unit.
  destruct (append_to zero_unit slack (m_units m) (k_units k) u) as [arrs s]. cbn [fst snd] in *. cbv zeta. unfold wf. cbn [fst snd set_units m_units m_bytes m_frags k_units k_frags k_don].
  splits; try reflexivity; try assumption.
  - rewrite Q. apply Forall_app. split; [exact C|]. constructor; [exact S|constructor].
  - unfold sink_now, list_now, frags_now. cbn [fst snd set_units m_units m_bytes m_frags k_units k_frags k_don s_units s_frags]. unfold elems in Q. rewrite Q, map_app. reflexivity.
Qed.
Lemma set_don_wf mine st d : wf mine st -> wf mine (set_don st d).
Proof. destruct st as [m k]. exact (fun H => H). Qed.
Lemma set_don_now st d : sink_now (set_don st d) = mkSink (s_units (sink_now st)) (s_frags (sink_now st)) d.
Proof. destruct st as [m k]. reflexivity. Qed.
Lemma alloc_ok slack m l : let r := alloc slack m l in grows m (fst r) /\ ok_sl (fst r) (snd r) /\ sl_at (snd r) = length (m_bytes m) /\ sl_read (fst r) (snd r) = l /\ m_units (fst r) = m_units m /\ m_frags (fst r) = m_frags m.
Proof.
  unfold alloc, grows, ok_sl, sl_read. cbn. splits; try reflexivity; try lia.
  - now exists [l ++ repeat 0 (slack (length (m_bytes m)))].
  - rewrite app_length. cbn. lia.
  - rewrite nth_middle, app_length, repeat_length. lia.
  - rewrite nth_middle. rewrite firstn_app, firstn_all, Nat.sub_diag. cbn. apply app_nil_r.
Qed.
Lemma wf_alloc mine m m' k : grows m m' -> m_units m' = m_units m -> m_frags m' = m_frags m -> wf mine (m, k) -> wf mine (m', k) /\ sink_now (m', k) = sink_now (m, k).
Proof.
  intros G U F (A & B & C & D). cbn [fst snd] in *. unfold wf. cbn [fst snd]. rewrite U, F. splits; try assumption.
  - eapply Forall_impl; [|exact C]. intros u. apply grows_safe. exact G.
  - eapply Forall_impl; [|exact D]. intros u. apply grows_safe. exact G.
  - unfold sink_now, list_now, frags_now. cbn [fst snd]. rewrite U, F. f_equal; [eapply map_units_grow; eauto|eapply map_frags_grow; eauto].
Qed.

Lemma add_fragment_ok slack mine m k ind hdr don ts d : wf mine (m, k) -> (forall a, In a mine -> (a < length (m_bytes m))%nat) -> safe mine m d ->
  let st' := h_add_fragment slack (m, k) ind hdr don ts d in
  wf mine st' /\ grows m (fst st') /\ sink_now st' = add_fragment (sink_now (m, k)) ind hdr don ts (sl_read m d).
Proof.
  intros (A & B & C & D) MI S. cbn [fst snd] in *. unfold h_add_fragment.
  set (fs0 := if negb (Z.land hdr 128 =? 0) then (fst (k_frags k), 0%nat) else k_frags k).
  assert (F0 : fits (m_frags m) fs0) by (unfold fs0; destruct (negb _); [unfold fits; cbn; lia|exact B]).
  assert (E0 : map (frag_now m) (elems (m_frags m) fs0) = (if negb (Z.land hdr 128 =? 0) then [] else s_frags (sink_now (m, k)))) by (unfold fs0; destruct (negb _); reflexivity).
  assert (D0 : Forall (fun f => safe mine m (hu_data (hf_unit f))) (elems (m_frags m) fs0)) by (unfold fs0; destruct (negb _); [constructor|exact D]).
  pose proof (append_ok zero_frag slack (m_frags m) fs0 (mkHF (mkHU ind don ts d) hdr) F0) as (P & Q).
  destruct (append_to zero_frag slack (m_frags m) fs0 (mkHF (mkHU ind don ts d) hdr)) as [arrs fs]. cbn [fst snd] in *.
  set (m1 := set_frags m arrs). set (k1 := mkHS (k_units k) fs (k_don k)).
  assert (G1 : grows m m1) by (exists []; cbn; now rewrite app_nil_r).
  assert (W1 : wf mine (m1, k1)).
  { unfold wf. cbn [fst snd m1 k1 set_frags m_units m_frags k_units k_frags]. splits; try assumption. rewrite Q. apply Forall_app. split; [exact D0|]. constructor; [exact S|constructor]. }
  assert (N1 : sink_now (m1, k1) = mkSink (s_units (sink_now (m, k))) ((if negb (Z.land hdr 128 =? 0) then [] else s_frags (sink_now (m, k))) ++ [mkFrag (mkUnit ind don ts (sl_read m d)) hdr]) (k_don k)).
  { rewrite <- E0. unfold sink_now, frags_now. cbn [fst snd m1 k1 set_frags m_units m_frags k_units k_frags s_units k_don]. f_equal. change (firstn (snd fs) (nth (fst fs) arrs [])) with (elems arrs fs). rewrite Q, map_app. reflexivity. }
  cbv zeta. unfold add_fragment. destruct (negb (Z.land hdr 64 =? 0)) eqn:E.
  - pose proof (alloc_ok slack m1 (flat_map (fun f => sl_read m1 (hu_data (hf_unit f))) (elems arrs fs))) as (G2 & O2 & A2 & R2 & U2 & F2).
    destruct (alloc slack m1 (flat_map (fun f => sl_read m1 (hu_data (hf_unit f))) (elems arrs fs))) as [m2 s]. cbn [fst snd] in *.
    destruct (wf_alloc mine m1 m2 k1 G2 U2 F2 W1) as [W2 N2].
    assert (S2 : safe mine m2 s) by (split; [exact O2|intros I; apply MI in I; rewrite A2 in I; cbn in I; lia]).
    pose proof (add_unit_ok slack mine m2 k1 (mkHU ind don ts s) W2 S2) as (W3 & B3 & _ & _ & _ & _ & N3). cbv zeta in *. splits; [exact W3| |].
    + eapply grows_trans; [exact G1|]. eapply grows_trans; [exact G2|]. exists []. now rewrite B3, app_nil_r.
    + rewrite N3, N2, N1. cbn [s_units s_frags s_don]. f_equal. do 2 f_equal. rewrite unit_read. cbn [hu_header hu_don hu_ts hu_data]. rewrite R2. f_equal.
      rewrite flat_map_concat_map. rewrite flat_map_concat_map. f_equal. rewrite Q, map_app, map_app. rewrite <- E0, map_map. reflexivity.
  - splits; [exact W1|exact G1|]. rewrite N1. reflexivity.
Qed.

(* ---- the parsers do as in M_nal ---- *)
Definition refines (mine : list nat) (m : mem) (r : hstate * res unit) (r' : sink * res unit) : Prop :=
  wf mine (fst r) /\ grows m (fst (fst r)) /\ (sink_now (fst r), snd r) = r'.
Lemma refines_same mine st o : wf mine st -> refines mine (fst st) (st, o) (sink_now st, o).
Proof. intros W. unfold refines. splits; [exact W|apply grows_refl|reflexivity]. Qed.
Lemma refines_grow mine m m' r r' : grows m m' -> refines mine m' r r' -> refines mine m r r'.
Proof. intros G (A & B & C). unfold refines. splits; [exact A|eapply grows_trans; eauto|exact C]. Qed.
Lemma don_now st : s_don (sink_now st) = k_don (snd st).
Proof. reflexivity. Qed.

Lemma stap_loop_ok slack mine ts : forall fuel st buf, wf mine st -> safe mine (fst st) buf ->
  refines mine (fst st) (h_stap_loop slack fuel st buf ts) (stap_loop fuel (sink_now st) (sl_read (fst st) buf) ts).
Proof.
  induction fuel as [|fuel IH]; intros st buf W S; cbn [h_stap_loop stap_loop]; rewrite (read_zlen _ _ (proj1 S)).
  - replace (Z.of_nat (sl_len buf) <? 2) with (sl_len buf <? 2)%nat by lia. destruct (sl_len buf <? 2)%nat; now apply refines_same.
  - replace (Z.of_nat (sl_len buf) <? 2) with (sl_len buf <? 2)%nat by lia. destruct (sl_len buf <? 2)%nat; [now apply refines_same|].
    unfold sl_uint16. destruct (be_uint16 (sl_read (fst st) buf)) as [size| | |]; try now apply refines_same.
    destruct (Z.of_nat (sl_len buf) <? u16 (size + 2)) eqn:C; [now apply refines_same|].
    rewrite (index_ok _ _ 2 (proj1 S)). destruct (index (sl_read (fst st) buf) 2) as [h| | |]; try now apply refines_same.
    assert (L : (Z.to_nat (u16 (size + 2)) <= sl_len buf)%nat) by lia.
    pose proof (sub_ok (fst st) buf 3 _ (proj1 S) L) as P. destruct (sl_sub buf 3 (Z.to_nat (u16 (size + 2)))) as [d| | |]; try (rewrite P; now apply refines_same).
    destruct P as (-> & Od & Ad & _ & _). pose proof (from_ok (fst st) buf (Z.to_nat (u16 (size + 2))) (proj1 S)) as P.
    destruct (sl_from buf (Z.to_nat (u16 (size + 2)))) as [rest| | |]; try (rewrite P; now apply refines_same).
    destruct P as (-> & Or & Ar & _ & _). destruct st as [m k]. cbn [fst snd] in *.
    assert (Sd : safe mine m d) by (split; [exact Od|rewrite Ad; apply S]). assert (Sr : safe mine m rest) by (split; [exact Or|rewrite Ar; apply S]).
    pose proof (add_unit_ok slack mine m k (mkHU h (k_don k) ts d) W Sd) as (W3 & B3 & F3 & D3 & KF3 & E3 & N3). cbv zeta in *.
    set (st3 := set_don (add_unit slack (m, k) (mkHU h (k_don k) ts d)) (u16 (k_don k + 1))).
    assert (G3 : grows m (fst st3)) by (exists []; unfold st3, set_don; destruct (add_unit _ _ _); cbn in *; now rewrite B3, app_nil_r).
    eapply refines_grow; [exact G3|]. specialize (IH st3 rest (set_don_wf _ _ _ W3) (grows_safe _ _ _ _ G3 Sr)).
    rewrite (grows_read _ _ _ G3 Or) in IH. replace (sink_now st3) with (mkSink (s_units (sink_now (m, k)) ++ [mkUnit h (s_don (sink_now (m, k))) ts (sl_read m d)]) (s_frags (sink_now (m, k))) (u16 (s_don (sink_now (m, k)) + 1))) in IH; [exact IH|].
    unfold st3. rewrite set_don_now, N3. reflexivity.
Qed.
Lemma parse_stap_ok slack mine st b buf ts : wf mine st -> safe mine (fst st) buf ->
  refines mine (fst st) (h_parse_stap slack st b buf ts) (parse_stap (sink_now st) b (sl_read (fst st) buf) ts).
Proof.
  intros W S. unfold h_parse_stap, parse_stap. rewrite (read_zlen _ _ (proj1 S)). replace (Z.of_nat (sl_len buf) <? 2) with (sl_len buf <? 2)%nat by lia. destruct b.
  - destruct (sl_len buf <? 2)%nat; [now apply refines_same|]. unfold sl_uint16. destruct (be_uint16 (sl_read (fst st) buf)) as [don| | |]; try now apply refines_same.
    pose proof (from_ok (fst st) buf 2 (proj1 S)) as P. destruct (sl_from buf 2) as [rest| | |]; try (rewrite P; now apply refines_same).
    destruct P as (-> & Or & Ar & _ & _). rewrite (read_length _ _ Or). rewrite <- set_don_now. replace (fst st) with (fst (set_don st don)) by (destruct st; reflexivity).
    apply stap_loop_ok; [now apply set_don_wf|]. destruct st as [m k]. split; [exact Or|rewrite Ar; apply S].
  - rewrite (read_length _ _ (proj1 S)). now apply stap_loop_ok.
Qed.

Lemma mtap_loop_ok slack mine wide ts : forall fuel st buf, wf mine st -> safe mine (fst st) buf ->
  refines mine (fst st) (h_mtap_loop slack fuel wide st buf ts) (mtap_loop fuel wide (sink_now st) (sl_read (fst st) buf) ts).
Proof.
  induction fuel as [|fuel IH]; intros st buf W S; cbn [h_mtap_loop mtap_loop]; rewrite (read_zlen _ _ (proj1 S)).
  - destruct (Z.of_nat (sl_len buf) <? _); now apply refines_same.
  - destruct (Z.of_nat (sl_len buf) <? _); [now apply refines_same|].
    unfold sl_uint16. destruct (be_uint16 (sl_read (fst st) buf)) as [size| | |]; try now apply refines_same.
    rewrite !(index_ok _ _ _ (proj1 S)). destruct (index (sl_read (fst st) buf) 2) as [dond| | |]; try now apply refines_same.
    destruct (index (sl_read (fst st) buf) 3) as [b3| | |]; try now apply refines_same. destruct (index (sl_read (fst st) buf) 4) as [b4| | |]; try now apply refines_same.
    destruct (if wide then index (sl_read (fst st) buf) 5 else Ok 0) as [b5| | |]; try now apply refines_same.
    set (off := if wide then 6 else 5). set (n := u16 (size + off)). set (tso := if wide then _ else _).
    destruct (Z.of_nat (sl_len buf) <? n) eqn:C; [now apply refines_same|].
    destruct (index (sl_read (fst st) buf) (Z.to_nat off)) as [h| | |]; try now apply refines_same.
    assert (L : (Z.to_nat n <= sl_len buf)%nat) by lia.
    pose proof (sub_ok (fst st) buf (Z.to_nat (off + 1)) _ (proj1 S) L) as P. destruct (sl_sub buf (Z.to_nat (off + 1)) (Z.to_nat n)) as [d| | |]; try (rewrite P; now apply refines_same).
    destruct P as (-> & Od & Ad & _ & _). pose proof (from_ok (fst st) buf (Z.to_nat n) (proj1 S)) as P.
    destruct (sl_from buf (Z.to_nat n)) as [rest| | |]; try (rewrite P; now apply refines_same).
    destruct P as (-> & Or & Ar & _ & _). destruct st as [m k]. cbn [fst snd] in *.
    assert (Sd : safe mine m d) by (split; [exact Od|rewrite Ad; apply S]). assert (Sr : safe mine m rest) by (split; [exact Or|rewrite Ar; apply S]).
    set (u := mkHU h (u16 (k_don k + dond)) (u32 (ts + tso)) d).
    pose proof (add_unit_ok slack mine m k u W Sd) as (W3 & B3 & F3 & D3 & KF3 & E3 & N3). cbv zeta in *.
    set (st3 := set_don (add_unit slack (m, k) u) (u16 (k_don k + 1))).
    assert (G3 : grows m (fst st3)) by (exists []; unfold st3, set_don; destruct (add_unit _ _ _); cbn in *; now rewrite B3, app_nil_r).
    eapply refines_grow; [exact G3|]. specialize (IH st3 rest (set_don_wf _ _ _ W3) (grows_safe _ _ _ _ G3 Sr)).
    rewrite (grows_read _ _ _ G3 Or) in IH. replace (sink_now st3) with (mkSink (s_units (sink_now (m, k)) ++ [unit_now m u]) (s_frags (sink_now (m, k))) (u16 (s_don (sink_now (m, k)) + 1))) in IH; [exact IH|].
    unfold st3. rewrite set_don_now, N3. reflexivity.
Qed.
Lemma parse_mtap_ok slack mine st wide buf ts : wf mine st -> safe mine (fst st) buf ->
  refines mine (fst st) (h_parse_mtap slack st wide buf ts) (parse_mtap (sink_now st) wide (sl_read (fst st) buf) ts).
Proof.
  intros W S. unfold h_parse_mtap, parse_mtap. rewrite (read_zlen _ _ (proj1 S)). replace (Z.of_nat (sl_len buf) <? 2) with (sl_len buf <? 2)%nat by lia.
  destruct (sl_len buf <? 2)%nat; [now apply refines_same|]. unfold sl_uint16. destruct (be_uint16 (sl_read (fst st) buf)) as [don| | |]; try now apply refines_same.
  pose proof (from_ok (fst st) buf 2 (proj1 S)) as P. destruct (sl_from buf 2) as [rest| | |]; try (rewrite P; now apply refines_same).
  destruct P as (-> & Or & Ar & _ & _). rewrite (read_length _ _ Or). rewrite <- set_don_now. replace (fst st) with (fst (set_don st don)) by (destruct st; reflexivity).
  apply mtap_loop_ok; [now apply set_don_wf|]. destruct st as [m k]. split; [exact Or|rewrite Ar; apply S].
Qed.

Definition cleared (st : hstate) : hstate := (fst st, mkHS (fst (k_units (snd st)), 0%nat) (k_frags (snd st)) (k_don (snd st))).
Lemma cleared_ok mine st : wf mine st -> wf mine (cleared st) /\ sink_now (cleared st) = mkSink [] (s_frags (sink_now st)) (s_don (sink_now st)).
Proof. intros (A & B & C & D). split; [|reflexivity]. unfold wf, cleared. cbn [fst snd k_units k_frags]. splits; try assumption; [unfold fits; cbn; lia|constructor]. Qed.
Lemma parse_nal_ok slack mine st buf ts : wf mine st -> (forall a, In a mine -> (a < length (m_bytes (fst st)))%nat) -> safe mine (fst st) buf ->
  refines mine (fst st) (h_parse_nal slack st buf ts) (parse_nal (sink_now st) (sl_read (fst st) buf) ts).
Proof.
  intros W MI S. unfold h_parse_nal. fold (cleared st). destruct (cleared_ok mine st W) as [W0 N0]. cbv zeta.
  unfold parse_nal. rewrite <- N0. change (fst st) with (fst (cleared st)) in *. clear W N0. revert W0 MI S. generalize (cleared st). clear st. intros st W MI S.
  rewrite !(index_ok _ _ _ (proj1 S)). rewrite (read_zlen _ _ (proj1 S)). pose proof (read_length _ _ (proj1 S)) as RL. pose proof (from_ok _ _ 1 (proj1 S)) as P1. pose proof (from_ok _ _ 2 (proj1 S)) as P2. pose proof (from_ok _ _ 4 (proj1 S)) as P4.
  destruct (sl_read (fst st) buf) as [|b0 l] eqn:R; cbn [length] in RL.
  { replace (sl_len buf <? 1)%nat with true by lia. now apply refines_same. }
  replace (sl_len buf <? 1)%nat with false by lia. cbn [index nth_error].
  destruct (sl_from buf 1) as [rest| | |]; try discriminate P1. destruct P1 as (Q1 & O1 & A1 & _ & _). injection Q1 as Q1. cbn [skipn] in Q1.
  assert (S1 : safe mine (fst st) rest) by (split; [exact O1|rewrite A1; apply S]).
  replace (Z.of_nat (sl_len buf) <? 2) with (sl_len buf <? 2)%nat by lia. replace (Z.of_nat (sl_len buf) <? 4) with (sl_len buf <? 4)%nat by lia.
  destruct (Z.land b0 31 =? 24); [rewrite Q1; now apply parse_stap_ok|]. destruct (Z.land b0 31 =? 25); [rewrite Q1; now apply parse_stap_ok|].
  destruct (Z.land b0 31 =? 26); [rewrite Q1; now apply parse_mtap_ok|]. destruct (Z.land b0 31 =? 27); [rewrite Q1; now apply parse_mtap_ok|].
  destruct (Z.land b0 31 =? 28); [|destruct (Z.land b0 31 =? 29)].
  - destruct (sl_len buf <? 2)%nat; [now apply refines_same|]. destruct (index (b0 :: l) 1) as [b1| | |]; try now apply refines_same.
    destruct (sl_from buf 2) as [d| | |]; try (rewrite P2; now apply refines_same). destruct P2 as (-> & O2 & A2 & _ & _). destruct st as [m k]. cbn [fst snd] in *.
    assert (S2 : safe mine m d) by (split; [exact O2|rewrite A2; apply S]).
    destruct (add_fragment_ok slack mine m k (u8 (Z.land b0 96 + Z.land b1 31)) b1 (k_don k) ts d W MI S2) as (W3 & G3 & N3). unfold refines. cbn [fst snd]. splits; [exact W3|exact G3|]. now rewrite N3.
  - destruct (sl_len buf <? 4)%nat; [now apply refines_same|]. destruct (index (b0 :: l) 1) as [b1| | |]; try now apply refines_same.
    destruct (sl_from buf 2) as [d| | |]; try (rewrite P2; now apply refines_same). destruct P2 as (-> & O2 & A2 & _ & _).
    destruct (sl_from buf 4) as [e| | |]; try (rewrite P4; now apply refines_same). destruct P4 as (-> & O4 & A4 & _ & _). unfold sl_uint16.
    destruct (be_uint16 (sl_read (fst st) d)) as [don| | |]; try now apply refines_same. destruct st as [m k]. cbn [fst snd] in *.
    assert (S4 : safe mine m e) by (split; [exact O4|rewrite A4; apply S]).
    destruct (add_fragment_ok slack mine m k (u8 (Z.land b0 96 + Z.land b1 31)) b1 don ts e W MI S4) as (W3 & G3 & N3). unfold refines. cbn [fst snd]. splits; [exact W3|exact G3|]. now rewrite N3.
  - destruct st as [m k]. cbn [fst snd] in *. pose proof (add_unit_ok slack mine m k (mkHU b0 (k_don k) ts rest) W S1) as (W3 & B3 & _ & _ & _ & _ & N3). cbv zeta in *. unfold refines. cbn [fst snd]. splits.
    + now apply set_don_wf.
    + exists []. unfold set_don. destruct (add_unit _ _ _). cbn in *. now rewrite B3, app_nil_r.
    + rewrite set_don_now, N3, Q1. reflexivity.
Qed.

Lemma grows_mine m m' (mine : list nat) : grows m m' -> (forall a, In a mine -> (a < length (m_bytes m))%nat) -> forall a, In a mine -> (a < length (m_bytes m'))%nat.
Proof. intros G H a I. pose proof (grows_len _ _ G). specialize (H a I). lia. Qed.
Lemma push_nals_ok slack mine ts : forall ss st, wf mine st -> (forall a, In a mine -> (a < length (m_bytes (fst st)))%nat) -> Forall (safe mine (fst st)) ss ->
  refines mine (fst st) (h_push_nals slack st ss ts) (push_nals (sink_now st) (map (sl_read (fst st)) ss) ts).
Proof.
  induction ss as [|s ss IH]; intros st W MI F; cbn [h_push_nals push_nals map]; [now apply refines_same|]. inversion F as [|? ? Fs Fr]; subst.
  pose proof (parse_nal_ok slack mine st s ts W MI Fs) as (W1 & G1 & N1). destruct (h_parse_nal slack st s ts) as [st1 o]. cbn [fst snd] in *. rewrite <- N1.
  destruct o; try (unfold refines; splits; [exact W1|exact G1|reflexivity]).
  eapply refines_grow; [exact G1|]. assert (F1 : Forall (safe mine (fst st1)) ss) by (eapply Forall_impl; [|exact Fr]; intros; eapply grows_safe; eauto).
  specialize (IH st1 W1 (grows_mine _ _ _ G1 MI) F1). replace (map (sl_read (fst st)) ss) with (map (sl_read (fst st1)) ss); [exact IH|].
  apply map_ext_in. intros x I. rewrite Forall_forall in Fr. apply grows_read; [exact G1|apply Fr, I].
Qed.
Lemma units_ok slack mine : forall l m, (forall a, In a mine -> (a < length (m_bytes m))%nat) ->
  let r := h_units slack m l in grows m (fst r) /\ Forall (safe mine (fst r)) (snd r) /\ map (sl_read (fst r)) (snd r) = l /\ m_units (fst r) = m_units m /\ m_frags (fst r) = m_frags m /\
  Forall (fun s => (length (m_bytes m) <= sl_at s)%nat) (snd r) /\ NoDup (map sl_at (snd r)).
Proof.
  induction l as [|x l IH]; intros m MI; cbn [h_units].
  - cbv zeta. cbn [fst snd map]. splits; try constructor. exists []. now rewrite app_nil_r.
  - pose proof (alloc_ok slack m x) as (G1 & O1 & A1 & R1 & U1 & F1). destruct (alloc slack m x) as [m1 s]. cbn [fst snd] in *.
    specialize (IH m1 (grows_mine _ _ _ G1 MI)). cbv zeta in IH. destruct (h_units slack m1 l) as [m2 ss]. cbn [fst snd map] in *. cbv zeta. destruct IH as (G2 & S2 & R2 & U2 & F2 & A2 & N2).
    assert (L : (length (m_bytes m) < length (m_bytes m1))%nat) by (rewrite <- A1; apply O1).
    splits.
    + eapply grows_trans; eauto.
    + constructor; [|exact S2]. split; [eapply grows_ok; eauto|]. intros I. apply MI in I. lia.
    + rewrite R2. f_equal. rewrite (grows_read _ _ _ G2 O1). exact R1.
    + congruence.
    + congruence.
    + constructor; [lia|]. eapply Forall_impl; [|exact A2]. cbv beta. intros; lia.
    + constructor; [|exact N2]. intros I. apply in_map_iff in I as (y & E & I). rewrite Forall_forall in A2. apply A2 in I. lia.
Qed.
Lemma push_ok slack mine st buf ts : wf mine st -> (forall a, In a mine -> (a < length (m_bytes (fst st)))%nat) ->
  refines mine (fst st) (h_push slack st buf ts) (push (sink_now st) (sl_read (fst st) buf) ts).
Proof.
  intros W MI. unfold h_push, push. destruct (split_annexb (sl_read (fst st) buf)) as [nals| | |]; try now apply refines_same.
  pose proof (units_ok slack mine nals (fst st) MI) as (G & S & R & U & F & _ & _). destruct (h_units slack (fst st) nals) as [m ss]. cbn [fst snd] in *. destruct st as [m0 k]. cbn [fst snd] in *.
  destruct (wf_alloc mine m0 m k G U F W) as [W1 N1]. rewrite <- N1, <- R. eapply refines_grow; [exact G|]. apply (push_nals_ok slack mine ts ss (m, k)); [exact W1|cbn; eapply grows_mine; eauto|exact S].
Qed.

(* ---- histories ---- *)
Definition fine (c : hstate * list nat) : Prop := wf (snd c) (fst c) /\ (forall a, In a (snd c) -> (a < length (m_bytes (fst (fst c))))%nat).
Lemma boot_fine : fine boot.
Proof. split; [|intros a []]. unfold wf, boot. cbn. splits; try constructor; unfold fits; cbn; lia. Qed.
Lemma existsb_in a l : existsb (Nat.eqb a) l = true -> In a l.
Proof. intros H. apply existsb_exists in H as (x & I & E). apply Nat.eqb_eq in E. now subst. Qed.
Lemma store_read mine m a i x s : In a mine -> (a < length (m_bytes m))%nat -> (i < length (nth a (m_bytes m) []))%nat -> safe mine m s ->
  let m' := set_bytes m (set_nth a (set_nth i x (nth a (m_bytes m) [])) (m_bytes m)) in safe mine m' s /\ sl_read m' s = sl_read m s.
Proof.
  intros I L B ((O1 & O2 & O3) & N). assert (D : a <> sl_at s) by congruence. unfold safe, ok_sl, sl_read. cbn [set_bytes m_bytes]. rewrite set_nth_length by exact L. rewrite nth_set_other by assumption. splits; auto.
Qed.
Lemma push_all_app s a b : fst (push_all s (a ++ b)) = fst (push_all (fst (push_all s a)) b).
Proof.
  revert s; induction a as [|[p ts] a IH]; intros s; [reflexivity|]. cbn [app push_all]. destruct (push s p ts) as [s1 o]. specialize (IH s1).
  destruct (push_all s1 (a ++ b)) as [s2 os]. destruct (push_all s1 a) as [s3 os3]. exact IH.
Qed.
Lemma step_ok slack c op : fine c ->
  fine (hstep slack c op) /\
  (forall s, safe (snd c) (fst (fst c)) s -> safe (snd (hstep slack c op)) (fst (fst (hstep slack c op))) s /\ sl_read (fst (fst (hstep slack c op))) s = sl_read (fst (fst c)) s) /\
  sink_now (fst (hstep slack c op)) = fst (push_all (sink_now (fst c)) (pushes slack c [op])).
Proof.
  destruct c as [[m k] mine]. intros (W & MI). cbn [fst snd] in *. destruct op as [l|a i x|a off len ts].
  - cbn [hstep pushes fst snd app push_all]. pose proof (alloc_ok slack m l) as (G & O & A & R & U & F). destruct (alloc slack m l) as [m1 s]. cbn [fst snd] in *.
    destruct (wf_alloc mine m m1 k G U F W) as [W1 N1].
    assert (K : forall s0, safe mine m s0 -> safe (sl_at s :: mine) m1 s0).
    { intros s0 ((O0 & O1) & N0). split; [apply (grows_ok _ _ _ G); split; assumption|]. intros [E|I]; [lia|contradiction]. }
    splits; [|split; [now apply K|apply grows_read; [exact G|apply H]]|exact N1].
    split; cbn [fst snd].
    + destruct W as (Wa & Wb & Wc & Wd). cbn [fst snd] in *. unfold wf. cbn [fst snd]. rewrite U, F. splits; try assumption; (eapply Forall_impl; [|eassumption]; cbv beta; intros; now apply K).
    + intros b [<-|I]; [apply O|]. eapply grows_mine; eauto.
  - unfold hstep. cbn [fst pushes app push_all]. destruct (existsb (Nat.eqb a) mine && (i <? length (nth a (m_bytes m) []))%nat) eqn:C; [|splits; [split; assumption|auto|reflexivity]].
    apply andb_prop in C as [C1 C2]. apply existsb_in in C1. assert (C3 : (i < length (nth a (m_bytes m) []))%nat) by lia.
    set (m1 := set_bytes m (set_nth a (set_nth i x (nth a (m_bytes m) [])) (m_bytes m))). cbn [fst snd].
    assert (K : forall s, safe mine m s -> safe mine m1 s /\ sl_read m1 s = sl_read m s) by (intros s Hs; exact (store_read mine m a i x s C1 (MI a C1) C3 Hs)).
    destruct W as (Wa & Wb & Wc & Wd). cbn [fst snd] in *. splits; [|exact K|].
    + split; cbn [fst snd].
      * unfold wf. cbn [fst snd]. splits; try assumption; (eapply Forall_impl; [|eassumption]; cbv beta; intros; now apply K).
      * intros b I. cbn. rewrite set_nth_length by auto. auto.
    + unfold sink_now, list_now, frags_now. cbn [fst snd]. f_equal; apply map_ext_in; intros y Y.
      * rewrite Forall_forall in Wc. specialize (Wc y Y). rewrite !unit_read. f_equal. now apply K.
      * rewrite Forall_forall in Wd. specialize (Wd y Y). unfold frag_now. rewrite !unit_read. do 2 f_equal. now apply K.
  - unfold hstep. cbn [fst snd pushes app]. destruct (existsb (Nat.eqb a) mine && (off + len <=? length (nth a (m_bytes m) []))%nat) eqn:C; [|splits; [split; assumption|auto|reflexivity]].
    set (buf := mkSl a off len (length (nth a (m_bytes m) []) - off)). pose proof (push_ok slack mine (m, k) buf ts W MI) as (W1 & G1 & N1). cbn [fst snd app push_all] in *.
    change (firstn len (skipn off (nth a (m_bytes m) []))) with (sl_read m buf). rewrite <- N1. destruct (h_push slack (m, k) buf ts) as [st1 o]. cbn [fst snd] in *. splits; [|intros s Hs; split; [eapply grows_safe; eauto|apply grows_read; [exact G1|apply Hs]]|reflexivity].
    split; cbn [fst snd]; [exact W1|eapply grows_mine; eauto].
Qed.
Lemma pushes_cons slack c op ops : pushes slack c (op :: ops) = pushes slack c [op] ++ pushes slack (hstep slack c op) ops.
Proof. cbn [pushes]. now rewrite app_nil_r. Qed.
Lemma run_ok slack ops : forall c, fine c ->
  fine (hrun slack c ops) /\
  (forall s, safe (snd c) (fst (fst c)) s -> safe (snd (hrun slack c ops)) (fst (fst (hrun slack c ops))) s /\ sl_read (fst (fst (hrun slack c ops))) s = sl_read (fst (fst c)) s) /\
  sink_now (fst (hrun slack c ops)) = fst (push_all (sink_now (fst c)) (pushes slack c ops)).
Proof.
  induction ops as [|op ops IH]; intros c F; [splits; auto|]. destruct (step_ok slack c op F) as (F1 & K1 & N1). destruct (IH _ F1) as (F2 & K2 & N2).
  change (hrun slack c (op :: ops)) with (hrun slack (hstep slack c op) ops). splits; [exact F2| |].
  - intros s Hs. destruct (K1 s Hs) as [A1 B1]. destruct (K2 s A1) as [A2 B2]. split; [exact A2|congruence].
  - rewrite pushes_cons, push_all_app, <- N1. exact N2.
Qed.
Lemma run_app slack c a b : hrun slack c (a ++ b) = hrun slack (hrun slack c a) b.
Proof. apply fold_left_app. Qed.
Lemma live_safe c u : fine c -> In u (firstn (snd (k_units (snd (fst c)))) (nth (fst (k_units (snd (fst c)))) (m_units (fst (fst c))) [])) -> safe (snd c) (fst (fst c)) (hu_data u).
Proof. intros ((_ & _ & W & _) & _) I. rewrite Forall_forall in W. exact (W u I). Qed.

(* ---- what happens to a list of units kept by the caller ---- *)
Definition stable (slack : nat -> nat) (P : hstate -> Prop) : Prop :=
  (forall st u, P st -> P (add_unit slack st u)) /\
  (forall m k b f fs d, P (m, k) -> P (mkMem b (m_units m) f, mkHS (k_units k) fs d)).
Lemma stable_don slack P st d : stable slack P -> P st -> P (set_don st d).
Proof. intros (_ & B) H. destruct st as [[b u f] k]. exact (B _ k b f (k_frags k) d H). Qed.
Lemma stap_stable slack P ts : stable slack P -> forall fuel st buf, P st -> P (fst (h_stap_loop slack fuel st buf ts)).
Proof.
  intros C. induction fuel as [|fuel IH]; intros st buf H; cbn [h_stap_loop].
  - destruct (sl_len buf <? 2)%nat; exact H.
  - destruct (sl_len buf <? 2)%nat; [exact H|]. destruct (sl_uint16 (fst st) buf); try exact H. destruct (_ <? _); [exact H|].
    destruct (sl_index (fst st) buf 2); try exact H. destruct (sl_sub buf 3 _); try exact H. destruct (sl_from buf _); try exact H.
    apply IH. apply (stable_don slack); [exact C|]. apply (proj1 C). exact H.
Qed.
Lemma mtap_stable slack P wide ts : stable slack P -> forall fuel st buf, P st -> P (fst (h_mtap_loop slack fuel wide st buf ts)).
Proof.
  intros C. induction fuel as [|fuel IH]; intros st buf H; cbn [h_mtap_loop].
  - destruct (_ <? _); exact H.
  - destruct (_ <? _); [exact H|]. destruct (sl_uint16 (fst st) buf); try exact H. destruct (sl_index (fst st) buf 2); try exact H.
    destruct (sl_index (fst st) buf 3); try exact H. destruct (sl_index (fst st) buf 4); try exact H. destruct (if wide then sl_index (fst st) buf 5 else Ok 0); try exact H.
    destruct (_ <? _); [exact H|]. destruct (sl_index (fst st) buf _); try exact H. destruct (sl_sub buf _ _); try exact H. destruct (sl_from buf _); try exact H.
    apply IH. apply (stable_don slack); [exact C|]. apply (proj1 C). exact H.
Qed.
Lemma fragment_stable slack P ind hdr don ts d : stable slack P -> forall st, P st -> P (fst (h_add_fragment slack st ind hdr don ts d, tt)).
Proof.
  intros (A & B) [m k] H. unfold h_add_fragment. destruct (append_to zero_frag slack (m_frags m) _ _) as [arrs fs]. destruct (negb (Z.land hdr 64 =? 0)).
  - unfold alloc. cbn [fst snd]. apply A. exact (B m k _ _ fs (k_don k) H).
  - exact (B m k _ _ fs (k_don k) H).
Qed.
Lemma parse_nal_stable slack P buf ts st : stable slack P -> P (cleared st) -> P (fst (h_parse_nal slack st buf ts)).
Proof.
  intros C H. unfold h_parse_nal. fold (cleared st). cbv zeta. revert H. generalize (cleared st). clear st. intros st H.
  destruct (sl_len buf <? 1)%nat; [exact H|]. destruct (sl_index (fst st) buf 0) as [b0| | |]; try exact H. destruct (sl_from buf 1) as [rest| | |]; try exact H.
  assert (ST : forall b, P (fst (h_parse_stap slack st b rest ts))).
  { intros b. unfold h_parse_stap. destruct b; [|now apply stap_stable]. destruct (_ <? _)%nat; [exact H|]. destruct (sl_uint16 (fst st) rest); try exact H. destruct (sl_from rest 2); try exact H. apply stap_stable; [exact C|]. now apply (stable_don slack). }
  assert (MT : forall b, P (fst (h_parse_mtap slack st b rest ts))).
  { intros b. unfold h_parse_mtap. destruct (_ <? _)%nat; [exact H|]. destruct (sl_uint16 (fst st) rest); try exact H. destruct (sl_from rest 2); try exact H. apply mtap_stable; [exact C|]. now apply (stable_don slack). }
  destruct (_ =? 24); [apply ST|]. destruct (_ =? 25); [apply ST|]. destruct (_ =? 26); [apply MT|]. destruct (_ =? 27); [apply MT|].
  destruct (_ =? 28); [|destruct (_ =? 29)].
  - destruct (_ <? _)%nat; [exact H|]. destruct (sl_index (fst st) buf 1); try exact H. destruct (sl_from buf 2); try exact H. now apply (fragment_stable slack P _ _ _ _ _ C).
  - destruct (_ <? _)%nat; [exact H|]. destruct (sl_index (fst st) buf 1); try exact H. destruct (sl_from buf 2); try exact H. destruct (sl_from buf 4); try exact H.
    destruct (sl_uint16 (fst st) _); try exact H. now apply (fragment_stable slack P _ _ _ _ _ C).
  - cbn [fst]. apply (stable_don slack); [exact C|]. apply (proj1 C). exact H.
Qed.

(* the array [a] holds what was written over the units [old] *)
Definition written (a : nat) (old : list hunit) (st : hstate) : Prop :=
  let new := elems (m_units (fst st)) (k_units (snd st)) in
  (a < length (m_units (fst st)))%nat /\ fits (m_units (fst st)) (k_units (snd st)) /\
  nth a (m_units (fst st)) [] = firstn (length old) (new ++ skipn (length new) old) /\
  (fst (k_units (snd st)) = a \/ (length old <= length new)%nat).
Lemma elems_length {A} (arrs : list (list A)) s : fits arrs s -> length (elems arrs s) = snd s.
Proof. intros H. unfold elems. rewrite firstn_length. unfold fits in H. lia. Qed.
Lemma overlay {A} (new old : list A) x : (length new < length old)%nat ->
  set_nth (length new) x (firstn (length old) (new ++ skipn (length new) old)) = firstn (length old) ((new ++ [x]) ++ skipn (length (new ++ [x])) old).
Proof.
  intros H. rewrite !firstn_all2; [|rewrite !app_length, skipn_length; cbn; lia|rewrite app_length, skipn_length; lia].
  unfold set_nth. rewrite firstn_app, firstn_all, Nat.sub_diag. cbn [firstn]. rewrite app_nil_r, <- app_assoc. f_equal. cbn [app]. f_equal.
  rewrite skipn_app. rewrite skipn_all2 by lia. cbn [app]. rewrite L_base.skipn_skipn, app_length. cbn [length]. f_equal. lia.
Qed.
Lemma overlay_full {A} (new old : list A) x : (length old <= length new)%nat ->
  firstn (length old) (new ++ skipn (length new) old) = firstn (length old) ((new ++ [x]) ++ skipn (length (new ++ [x])) old).
Proof.
  intros H. rewrite (skipn_all2 old) by lia. rewrite (skipn_all2 old) by (rewrite app_length; lia). rewrite !app_nil_r, firstn_app.
  replace (length old - length new)%nat with 0%nat by lia. cbn [firstn]. now rewrite app_nil_r.
Qed.
Lemma written_stable slack a old : stable slack (written a old).
Proof.
  split; [|intros m k b f fs d H; exact H].
  intros [m k] u (A & F & E & W). cbv zeta in *. cbn [fst snd] in *. pose proof (append_ok zero_unit slack (m_units m) (k_units k) u F) as (P & Q).
  pose proof (elems_length _ _ F) as L. unfold add_unit. unfold append_to in *. destruct (k_units k) as [j n]. unfold fits in F. cbn [fst snd] in *.
  destruct (n <? length (nth j (m_units m) []))%nat eqn:C; unfold written; cbn [fst snd set_units m_units k_units] in *; cbv zeta; rewrite Q.
  - assert (Lj : (j < length (m_units m))%nat) by (destruct (Nat.lt_ge_cases j (length (m_units m))); [assumption|]; rewrite nth_overflow in C by assumption; cbn in C; lia).
    splits; [rewrite set_nth_length by lia; lia|exact P| |].
    + destruct (Nat.eq_dec j a) as [->|D].
      * rewrite nth_set_same by lia. rewrite E. rewrite E, firstn_length, app_length, skipn_length, L in C.
        assert (n < length old)%nat by lia. rewrite <- overlay by lia. now rewrite L.
      * rewrite nth_set_other by assumption. rewrite E. destruct W as [W|W]; [congruence|]. now apply overlay_full.
    + rewrite app_length. cbn [length]. destruct W; [now left|right; lia].
  - splits; [rewrite app_length; cbn; lia|exact P| |].
    + rewrite app_nth1 by lia. rewrite E. destruct (Nat.le_gt_cases (length old) (length (elems (m_units m) (j, n)))) as [G|G].
      * now apply overlay_full.
      * exfalso. destruct W as [->|W]; [|lia]. rewrite E, firstn_length, app_length, skipn_length in C. lia.
    + right. rewrite app_length. cbn [length]. destruct W as [->|W]; [|lia]. rewrite E, firstn_length, app_length, skipn_length in C. lia.
Qed.
Lemma kept_list slack st buf ts a n : fits (m_units (fst st)) (k_units (snd st)) -> k_units (snd st) = (a, n) -> (a < length (m_units (fst st)))%nat ->
  let st' := fst (h_parse_nal slack st buf ts) in
  let new := elems (m_units (fst st')) (k_units (snd st')) in
  elems (m_units (fst st')) (a, n) = firstn n (new ++ skipn (length new) (elems (m_units (fst st)) (a, n))).
Proof.
  intros F K A. cbv zeta. rewrite K in F. unfold fits in F. cbn [fst snd] in F.
  assert (W : written a (nth a (m_units (fst st)) []) (fst (h_parse_nal slack st buf ts))).
  { apply parse_nal_stable; [apply written_stable|]. unfold written, cleared. cbn [fst snd k_units]. rewrite K. cbn [fst snd]. splits; [exact A|unfold fits; cbn; lia| |now left].
    cbn [elems fst snd firstn app length skipn]. now rewrite firstn_all. }
  destruct W as (_ & _ & E & _). cbv zeta in E. set (new := elems (m_units (fst (fst (h_parse_nal slack st buf ts)))) (k_units (snd (fst (h_parse_nal slack st buf ts))))) in *.
  unfold elems at 1. cbn [fst snd]. rewrite E. rewrite firstn_firstn. replace (Nat.min n (length (nth a (m_units (fst st)) []))) with n by lia.
  rewrite !firstn_app. f_equal. unfold elems. cbn [fst snd]. rewrite skipn_firstn_comm, firstn_firstn. f_equal. lia.
Qed.

(* ---- where the units of a packet lie ---- *)
Definition after (u v : hunit) : Prop := sl_at (hu_data v) = sl_at (hu_data u) /\ (sl_off (hu_data u) + sl_len (hu_data u) + 3 <= sl_off (hu_data v))%nat.
Definition units_of (st : hstate) : list hunit := elems (m_units (fst st)) (k_units (snd st)).
Definition frags_of (st : hstate) : list hfrag := elems (m_frags (fst st)) (k_frags (snd st)).
Definition laid (st : hstate) : Prop :=
  ForallOrdPairs after (units_of st) /\ (forall u f, In u (units_of st) -> In f (frags_of st) -> sl_at (hu_data (hf_unit f)) <> sl_at (hu_data u)).
Lemma pairs_snoc {A} (R : A -> A -> Prop) l x : ForallOrdPairs R l -> Forall (fun u => R u x) l -> ForallOrdPairs R (l ++ [x]).
Proof.
  induction l as [|y l IH]; intros P F; cbn [app]; [constructor; constructor|]. inversion P; subst. inversion F; subst. constructor; [|auto].
  apply Forall_app. split; [assumption|]. constructor; [assumption|constructor].
Qed.
Definition upto (b lim : nat) (st : hstate) : Prop :=
  fits (m_units (fst st)) (k_units (snd st)) /\ ForallOrdPairs after (units_of st) /\
  Forall (fun u => sl_at (hu_data u) = b /\ (sl_off (hu_data u) + sl_len (hu_data u) <= lim)%nat) (units_of st).
Lemma upto_add slack st u lim' b lim don : upto b lim st -> sl_at (hu_data u) = b -> (lim + 3 <= sl_off (hu_data u))%nat -> (sl_off (hu_data u) + sl_len (hu_data u) <= lim')%nat ->
  let st' := set_don (add_unit slack st u) don in upto b lim' st' /\ frags_of st' = frags_of st /\ fst (fst st', tt) = fst st'.
Proof.
  destruct st as [m k]. intros (F & P & U) A B C. cbv zeta. pose proof (append_ok zero_unit slack (m_units m) (k_units k) u F) as (P1 & Q1). unfold upto, units_of, frags_of, add_unit, set_don in *. cbn [fst snd] in *.
  destruct (append_to zero_unit slack (m_units m) (k_units k) u) as [arrs s]. cbn [fst snd set_units m_units m_frags k_units k_frags] in *. rewrite Q1. splits; try reflexivity; [exact P1| |].
  - apply pairs_snoc; [exact P|]. eapply Forall_impl; [|exact U]. cbv beta. intros v (V1 & V2). split; [congruence|lia].
  - apply Forall_app. split; [eapply Forall_impl; [|exact U]; cbv beta; intros v (V1 & V2); split; [exact V1|lia]|]. constructor; [|constructor]. split; [exact A|lia].
Qed.
Lemma sub_place s lo hi d : sl_sub s lo hi = Ok d -> sl_at d = sl_at s /\ sl_off d = (sl_off s + lo)%nat /\ (sl_off d + sl_len d = sl_off s + hi)%nat.
Proof. unfold sl_sub. destruct ((lo <=? hi)%nat && (hi <=? sl_cap s)%nat) eqn:C; [|discriminate]. intros E. injection E as <-. cbn. splits; try reflexivity. lia. Qed.
Lemma from_place s lo d : sl_from s lo = Ok d -> sl_at d = sl_at s /\ sl_off d = (sl_off s + lo)%nat.
Proof. unfold sl_from. destruct (lo <=? sl_len s)%nat; [|discriminate]. intros E. apply sub_place in E. tauto. Qed.
Definition placed (b : nat) (fs : list hfrag) (st : hstate) : Prop :=
  ForallOrdPairs after (units_of st) /\ Forall (fun u => sl_at (hu_data u) = b) (units_of st) /\ frags_of st = fs.
Lemma upto_placed b lim st : upto b lim st -> placed b (frags_of st) st.
Proof. intros (_ & P & U). unfold placed. splits; [exact P| |reflexivity]. eapply Forall_impl; [|exact U]. cbv beta. tauto. Qed.
Lemma stap_placed slack ts b : forall fuel st buf, sl_at buf = b -> upto b (sl_off buf) st -> placed b (frags_of st) (fst (h_stap_loop slack fuel st buf ts)).
Proof.
  induction fuel as [|fuel IH]; intros st buf B U; pose proof (upto_placed _ _ _ U) as H; cbn [h_stap_loop].
  - destruct (sl_len buf <? 2)%nat; exact H.
  - destruct (sl_len buf <? 2)%nat; [exact H|]. destruct (sl_uint16 (fst st) buf); try exact H. destruct (_ <? _); [exact H|].
    destruct (sl_index (fst st) buf 2); try exact H. destruct (sl_sub buf 3 _) eqn:S; try exact H. destruct (sl_from buf _) eqn:T; try exact H.
    apply sub_place in S as (S1 & S2 & S3). apply from_place in T as (T1 & T2).
    edestruct (upto_add slack st) as (U2 & F2 & _); [exact U| | | |rewrite <- F2; apply IH; [|exact U2]]; cbn [hu_data]; try congruence; lia.
Qed.
Lemma mtap_placed slack wide ts b : forall fuel st buf, sl_at buf = b -> upto b (sl_off buf) st -> placed b (frags_of st) (fst (h_mtap_loop slack fuel wide st buf ts)).
Proof.
  induction fuel as [|fuel IH]; intros st buf B U; pose proof (upto_placed _ _ _ U) as H; cbn [h_mtap_loop].
  - destruct (_ <? _); exact H.
  - destruct (_ <? _); [exact H|]. destruct (sl_uint16 (fst st) buf); try exact H. destruct (sl_index (fst st) buf 2); try exact H.
    destruct (sl_index (fst st) buf 3); try exact H. destruct (sl_index (fst st) buf 4); try exact H. destruct (if wide then sl_index (fst st) buf 5 else Ok 0); try exact H.
    destruct (_ <? _); [exact H|]. destruct (sl_index (fst st) buf _); try exact H. destruct (sl_sub buf _ _) eqn:S; try exact H. destruct (sl_from buf _) eqn:T; try exact H.
    apply sub_place in S as (S1 & S2 & S3). apply from_place in T as (T1 & T2).
    edestruct (upto_add slack st) as (U2 & F2 & _); [exact U| | | |rewrite <- F2; apply IH; [|exact U2]]; cbn [hu_data]; try congruence; destruct wide; lia.
Qed.

Lemma first_placed slack st u don : fits (m_units (fst st)) (k_units (snd st)) -> units_of st = [] -> placed (sl_at (hu_data u)) (frags_of st) (set_don (add_unit slack st u) don).
Proof.
  destruct st as [m k]. intros F U. cbn [fst snd] in *. pose proof (append_ok zero_unit slack (m_units m) (k_units k) u F) as (P1 & Q1). unfold placed, units_of, frags_of, add_unit, set_don in *. cbn [fst snd] in *.
  destruct (append_to zero_unit slack (m_units m) (k_units k) u) as [arrs s]. cbn [fst snd set_units m_units m_frags k_units k_frags] in *. rewrite Q1, U. cbn [app]. splits; repeat constructor.
Qed.
Definition lands (base b : nat) (fs : list hfrag) (st : hstate) : Prop :=
  laid st /\ Forall (fun u => (base <= sl_at (hu_data u))%nat) (units_of st) /\ (forall f, In f (frags_of st) -> In f fs \/ sl_at (hu_data (hf_unit f)) = b).
Lemma placed_lands base b fs st : placed b fs st -> (base <= b)%nat -> Forall (fun f => sl_at (hu_data (hf_unit f)) <> b) fs -> lands base b fs st.
Proof.
  intros (P & U & F) L N. rewrite Forall_forall in U, N. unfold lands, laid. rewrite F. splits.
  - exact P.
  - intros u f Iu If. rewrite (U u Iu). now apply N.
  - apply Forall_forall. intros u I. rewrite (U u I). exact L.
  - intros f I. now left.
Qed.
Lemma fragment_lands slack mine base b m k ind hdr don ts d : wf mine (m, k) -> safe mine m d -> sl_at d = b -> (base <= length (m_bytes m))%nat -> units_of (m, k) = [] ->
  lands base b (frags_of (m, k)) (h_add_fragment slack (m, k) ind hdr don ts d).
Proof.
  intros (A & B & C & D) S E L U. cbn [fst snd] in *. unfold h_add_fragment.
  set (fs0 := if negb (Z.land hdr 128 =? 0) then (fst (k_frags k), 0%nat) else k_frags k).
  assert (F0 : fits (m_frags m) fs0) by (unfold fs0; destruct (negb _); [unfold fits; cbn; lia|exact B]).
  assert (I0 : forall f, In f (elems (m_frags m) fs0) -> In f (elems (m_frags m) (k_frags k))) by (unfold fs0; destruct (negb _); [intros f []|auto]).
  pose proof (append_ok zero_frag slack (m_frags m) fs0 (mkHF (mkHU ind don ts d) hdr) F0) as (P & Q).
  destruct (append_to zero_frag slack (m_frags m) fs0 (mkHF (mkHU ind don ts d) hdr)) as [arrs fs]. cbn [fst snd] in *.
  assert (I1 : forall f, In f (elems arrs fs) -> In f (elems (m_frags m) (k_frags k)) \/ sl_at (hu_data (hf_unit f)) = b).
  { intros f I. rewrite Q in I. apply in_app_or in I as [I|[<-|[]]]; [left; auto|right; exact E]. }
  destruct (negb (Z.land hdr 64 =? 0)).
  - unfold alloc. cbn [set_frags m_bytes]. set (data := flat_map _ _). set (bs' := m_bytes m ++ _). set (s := mkSl _ _ _ _). set (m2 := set_bytes (set_frags m arrs) bs'). set (k2 := mkHS (k_units k) fs (k_don k)).
    pose proof (append_ok zero_unit slack (m_units m2) (k_units k2) (mkHU ind don ts s) A) as (P1 & Q1). unfold add_unit, lands, laid, units_of, frags_of in *. cbn [fst snd] in *. change (m_units m2) with (m_units m) in *. change (k_units k2) with (k_units k) in *.
    destruct (append_to zero_unit slack (m_units m) (k_units k) (mkHU ind don ts s)) as [arrs2 s2]. cbn [fst snd set_units m_units m_frags k_units k_frags m2 k2 set_bytes set_frags] in *. rewrite Q1, U. cbn [app]. splits.
    + constructor; constructor.
    + intros u f [<-|[]] If. cbn [hu_data s sl_at]. apply I1 in If as [If|If].
      * rewrite Forall_forall in D. destruct (D f If) as ((D1 & _) & _). lia.
      * destruct S as ((S1 & _) & _). lia.
    + constructor; [|constructor]. cbn. exact L.
    + exact I1.
  - unfold lands, laid, units_of, frags_of in *. cbn [fst snd set_frags m_units m_frags k_units k_frags] in *. rewrite U. splits; [constructor|intros u f []|constructor|exact I1].
Qed.
Lemma parse_nal_lands slack mine base st buf ts : wf mine st -> safe mine (fst st) buf -> (base <= sl_at buf)%nat -> (base <= length (m_bytes (fst st)))%nat ->
  Forall (fun f => sl_at (hu_data (hf_unit f)) <> sl_at buf) (frags_of st) ->
  lands base (sl_at buf) (frags_of st) (fst (h_parse_nal slack st buf ts)).
Proof.
  intros W S L1 L2 N. unfold h_parse_nal. fold (cleared st). cbv zeta. destruct (cleared_ok mine st W) as [W0 _].
  change (frags_of st) with (frags_of (cleared st)) in *. change (fst st) with (fst (cleared st)) in *. assert (U : units_of (cleared st) = []) by reflexivity. clear W. revert W0 S L2 N U. generalize (cleared st). clear st. intros st W S L2 N U.
  assert (H : lands base (sl_at buf) (frags_of st) st). { apply placed_lands; auto. unfold placed. rewrite U. splits; constructor. }
  destruct (sl_len buf <? 1)%nat; [exact H|]. destruct (sl_index (fst st) buf 0) as [b0| | |]; try exact H. pose proof (from_ok _ _ 1 (proj1 S)) as P1. destruct (sl_from buf 1) as [rest| | |] eqn:T1; try exact H.
  apply from_place in T1 as (A1 & _).
  assert (UP : forall lim, upto (sl_at buf) lim st) by (intros lim; unfold upto; rewrite U; splits; [apply W|constructor|constructor]).
  assert (UD : forall lim don, upto (sl_at buf) lim (set_don st don)) by (intros lim don; destruct st; apply UP).
  assert (FD : forall don, frags_of (set_don st don) = frags_of st) by (intros don; destruct st; reflexivity).
  assert (ST : forall b, lands base (sl_at buf) (frags_of st) (fst (h_parse_stap slack st b rest ts))).
  { intros b. unfold h_parse_stap. destruct b; [|apply placed_lands; auto; apply stap_placed; [exact A1|apply UP]]. destruct (_ <? _)%nat; [exact H|]. destruct (sl_uint16 (fst st) rest) as [don| | |]; try exact H. destruct (sl_from rest 2) eqn:T; try exact H.
    apply from_place in T as (A2 & _). apply placed_lands; auto. rewrite <- (FD don). apply stap_placed; [congruence|apply UD]. }
  assert (MT : forall b, lands base (sl_at buf) (frags_of st) (fst (h_parse_mtap slack st b rest ts))).
  { intros b. unfold h_parse_mtap. destruct (_ <? _)%nat; [exact H|]. destruct (sl_uint16 (fst st) rest) as [don| | |]; try exact H. destruct (sl_from rest 2) eqn:T; try exact H.
    apply from_place in T as (A2 & _). apply placed_lands; auto. rewrite <- (FD don). apply mtap_placed; [congruence|apply UD]. }
  destruct (_ =? 24); [apply ST|]. destruct (_ =? 25); [apply ST|]. destruct (_ =? 26); [apply MT|]. destruct (_ =? 27); [apply MT|].
  pose proof (from_ok _ _ 2 (proj1 S)) as P2. pose proof (from_ok _ _ 4 (proj1 S)) as P4.
  destruct (_ =? 28); [|destruct (_ =? 29)].
  - destruct (_ <? _)%nat; [exact H|]. destruct (sl_index (fst st) buf 1); try exact H. destruct (sl_from buf 2) as [d| | |]; try exact H. destruct P2 as (_ & O2 & A2 & _ & _). destruct st as [m k].
    apply (fragment_lands slack mine); auto. split; [exact O2|rewrite A2; apply S].
  - destruct (_ <? _)%nat; [exact H|]. destruct (sl_index (fst st) buf 1); try exact H. destruct (sl_from buf 2) as [t| | |]; try exact H. destruct (sl_from buf 4) as [d| | |]; try exact H. destruct P4 as (_ & O4 & A4 & _ & _).
    destruct (sl_uint16 (fst st) t); try exact H. destruct st as [m k]. apply (fragment_lands slack mine); auto. split; [exact O4|rewrite A4; apply S].
  - cbn [fst]. apply placed_lands; auto. rewrite <- A1. apply first_placed; [apply W|exact U].
Qed.

Lemma push_nals_lands slack mine base ts : forall ss st, wf mine st -> (forall a, In a mine -> (a < length (m_bytes (fst st)))%nat) -> Forall (safe mine (fst st)) ss -> Forall (fun s => (base <= sl_at s)%nat) ss -> NoDup (map sl_at ss) ->
  (base <= length (m_bytes (fst st)))%nat -> (forall f s, In f (frags_of st) -> In s ss -> sl_at (hu_data (hf_unit f)) <> sl_at s) -> ss <> [] ->
  laid (fst (h_push_nals slack st ss ts)) /\ Forall (fun u => (base <= sl_at (hu_data u))%nat) (units_of (fst (h_push_nals slack st ss ts))).
Proof.
  induction ss as [|s ss IH]; intros st W MI F B ND L X NE; [congruence|]. cbn [h_push_nals]. inversion F as [|? ? Fs Fr]; subst. inversion B as [|? ? Bs Br]; subst. cbn [map] in ND. inversion ND as [|? ? Ns Nr]; subst.
  assert (X0 : Forall (fun f => sl_at (hu_data (hf_unit f)) <> sl_at s) (frags_of st)) by (apply Forall_forall; intros f If; apply X; [exact If|now left]).
  pose proof (parse_nal_lands slack mine base st s ts W Fs Bs L X0) as (La & Ba & Fa). pose proof (parse_nal_ok slack mine st s ts W MI Fs) as (W1 & G1 & _).
  destruct (h_parse_nal slack st s ts) as [st1 o]. cbn [fst snd] in *. destruct o; try (split; assumption).
  destruct ss as [|s' ss]; [split; assumption|]. apply IH; auto.
  - eapply grows_mine; eauto.
  - eapply Forall_impl; [|exact Fr]. intros; eapply grows_safe; eauto.
  - pose proof (grows_len _ _ G1). lia.
  - intros f t If It. apply Fa in If as [If|If]; [apply X; [exact If|now right]|]. intros E. apply Ns. rewrite <- If, E. apply in_map. exact It.
  - discriminate.
Qed.
Lemma push_lands slack mine st buf ts : wf mine st -> (forall a, In a mine -> (a < length (m_bytes (fst st)))%nat) ->
  laid (fst (h_push slack st buf ts)) /\ Forall (fun u => (length (m_bytes (fst st)) <= sl_at (hu_data u))%nat) (units_of (fst (h_push slack st buf ts))).
Proof.
  intros W MI. unfold h_push. destruct (L_annexb.split_pieces (sl_read (fst st) buf)) as (ps & E & NE & _). rewrite E.
  pose proof (units_ok slack mine (map M_annexb.ebsp_to_raw ps) (fst st) MI) as (G & S & R & U & F & A & N). destruct (h_units slack (fst st) (map M_annexb.ebsp_to_raw ps)) as [m ss]. cbn [fst snd] in *. destruct st as [m0 k]. cbn [fst snd] in *.
  destruct (wf_alloc mine m0 m k G U F W) as [W1 _]. apply (push_nals_lands slack mine (length (m_bytes m0)) ts ss (m, k)); auto.
  - cbn. eapply grows_mine; eauto.
  - cbn. now apply grows_len.
  - intros f s If Is. rewrite Forall_forall in A. specialize (A s Is). destruct W as (_ & _ & _ & D). unfold frags_of in If. cbn [fst snd] in *. rewrite F in If. rewrite Forall_forall in D. destruct (D f If) as ((D1 & _) & _). lia.
  - intros ->. destruct ps; [congruence|discriminate R].
Qed.

Definition apart (st : hstate) (w : hunit) : Prop := In w (units_of st) \/ Forall (fun u => sl_at (hu_data u) <> sl_at (hu_data w)) (units_of st).
Lemma step_laid slack c op : fine c -> laid (fst c) -> laid (fst (hstep slack c op)) /\
  forall w, safe (snd c) (fst (fst c)) (hu_data w) -> apart (fst c) w -> apart (fst (hstep slack c op)) w.
Proof.
  destruct c as [[m k] mine]. intros (W & MI) L. cbn [fst snd] in *. destruct op as [l|a i x|a off len ts].
  - split; [exact L|auto].
  - unfold hstep. cbn [fst snd]. destruct (_ && _); split; try exact L; auto.
  - unfold hstep. cbn [fst snd]. destruct (_ && _); [|split; [exact L|auto]]. set (buf := mkSl a off len _). destruct (push_lands slack mine (m, k) buf ts W MI) as (L1 & A1). cbn [fst snd] in *. split; [exact L1|].
    intros w ((S1 & _) & _) _. right. eapply Forall_impl; [|exact A1]. cbv beta. intros u H. lia.
Qed.
Lemma run_laid slack ops : forall c, fine c -> laid (fst c) -> laid (fst (hrun slack c ops)) /\
  forall w, safe (snd c) (fst (fst c)) (hu_data w) -> apart (fst c) w -> apart (fst (hrun slack c ops)) w.
Proof.
  induction ops as [|op ops IH]; intros c F L; [split; auto|]. destruct (step_ok slack c op F) as (F1 & K1 & _). destruct (step_laid slack c op F L) as (L1 & A1). destruct (IH _ F1 L1) as (L2 & A2).
  change (hrun slack c (op :: ops)) with (hrun slack (hstep slack c op) ops). split; [exact L2|]. intros w Sw Aw. apply A2; [apply K1, Sw|now apply A1].
Qed.

(* ---- the caller appends to a unit ---- *)
Lemma append_read slack m s xs t : ok_sl m s -> ok_sl m t ->
  sl_at t <> sl_at s \/ (sl_off t + sl_len t <= sl_off s + sl_len s)%nat \/ (sl_off s + sl_len s + length xs <= sl_off t)%nat ->
  sl_read (fst (sl_append slack m s xs)) t = sl_read m t.
Proof.
  intros Os Ot H. unfold sl_append. destruct (sl_len s + length xs <=? sl_cap s)%nat eqn:C; [|apply grows_read; [apply alloc_ok|exact Ot]].
  cbn [fst]. destruct Os as (O1 & O2 & O3). destruct Ot as (T1 & T2 & T3). unfold sl_read. cbn [set_bytes m_bytes]. destruct (Nat.eq_dec (sl_at t) (sl_at s)) as [E|E].
  - rewrite E in *. rewrite nth_set_same by exact O1. set (arr := nth (sl_at s) (m_bytes m) []) in *. set (i := (sl_off s + sl_len s)%nat) in *. destruct H as [H|[H|H]]; [congruence| |].
    + rewrite skipn_app, firstn_length. replace (Nat.min i (length arr)) with i by lia. rewrite firstn_app, skipn_length, firstn_length.
      replace (sl_len t - (Nat.min i (length arr) - sl_off t))%nat with 0%nat by lia. cbn [firstn]. rewrite app_nil_r. rewrite skipn_firstn_comm, firstn_firstn. f_equal. lia.
    + rewrite skipn_app, firstn_length. replace (Nat.min i (length arr)) with i by lia. rewrite (skipn_all2 (firstn i arr)) by (rewrite firstn_length; lia). cbn [app].
      rewrite skipn_app. rewrite (skipn_all2 xs) by lia. cbn [app]. rewrite L_base.skipn_skipn. do 2 f_equal. lia.
  - rewrite nth_set_other by (auto || lia). reflexivity.
Qed.
Lemma laid_pair st u v : laid st -> In u (units_of st) -> In v (units_of st) -> v = u \/ after u v \/ after v u.
Proof. intros (P & _) U V. destruct (ForallOrdPairs_In P u v U V) as [H|[H|H]]; auto. Qed.
Lemma append_harmless slack ops1 ops2 u w xs :
  let c0 := hrun slack boot ops1 in let c := hrun slack c0 ops2 in
  In u (units_of (fst c)) -> In w (units_of (fst c0)) -> (length xs <= 3)%nat \/ length (units_of (fst c)) = 1%nat ->
  unit_now (fst (sl_append slack (fst (fst c)) (hu_data u) xs)) w = unit_now (fst (fst c)) w.
Proof.
  cbv zeta. intros U Wi X. destruct (run_ok slack ops1 boot boot_fine) as (F0 & _ & _). assert (L0 : laid (fst boot)) by (split; [constructor|intros ? ? []]).
  destruct (run_laid slack ops1 boot boot_fine L0) as (L1 & _). destruct (run_ok slack ops2 _ F0) as (F2 & K2 & _). destruct (run_laid slack ops2 _ F0 L1) as (L2 & A2).
  pose proof (live_safe _ w F0 Wi) as Sw. destruct (K2 _ Sw) as [Sw2 _]. specialize (A2 w Sw (or_introl Wi)). pose proof (live_safe _ u F2 U) as Su.
  set (c := hrun slack (hrun slack boot ops1) ops2) in *. rewrite !unit_read. f_equal. apply append_read; [apply Su|apply Sw2|].
  destruct A2 as [A2|A2].
  - destruct (laid_pair _ u w L2 U A2) as [->|[H|H]]; [right; left; lia| |].
    + destruct X as [X|X]; [destruct H; lia|]. destruct (units_of (fst c)) as [|y [|z l]]; try discriminate X. destruct U as [<-|[]], A2 as [<-|[]]. right. left. lia.
    + destruct H as (_ & H). right. left. lia.
  - left. rewrite Forall_forall in A2. intros E. now apply (A2 u U).
Qed.
Lemma append_sink slack ops u xs : let c := hrun slack boot ops in
  In u (units_of (fst c)) -> (length xs <= 3)%nat \/ length (units_of (fst c)) = 1%nat ->
  sink_now (fst (sl_append slack (fst (fst c)) (hu_data u) xs), snd (fst c)) = sink_now (fst c).
Proof.
  cbv zeta. intros U X. destruct (run_ok slack ops boot boot_fine) as (F0 & _ & _). assert (L0 : laid (fst boot)) by (split; [constructor|intros ? ? []]).
  destruct (run_laid slack ops boot boot_fine L0) as (L1 & _). pose proof (live_safe _ u F0 U) as Su.
  assert (MU : forall m s l, m_units (fst (sl_append slack m s l)) = m_units m /\ m_frags (fst (sl_append slack m s l)) = m_frags m) by (intros; unfold sl_append; destruct (_ <=? _)%nat; split; reflexivity).
  unfold sink_now, list_now, frags_now. cbn [fst snd]. destruct (MU (fst (fst (hrun slack boot ops))) (hu_data u) xs) as [-> ->]. f_equal; apply map_ext_in; intros y Y.
  - exact (append_harmless slack ops [] u y xs U Y X).
  - destruct F0 as ((_ & _ & _ & D) & _). rewrite Forall_forall in D. specialize (D y Y). unfold frag_now. rewrite !unit_read. do 2 f_equal. apply append_read; [apply Su|apply D|]. left. exact (proj2 L1 u y U Y).
Qed.
Lemma kept_push slack ops a off len ts : let c := hrun slack boot ops in let c' := hstep slack c (Pushed a off len ts) in
  In a (snd c) -> (off + len <= length (nth a (m_bytes (fst (fst c))) []))%nat -> ~ contains [0; 0; 1] (firstn len (skipn off (nth a (m_bytes (fst (fst c))) []))) ->
  let old := s_units (sink_now (fst c)) in let new := s_units (sink_now (fst c')) in
  list_now (fst (fst c')) (k_units (snd (fst c))) = firstn (length old) (new ++ skipn (length new) old).
Proof.
  cbv zeta. intros I L N. destruct (run_ok slack ops boot boot_fine) as (F0 & _ & _). destruct (step_ok slack _ (Pushed a off len ts) F0) as (_ & K1 & _). set (c := hrun slack boot ops) in *.
  unfold hstep in *. destruct c as [[m k] mine] eqn:Ec. cbn [fst snd] in *. replace (existsb (Nat.eqb a) mine) with true in * by (symmetry; apply existsb_exists; exists a; split; [exact I|apply Nat.eqb_refl]).
  replace (off + len <=? length (nth a (m_bytes m) []))%nat with true in * by lia. cbn [andb fst snd] in *. set (buf := mkSl a off len _) in *.
  destruct F0 as (W & MI). cbn [fst snd] in *.
  destruct (split_pieces (sl_read m buf)) as (ps & E & _ & _ & S). specialize (S N). unfold h_push in *. cbn [fst snd] in *. rewrite E, S in *. cbn [map h_units] in *.
  pose proof (alloc_ok slack m (ebsp_to_raw (sl_read m buf))) as (G & O & A & R & U & F). destruct (alloc slack m (ebsp_to_raw (sl_read m buf))) as [m1 s]. cbn [fst snd h_push_nals] in *.
  assert (H : forall n, k_units k = (fst (k_units k), n) -> elems (m_units (fst (fst (h_parse_nal slack (m1, k) s ts)))) (k_units k) =
    firstn n (units_of (fst (h_parse_nal slack (m1, k) s ts)) ++ skipn (length (units_of (fst (h_parse_nal slack (m1, k) s ts)))) (elems (m_units m) (k_units k)))).
  { intros n Kn. destruct W as (Wa & _). cbn [fst snd] in *. destruct (Nat.eq_dec n 0) as [->|Nz]; [rewrite Kn; reflexivity|].
    rewrite Kn. rewrite <- U. apply kept_list; cbn [fst snd]; rewrite ?U; auto. unfold fits in Wa. rewrite Kn in Wa. cbn [fst snd] in Wa. rewrite <- U.
    destruct (Nat.lt_ge_cases (fst (k_units k)) (length (m_units m))); [now rewrite U|]. rewrite nth_overflow in Wa by assumption. cbn in Wa. lia. }
  specialize (H (snd (k_units k)) ltac:(destruct (k_units k); reflexivity)).
  replace (fst match h_parse_nal slack (m1, k) s ts with (st, Ok _) => (st, Ok tt) | (st, Err _ as o) | (st, Panic as o) | (st, Fuel as o) => (st, o) end) with (fst (h_parse_nal slack (m1, k) s ts)) in * by (destruct (h_parse_nal slack (m1, k) s ts) as [st o]; destruct o; reflexivity).
  set (st1 := fst (h_parse_nal slack (m1, k) s ts)) in *. unfold list_now at 1. change (firstn (snd (k_units k)) (nth (fst (k_units k)) (m_units (fst st1)) [])) with (elems (m_units (fst st1)) (k_units k)). rewrite H.
  rewrite <- firstn_map, map_app, <- skipn_map. unfold sink_now. cbn [s_units]. unfold list_now. rewrite !map_length. change (firstn (snd (k_units (snd st1))) (nth (fst (k_units (snd st1))) (m_units (fst st1)) [])) with (units_of st1).
  change (firstn (snd (k_units (snd (m, k)))) (nth (fst (k_units (snd (m, k)))) (m_units (fst (m, k))) [])) with (elems (m_units m) (k_units k)). cbn [fst snd]; fold (elems (m_units m) (k_units k)). pose proof (elems_length _ _ (proj1 W)) as EL. cbn [fst snd] in EL. rewrite EL. do 3 f_equal.
  apply map_ext_in. intros u Iu. rewrite !unit_read. f_equal. apply K1. destruct W as (_ & _ & Wc & _). rewrite Forall_forall in Wc. exact (Wc u Iu).
Qed.
Lemma append_mine slack ops u xs : let c := hrun slack boot ops in In u (units_of (fst c)) ->
  forall a, In a (snd c) -> nth a (m_bytes (fst (sl_append slack (fst (fst c)) (hu_data u) xs))) [] = nth a (m_bytes (fst (fst c))) [].
Proof.
  cbv zeta. intros U a I. destruct (run_ok slack ops boot boot_fine) as (F0 & _ & _). destruct (live_safe _ u F0 U) as ((Su & _) & Ns). destruct F0 as (_ & MI). unfold sl_append. destruct (_ <=? _)%nat.
  - cbn [fst set_bytes m_bytes]. apply nth_set_other; [exact Su|]. congruence.
  - apply grows_nth; [apply alloc_ok|]. now apply MI.
Qed.
Lemma append_own slack ops u xs : let c := hrun slack boot ops in In u (units_of (fst c)) ->
  let r := sl_append slack (fst (fst c)) (hu_data u) xs in sl_read (fst r) (snd r) = sl_read (fst (fst c)) (hu_data u) ++ xs.
Proof.
  cbv zeta. intros U. destruct (run_ok slack ops boot boot_fine) as (F0 & _ & _). destruct (live_safe _ u F0 U) as ((O1 & O2 & O3) & _). unfold sl_append.
  set (m := fst (fst (hrun slack boot ops))) in *. set (s := hu_data u) in *. destruct (sl_len s + length xs <=? sl_cap s)%nat eqn:C; [|apply alloc_ok].
  cbn [fst snd]. unfold sl_read. cbn [sl_at sl_off sl_len set_bytes m_bytes]. rewrite nth_set_same by exact O1. set (arr := nth (sl_at s) (m_bytes m) []) in *.
  rewrite skipn_app, firstn_length. replace (sl_off s - Nat.min (sl_off s + sl_len s) (length arr))%nat with 0%nat by lia. cbn [skipn].
  rewrite skipn_firstn_comm. replace (sl_off s + sl_len s - sl_off s)%nat with (sl_len s) by lia.
  rewrite firstn_app, firstn_length, skipn_length. replace (sl_len s + length xs - Nat.min (sl_len s) (length arr - sl_off s))%nat with (length xs) by lia.
  rewrite firstn_firstn. replace (Nat.min (sl_len s + length xs) (sl_len s)) with (sl_len s) by lia. f_equal. rewrite firstn_app, firstn_all, Nat.sub_diag. apply app_nil_r.
Qed.
