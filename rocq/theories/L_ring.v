(* Lemmas about a Playlist rendered while segments are added. *)
From Coq Require Import String.
From Verif Require Import Base GoStrings S_hls S_ring M_hls M_ring L_base L_hls.
From Coq Require Import ZifyBool ZifyNat.

Lemma forwards_le clock : forwards clock -> forall a b, (a <= b)%nat -> (clock a <= clock b)%nat.
Proof. intros F a b H. induction H as [|b H IH]; [lia|]. specialize (F b). lia. Qed.

Lemma slot_of pl i s : nth_error (pl_segs pl) (Z.to_nat i) = Some s -> slot pl i = s.
Proof. intros E. unfold slot. apply nth_error_nth. exact E. Qed.

Lemma upd_upd {A} (l : list A) i x y : upd (upd l i x) i y = upd l i y.
Proof. revert i. induction l as [|a l IH]; intros [|i]; cbn; congruence. Qed.

Lemma nth_upd {A} (l : list A) i x d : (i < length l)%nat -> nth i (upd l i x) d = x.
Proof. intros H. apply nth_error_nth. apply upd_nth_same. exact H. Qed.

(* the six steps of a call make the call *)
Lemma call_steps pl d l pl' p : add_segment pl d l = Ok pl' -> -1 <= pl_last pl < zlen (pl_segs pl) ->
  exists p', fold_left wstep (ops (d, l)) (mkWst pl p) = mkWst pl' p' /\ -1 <= pl_last pl' < zlen (pl_segs pl').
Proof.
  intros E H. unfold add_segment in E.
  set (q := if pl_last pl >=? 0 then i64 (seg_pos (slot pl (pl_last pl)) + seg_len (slot pl (pl_last pl))) else 0).
  assert (P : (if pl_last pl >=? 0 then let! s := index (pl_segs pl) (Z.to_nat (pl_last pl)) in Ok (i64 (seg_pos s + seg_len s)) else Ok 0) = Ok q).
  { subst q. destruct (pl_last pl >=? 0) eqn:G; [|reflexivity]. unfold index.
    destruct (nth_error (pl_segs pl) (Z.to_nat (pl_last pl))) as [s|] eqn:N.
    - cbn [bind]. rewrite (slot_of _ _ _ N). reflexivity.
    - apply nth_error_None in N. unfold zlen in H. lia. }
  rewrite P in E. cbn [bind] in E. destruct (Z.eqb_spec (zlen (pl_segs pl)) 0) as [Z0|NZ]; [discriminate|].
  set (last := (pl_last pl + 1) mod zlen (pl_segs pl)) in *.
  assert (HL : 0 <= last < zlen (pl_segs pl)) by (apply Z.mod_pos_bound; unfold zlen in *; lia).
  assert (HN : (Z.to_nat last < length (pl_segs pl))%nat) by (unfold zlen in HL; lia).
  exists q. cbn [ops fold_left fst snd]. unfold wstep.
  cbn [w_pl w_pos pl_version pl_uri pl_segs pl_first pl_last set_slot slot]. fold q. fold last.
  unfold slot. cbn [set_slot pl_version pl_uri pl_segs pl_first pl_last].
  rewrite ?upd_upd, ?nth_upd by (rewrite ?upd_length; exact HN). cbn [seg_dur seg_pos seg_len]. rewrite ?upd_upd.
  injection E as <-. cbn [pl_last pl_segs]. split; [reflexivity|]. unfold zlen. rewrite upd_length. unfold zlen in HL. lia.
Qed.

Lemma calls_steps h : forall pl pl' p, add_all pl h = Ok pl' -> -1 <= pl_last pl < zlen (pl_segs pl) ->
  exists p', fold_left wstep (flat_map ops h) (mkWst pl p) = mkWst pl' p'.
Proof.
  induction h as [|[d l] h IH]; intros pl pl' p E H.
  - cbn in E. injection E as <-. exists p. reflexivity.
  - cbn [add_all] in E. destruct (add_segment pl d l) as [pl1| | |] eqn:A; try discriminate. cbn [bind] in E.
    destruct (call_steps pl d l pl1 p A H) as (p1 & E1 & H1). cbn [flat_map]. rewrite fold_left_app, E1. apply IH; assumption.
Qed.

Lemma ops_length h : length (flat_map ops h) = (6 * length h)%nat.
Proof. induction h as [|e h IH]; [reflexivity|]. cbn [flat_map]. rewrite app_length, IH. cbn [ops length]. lia. Qed.

Lemma firstn_ops h : forall j r, (r <= 6)%nat -> (j < length h)%nat ->
  firstn (6 * j + r) (flat_map ops h) = flat_map ops (firstn j h) ++ firstn r (ops (nth j h (0, 0))).
Proof.
  induction h as [|e h IH]; intros j r Hr Hj; [cbn in Hj; lia|]. destruct j as [|j].
  - cbn [firstn flat_map nth app]. replace (6 * 0 + r)%nat with r by lia. rewrite firstn_app.
    replace (r - length (ops e))%nat with 0%nat by (cbn [ops length]; lia). rewrite firstn_O, app_nil_r. reflexivity.
  - cbn [length] in Hj. cbn [firstn flat_map nth]. rewrite firstn_app. replace (6 * S j + r - length (ops e))%nat with (6 * j + r)%nat by (cbn [ops length]; lia).
    rewrite IH by lia. rewrite (firstn_all2 (n := (6 * S j + r)%nat)) by (cbn [ops length]; lia). rewrite app_assoc. reflexivity.
Qed.

Lemma firstn_ops_all h j : firstn (6 * j) (flat_map ops h) = flat_map ops (firstn j h).
Proof.
  destruct (Nat.lt_ge_cases j (length h)) as [H|H].
  - pose proof (firstn_ops h j 0 ltac:(lia) H) as E. rewrite Nat.add_0_r in E. rewrite E. cbn [firstn]. apply app_nil_r.
  - rewrite firstn_all2 by (rewrite ops_length; lia). rewrite firstn_all2 by lia. reflexivity.
Qed.

Lemma moment_between k uri h j : (0 < k)%nat ->
  exists pl p, add_all (new_playlist uri k) (firstn j h) = Ok pl /\ inv k uri (firstn j h) pl /\
    moment k uri h (6 * j) = pl /\ fold_left wstep (flat_map ops (firstn j h)) (mkWst (new_playlist uri k) 0) = mkWst pl p.
Proof.
  intros Hk. destruct (history k uri (firstn j h) Hk) as (pl & E & I).
  destruct (calls_steps (firstn j h) (new_playlist uri k) pl 0 E) as (p & F).
  { unfold zlen. cbn [new_playlist pl_last pl_segs]. rewrite repeat_length. lia. }
  exists pl, p. split; [exact E|]. split; [exact I|]. split; [|exact F].
  unfold moment. rewrite firstn_ops_all, F. reflexivity.
Qed.

(* What is in memory at any moment, as long as the ring has not come round: Last counts the calls that have stored it, First is 0 after the
   first call, and every word of a slot is either still zero or final. *)
Record early (k : nat) (h : list (Z * Z)) (t : nat) (pl : playlist) : Prop := mkEarly {
  ea_len : length (pl_segs pl) = k;
  ea_first : pl_first pl = if (t <? 6)%nat then -1 else 0;
  ea_last : pl_last pl = Z.of_nat (Nat.min ((t + 4) / 6) (length h)) - 1;
  ea_slot : forall i, (i < length h)%nat -> exists s, nth_error (pl_segs pl) i = Some s /\
    seg_dur s = (if (6 * i + 3 <=? t)%nat then seg_dur (seg_of (entry h i)) else 0) /\
    seg_pos s = (if (6 * i + 4 <=? t)%nat then seg_pos (seg_of (entry h i)) else 0) /\
    seg_len s = (if (6 * i + 5 <=? t)%nat then seg_len (seg_of (entry h i)) else 0) }.

Lemma early_new k h uri : (length h <= k)%nat -> early k h 0 (new_playlist uri k).
Proof.
  intros H. split; cbn [new_playlist pl_segs pl_first pl_last].
  - apply repeat_length.
  - reflexivity.
  - cbn. lia.
  - intros i Hi. exists (mkSeg 0 0 0). rewrite nth_error_repeat by lia.
    destruct (Nat.leb_spec (6 * i + 3) 0); [lia|]. destruct (Nat.leb_spec (6 * i + 4) 0); [lia|]. destruct (Nat.leb_spec (6 * i + 5) 0); [lia|].
    splits; reflexivity.
Qed.

Lemma early_wait k h t pl : early k h t pl -> (6 <= t \/ t + 1 < 6)%nat -> Nat.min ((t + 4) / 6) (length h) = Nat.min ((t + 1 + 4) / 6) (length h) ->
  (forall i, (i < length h)%nat -> (t + 1 <> 6 * i + 3 /\ t + 1 <> 6 * i + 4 /\ t + 1 <> 6 * i + 5)%nat) -> early k h (t + 1) pl.
Proof.
  intros [L F La Sl] H6 HL HS. split.
  - exact L.
  - rewrite F. destruct (Nat.ltb_spec t 6), (Nat.ltb_spec (t + 1) 6); try reflexivity; lia.
  - rewrite La, HL. reflexivity.
  - intros i Hi. destruct (Sl i Hi) as (s & N & D & P & G). exists s. specialize (HS i Hi).
    replace (6 * i + 3 <=? t + 1)%nat with (6 * i + 3 <=? t)%nat by lia.
    replace (6 * i + 4 <=? t + 1)%nat with (6 * i + 4 <=? t)%nat by lia.
    replace (6 * i + 5 <=? t + 1)%nat with (6 * i + 5 <=? t)%nat by lia. splits; assumption.
Qed.

(* a store into the slot of the call under way *)
Lemma early_store k h j r pl g : early k h (6 * j + r) pl -> (j < length h)%nat -> (length h <= k)%nat -> (2 <= r < 5)%nat ->
  pl_last pl = Z.of_nat j ->
  seg_dur g = (if (6 * j + 3 <=? 6 * j + r + 1)%nat then seg_dur (seg_of (entry h j)) else 0) ->
  seg_pos g = (if (6 * j + 4 <=? 6 * j + r + 1)%nat then seg_pos (seg_of (entry h j)) else 0) ->
  seg_len g = (if (6 * j + 5 <=? 6 * j + r + 1)%nat then seg_len (seg_of (entry h j)) else 0) ->
  early k h (6 * j + r + 1) (set_slot pl (pl_last pl) g).
Proof.
  intros [L F La Sl] Hj Hk Hr HL HD HP HG. split; cbn [set_slot pl_segs pl_first pl_last].
  - rewrite upd_length. exact L.
  - rewrite F. destruct (Nat.ltb_spec (6 * j + r) 6), (Nat.ltb_spec (6 * j + r + 1) 6); try reflexivity; lia.
  - rewrite La. replace ((6 * j + r + 1 + 4) / 6)%nat with ((6 * j + r + 4) / 6)%nat; [reflexivity|].
    transitivity (j + 1)%nat; [|symmetry]; symmetry; [apply (Nat.div_unique _ 6 _ (r - 2)); lia|apply (Nat.div_unique _ 6 _ (r - 1)); lia].
  - intros i Hi. rewrite HL, Nat2Z.id. destruct (Nat.eq_dec i j) as [->|N].
    + exists g. rewrite upd_nth_same by lia. splits; assumption || reflexivity.
    + destruct (Sl i Hi) as (s & E & D & P & G). exists s. rewrite upd_nth_other by lia.
      replace (6 * i + 3 <=? 6 * j + r + 1)%nat with (6 * i + 3 <=? 6 * j + r)%nat by lia.
      replace (6 * i + 4 <=? 6 * j + r + 1)%nat with (6 * i + 4 <=? 6 * j + r)%nat by lia.
      replace (6 * i + 5 <=? 6 * j + r + 1)%nat with (6 * i + 5 <=? 6 * j + r)%nat by lia. splits; assumption.
Qed.

Lemma last_at k h j r pl : early k h (6 * j + r) pl -> (j < length h)%nat -> (r < 6)%nat ->
  pl_last pl = Z.of_nat j - (if (r <? 2)%nat then 1 else 0).
Proof.
  intros E Hj Hr. rewrite (ea_last _ _ _ _ E).
  destruct (Nat.ltb_spec r 2) as [R|R].
  - replace ((6 * j + r + 4) / 6)%nat with j; [lia|]. apply (Nat.div_unique _ 6 _ (r + 4)); lia.
  - replace ((6 * j + r + 4) / 6)%nat with (j + 1)%nat; [lia|]. apply (Nat.div_unique _ 6 _ (r - 2)); lia.
Qed.

Definition pos_ok (h : list (Z * Z)) (j r : nat) (p : Z) : Prop := (1 <= r <= 5)%nat -> p = seg_pos (seg_of (entry h j)).

Lemma early_step k h j r w : (0 < k)%nat -> (length h <= k)%nat -> (j < length h)%nat -> (r < 6)%nat ->
  early k h (6 * j + r) (w_pl w) -> pos_ok h j r (w_pos w) ->
  forall o, nth_error (ops (nth j h (0, 0))) r = Some o ->
  early k h (6 * j + r + 1) (w_pl (wstep w o)) /\ pos_ok h j (r + 1) (w_pos (wstep w o)).
Proof.
  intros Hk Hl Hj Hr E P o No.
  pose proof (last_at k h j r (w_pl w) E Hj Hr) as La.
  assert (Sj : slot (w_pl w) (Z.of_nat j) = mkSeg (if (3 <=? r)%nat then seg_dur (seg_of (entry h j)) else 0)
                 (if (4 <=? r)%nat then seg_pos (seg_of (entry h j)) else 0) (if (5 <=? r)%nat then seg_len (seg_of (entry h j)) else 0)).
  { destruct (ea_slot _ _ _ _ E j Hj) as ([a b c] & N & D & Q & G). rewrite (slot_of _ _ (mkSeg a b c)) by (rewrite Nat2Z.id; exact N).
    cbn [seg_dur seg_pos seg_len] in *. replace (3 <=? r)%nat with (6 * j + 3 <=? 6 * j + r)%nat by lia.
    replace (4 <=? r)%nat with (6 * j + 4 <=? 6 * j + r)%nat by lia. replace (5 <=? r)%nat with (6 * j + 5 <=? 6 * j + r)%nat by lia. congruence. }
  assert (El : seg_dur (seg_of (entry h j)) = fst (nth j h (0, 0)) /\ seg_len (seg_of (entry h j)) = snd (nth j h (0, 0))).
  { unfold entry. destruct (nth j h (0, 0)). split; reflexivity. }
  destruct El as [Ed El].
  assert (Cr : r = 0%nat \/ r = 1%nat \/ r = 2%nat \/ r = 3%nat \/ r = 4%nat \/ r = 5%nat) by lia.
  destruct Cr as [->|[->|[->|[->|[->| ->]]]]]; cbn [ops nth_error] in No; injection No as <-; unfold wstep; cbn [w_pl w_pos];
    cbn [Nat.ltb Nat.leb] in La, Sj.
  - split.
    + apply early_wait; [exact E|lia| |intros i Hi; lia]. do 1 f_equal.
      transitivity j; [symmetry; apply (Nat.div_unique _ 6 _ 4); lia|apply (Nat.div_unique _ 6 _ 5); lia].
    + intros _. rewrite La. destruct j as [|m].
      * cbn. unfold entry. destruct (nth 0 h (0, 0)). reflexivity.
      * destruct (Z.of_nat (S m) - 1 >=? 0) eqn:G; [|lia]. rewrite entry_step by exact Hj. replace (Z.of_nat (S m) - 1) with (Z.of_nat m) by lia.
        destruct (ea_slot _ _ _ _ E m ltac:(lia)) as (s & N & D & Q & L). rewrite (slot_of _ _ s) by (rewrite Nat2Z.id; exact N).
        rewrite Q, L. destruct (Nat.leb_spec (6 * m + 4) (6 * S m + 0)); [|lia]. destruct (Nat.leb_spec (6 * m + 5) (6 * S m + 0)); [|lia]. reflexivity.
  - split; [|intros _; apply P; lia]. destruct E as [L F La' Sl]. split; cbn [pl_segs pl_first pl_last].
    + exact L.
    + rewrite F. destruct (Nat.ltb_spec (6 * j + 1) 6), (Nat.ltb_spec (6 * j + 1 + 1) 6); try reflexivity; lia.
    + rewrite La. unfold zlen. rewrite L. replace ((6 * j + 1 + 1 + 4) / 6)%nat with (j + 1)%nat by (apply (Nat.div_unique _ 6 _ 0); lia).
      rewrite Z.mod_small by lia. lia.
    + intros i Hi. destruct (Sl i Hi) as (s & N & D & Q & G). exists s.
      replace (6 * i + 3 <=? 6 * j + 1 + 1)%nat with (6 * i + 3 <=? 6 * j + 1)%nat by lia.
      replace (6 * i + 4 <=? 6 * j + 1 + 1)%nat with (6 * i + 4 <=? 6 * j + 1)%nat by lia.
      replace (6 * i + 5 <=? 6 * j + 1 + 1)%nat with (6 * i + 5 <=? 6 * j + 1)%nat by lia. splits; assumption.
  - replace (Z.of_nat j - 0) with (Z.of_nat j) in La by lia. split; [|intros _; apply P; lia]. apply early_store; try assumption; try lia; rewrite La, Sj; cbn [seg_dur seg_pos seg_len].
    + destruct (Nat.leb_spec (6 * j + 3) (6 * j + 2 + 1)); [|lia]. symmetry. exact Ed.
    + destruct (Nat.leb_spec (6 * j + 4) (6 * j + 2 + 1)); [lia|]. reflexivity.
    + destruct (Nat.leb_spec (6 * j + 5) (6 * j + 2 + 1)); [lia|]. reflexivity.
  - replace (Z.of_nat j - 0) with (Z.of_nat j) in La by lia. split; [|intros _; apply P; lia]. apply early_store; try assumption; try lia; rewrite La, Sj; cbn [seg_dur seg_pos seg_len].
    + destruct (Nat.leb_spec (6 * j + 3) (6 * j + 3 + 1)); [|lia]. reflexivity.
    + destruct (Nat.leb_spec (6 * j + 4) (6 * j + 3 + 1)); [|lia]. apply P. lia.
    + destruct (Nat.leb_spec (6 * j + 5) (6 * j + 3 + 1)); [lia|]. reflexivity.
  - replace (Z.of_nat j - 0) with (Z.of_nat j) in La by lia. split; [|intros _; apply P; lia]. apply early_store; try assumption; try lia; rewrite La, Sj; cbn [seg_dur seg_pos seg_len].
    + destruct (Nat.leb_spec (6 * j + 3) (6 * j + 4 + 1)); [|lia]. reflexivity.
    + destruct (Nat.leb_spec (6 * j + 4) (6 * j + 4 + 1)); [|lia]. reflexivity.
    + destruct (Nat.leb_spec (6 * j + 5) (6 * j + 4 + 1)); [|lia]. symmetry. exact El.
  - replace (Z.of_nat j - 0) with (Z.of_nat j) in La by lia. split; [|intros H; lia]. destruct E as [L F La' Sl]. split; cbn [pl_segs pl_first pl_last].
    + exact L.
    + rewrite La, F. destruct (Nat.ltb_spec (6 * j + 5) 6), (Nat.ltb_spec (6 * j + 5 + 1) 6); try lia.
      * assert (j = 0%nat) as -> by lia. reflexivity.
      * destruct (Z.eqb_spec 0 (Z.of_nat j)); [lia|]. reflexivity.
    + rewrite La. replace ((6 * j + 5 + 1 + 4) / 6)%nat with (j + 1)%nat by (apply (Nat.div_unique _ 6 _ 4); lia). lia.
    + intros i Hi. destruct (Sl i Hi) as (s & N & D & Q & G). exists s.
      replace (6 * i + 3 <=? 6 * j + 5 + 1)%nat with (6 * i + 3 <=? 6 * j + 5)%nat by lia.
      replace (6 * i + 4 <=? 6 * j + 5 + 1)%nat with (6 * i + 4 <=? 6 * j + 5)%nat by lia.
      replace (6 * i + 5 <=? 6 * j + 5 + 1)%nat with (6 * i + 5 <=? 6 * j + 5)%nat by lia. splits; assumption.
Qed.

Lemma firstn_S_nth {A} (l : list A) n x : nth_error l n = Some x -> firstn (S n) l = firstn n l ++ [x].
Proof. revert n. induction l as [|a l IH]; intros [|n] E; cbn in *; try discriminate; [injection E as ->; reflexivity|]. rewrite (IH n E). reflexivity. Qed.

Lemma nth_ops h : forall j r, (r < 6)%nat -> (j < length h)%nat -> nth_error (flat_map ops h) (6 * j + r) = nth_error (ops (nth j h (0, 0))) r.
Proof.
  induction h as [|e h IH]; intros j r Hr Hj; [cbn in Hj; lia|]. cbn [flat_map]. destruct j as [|j].
  - rewrite nth_error_app1 by (cbn [ops length]; lia). reflexivity.
  - cbn [length] in Hj. rewrite nth_error_app2 by (cbn [ops length]; lia).
    replace (6 * S j + r - length (ops e))%nat with (6 * j + r)%nat by (cbn [ops length]; lia). apply IH; lia.
Qed.

Lemma early_moment k uri h t : (0 < k)%nat -> (length h <= k)%nat -> early k h (Nat.min t (6 * length h)) (moment k uri h t).
Proof.
  intros Hk Hl.
  assert (G : forall n, (n <= 6 * length h)%nat -> let w := fold_left wstep (firstn n (flat_map ops h)) (mkWst (new_playlist uri k) 0) in
              early k h n (w_pl w) /\ pos_ok h (n / 6) (n mod 6) (w_pos w)).
  { induction n as [|n IH]; intros Hn.
    - cbn. split; [apply early_new; exact Hl|]. intros Hr. lia.
    - destruct (IH ltac:(lia)) as [E P]. set (j := (n / 6)%nat) in *. set (r := (n mod 6)%nat) in *.
      assert (Dn : n = (6 * j + r)%nat) by (apply Nat.div_mod; lia).
      assert (Hr : (r < 6)%nat) by (apply Nat.mod_upper_bound; lia). assert (Hj : (j < length h)%nat) by lia.
      assert (exists o, nth_error (ops (nth j h (0, 0))) r = Some o) as [o No].
      { destruct (nth_error (ops (nth j h (0, 0))) r) eqn:X; [eauto|]. apply nth_error_None in X. cbn [ops length] in X. lia. }
      cbv zeta. rewrite (firstn_S_nth _ n o) by (rewrite Dn, nth_ops by lia; exact No). rewrite fold_left_app. cbn [fold_left].
      rewrite Dn in E at 1. destruct (early_step k h j r _ Hk Hl Hj Hr E P o No) as [E' P']. clearbody j r.
      split; [replace (S n) with (6 * j + r + 1)%nat by lia; exact E'|].
      destruct (Nat.eq_dec r 5) as [->|N5].
      + replace (S n mod 6)%nat with 0%nat; [intros H; lia|]. apply (Nat.mod_unique _ 6 (j + 1)); lia.
      + replace (S n mod 6)%nat with (r + 1)%nat by (apply (Nat.mod_unique _ 6 j); lia).
        replace (S n / 6)%nat with j by (apply (Nat.div_unique _ 6 _ (r + 1)); lia). exact P'. }
  destruct (Nat.le_ge_cases t (6 * length h)) as [H|H].
  - rewrite Nat.min_l by exact H. apply G. exact H.
  - rewrite Nat.min_r by exact H. unfold moment. rewrite firstn_all2 by (rewrite ops_length; exact H).
    rewrite <- (firstn_all2 (n := (6 * length h)%nat) (flat_map ops h)) by (rewrite ops_length; lia). apply G. lia.
Qed.

Lemma read_early k uri h fmt clock : (0 < k)%nat -> (length h <= k)%nat -> file_ok h -> forwards clock ->
  forall c m i n fuel, (m < length h)%nat -> (6 * m + 2 <= clock n)%nat -> (i + c = m)%nat -> (c < fuel)%nat ->
  exists d l p, partly d (fst (nth m h (0, 0))) /\ partly l (snd (nth m h (0, 0))) /\ partly p (total (firstn m h)) /\
    (6 * m + 6 <= clock n \/ 6 * length h <= clock n -> (d, l, p) = entry h m)%nat /\
    read_loop fuel fmt (moment k uri h) clock n (Z.of_nat m) (Z.of_nat i) =
      Ok (flat_map (entry_text fmt uri) (map (entry h) (seq i c) ++ [(d, l, p)])).
Proof.
  intros Hk Hl HF Fw.
  assert (U : forall t, pl_uri (moment k uri h t) = uri).
  { intros t. unfold moment. generalize (firstn t (flat_map ops h)). intros os.
    assert (G : forall w, pl_uri (w_pl w) = uri -> pl_uri (w_pl (fold_left wstep os w)) = uri).
    { induction os as [|o os IH]; intros w Hw; [exact Hw|]. cbn [fold_left]. apply IH. destruct o; cbn; exact Hw. }
    apply G. reflexivity. }
  assert (Len : forall t, length (pl_segs (moment k uri h t)) = k) by (intros t; apply (ea_len _ _ _ _ (early_moment k uri h t Hk Hl))).
  assert (Pos : forall j, (j < length h)%nat -> seg_pos (seg_of (entry h j)) = total (firstn j h) /\ seg_dur (seg_of (entry h j)) = fst (nth j h (0, 0)) /\
                seg_len (seg_of (entry h j)) = snd (nth j h (0, 0)) /\ entry h j = (fst (nth j h (0, 0)), snd (nth j h (0, 0)), total (firstn j h))).
  { intros j Hj. pose proof (file_wrap h j HF) as W. unfold entry in *. destruct (nth j h (0, 0)) as [d l]. cbn [wrap_entry seg_of seg_pos seg_dur seg_len fst snd] in *.
    injection W as W. splits; congruence || reflexivity. }
  induction c as [|c IH]; intros m i n fuel Hm Hn Hi Hf; (destruct fuel as [|fuel]; [lia|]); cbn [read_loop];
    (destruct (Z.ltb_spec (Z.of_nat i) 0); [lia|]); rewrite Nat2Z.id; unfold index;
    pose proof (Fw n) as F1; pose proof (Fw (n + 1)%nat) as F2; pose proof (forwards_le clock Fw (n + 1) (n + 3) ltac:(lia)) as F3;
    replace (S n) with (n + 1)%nat in F1 by lia; replace (S (n + 1)) with (n + 2)%nat in F2 by lia;
    destruct (ea_slot _ _ _ _ (early_moment k uri h (clock n) Hk Hl) i ltac:(lia)) as (a & Na & Da & Pa & La);
    destruct (ea_slot _ _ _ _ (early_moment k uri h (clock (n + 1)%nat) Hk Hl) i ltac:(lia)) as (b & Nb & Db & Pb & Lb);
    destruct (ea_slot _ _ _ _ (early_moment k uri h (clock (n + 2)%nat) Hk Hl) i ltac:(lia)) as (e & Ne & De & Pe & Le);
    rewrite Na, Nb, Ne; cbn [bind]; rewrite U; destruct (Pos i ltac:(lia)) as (Qp & Qd & Ql & Qe); rewrite Qd in Da; rewrite Qp in Pb; rewrite Ql in Le.
  - assert (i = m) as -> by lia. rewrite Z.eqb_refl. exists (seg_dur a), (seg_len e), (seg_pos b). unfold partly. splits.
    + rewrite Da. destruct (6 * m + 3 <=? Nat.min (clock n) (6 * length h))%nat; [left|right]; reflexivity.
    + rewrite Le. destruct (6 * m + 5 <=? Nat.min (clock (n + 2)%nat) (6 * length h))%nat; [left|right]; reflexivity.
    + rewrite Pb. destruct (6 * m + 4 <=? Nat.min (clock (n + 1)%nat) (6 * length h))%nat; [left|right]; reflexivity.
    + intros H6. rewrite Qe, Da, Le, Pb.
      destruct (Nat.leb_spec (6 * m + 3) (Nat.min (clock n) (6 * length h))); [|lia].
      destruct (Nat.leb_spec (6 * m + 5) (Nat.min (clock (n + 2)%nat) (6 * length h))); [|lia].
      destruct (Nat.leb_spec (6 * m + 4) (Nat.min (clock (n + 1)%nat) (6 * length h))); [|lia]. reflexivity.
    + cbn [seq map app flat_map entry_text]. rewrite app_nil_r. reflexivity.
  - destruct (Z.eqb_spec (Z.of_nat i) (Z.of_nat m)); [lia|].
    destruct (IH m (S i) (n + 3)%nat fuel Hm ltac:(lia) ltac:(lia) ltac:(lia)) as (d & l & p & Hd & Hll & Hp & Hc & R).
    exists d, l, p. splits; try assumption.
    + intros H6. apply Hc. lia.
    + unfold zlen. rewrite Len. replace ((Z.of_nat i + 1) mod Z.of_nat k) with (Z.of_nat (S i)) by (rewrite Z.mod_small; lia).
      rewrite R. cbn [bind]. cbn [seq map app flat_map]. f_equal. f_equal. rewrite Qe. cbn [entry_text]. rewrite Da, Le, Pb.
      destruct (Nat.leb_spec (6 * i + 3) (Nat.min (clock n) (6 * length h))); [|lia].
      destruct (Nat.leb_spec (6 * i + 5) (Nat.min (clock (n + 2)%nat) (6 * length h))); [|lia].
      destruct (Nat.leb_spec (6 * i + 4) (Nat.min (clock (n + 1)%nat) (6 * length h))); [|lia]. reflexivity.
Qed.

Lemma mid_fields k uri h t : (0 < k)%nat -> (length h < 2 * k)%nat ->
  let pl := moment k uri h t in
  length (pl_segs pl) = k /\ -1 <= pl_first pl < Z.of_nat k /\ -1 <= pl_last pl < Z.of_nat k /\
  (0 <= pl_first pl -> (6 <= t)%nat /\ 0 <= pl_last pl) /\ ((2 <= t)%nat -> h <> [] -> 0 <= pl_last pl).
Proof.
  intros Hk Hl. cbv zeta.
  assert (Hfin : forall j, (j <= length h)%nat -> exists pl p, inv k uri (firstn j h) pl /\
            fold_left wstep (flat_map ops (firstn j h)) (mkWst (new_playlist uri k) 0) = mkWst pl p /\
            length (pl_segs pl) = k /\ -1 <= pl_last pl < Z.of_nat k /\ pl_first pl = (match j with O => -1 | _ => Z.of_nat (Nat.min (j - k) k) end) /\
            (pl_last pl = -1 <-> j = 0%nat)).
  { intros j Hj. destruct (moment_between k uri h j Hk) as (pl & p & _ & I & _ & F). exists pl, p.
    assert (Lf : length (firstn j h) = j) by (rewrite firstn_length; lia).
    pose proof (inv_last _ _ _ _ I) as La. pose proof (inv_first _ _ _ _ I) as Fi. rewrite Lf in La, Fi.
    splits; [exact I|exact F|exact (inv_len _ _ _ _ I)| | |rewrite Fi; destruct j; reflexivity|].
    - rewrite La. destruct j; lia.
    - rewrite La. destruct j as [|m]; [lia|]. pose proof (Nat.mod_upper_bound m k ltac:(lia)). lia.
    - rewrite La. destruct j as [|m]; split; intros; lia. }
  destruct (Nat.le_gt_cases (6 * length h) t) as [H|H].
  - destruct (Hfin (length h) ltac:(lia)) as (pl & p & I & F & L & La & Fi & Z0). rewrite firstn_all in F.
    unfold moment. rewrite firstn_all2 by (rewrite ops_length; lia). rewrite F. cbn [w_pl].
    destruct h as [|e h']; cbn [length] in *; splits; try lia; try congruence; rewrite ?Fi; try lia; intros; splits; try lia.
  - set (j := (t / 6)%nat). set (r := (t mod 6)%nat). assert (Dt : t = (6 * j + r)%nat) by (apply Nat.div_mod; lia).
    assert (Hr : (r < 6)%nat) by (apply Nat.mod_upper_bound; lia). clearbody j r. assert (Hj : (j < length h)%nat) by lia.
    destruct (Hfin j ltac:(lia)) as (pl & p & I & F & L & La & Fi & Z0).
    unfold moment. rewrite Dt, firstn_ops by lia. rewrite fold_left_app, F.
    assert (Hmod : 0 <= (pl_last pl + 1) mod zlen (pl_segs pl) < Z.of_nat k) by (unfold zlen; rewrite L; apply Z.mod_pos_bound; lia).
    assert (Fi' : pl_first pl = -1 /\ j = 0%nat \/ 0 <= pl_first pl < Z.of_nat k /\ (1 <= j)%nat) by (rewrite Fi; destruct j; lia).
    assert (NE : h <> []) by (intros ->; cbn in Hj; lia).
    destruct (nth j h (0, 0)) as [d l].
    assert (Cr : r = 0%nat \/ r = 1%nat \/ r = 2%nat \/ r = 3%nat \/ r = 4%nat \/ r = 5%nat) by lia.
    destruct Cr as [->|[->|[->|[->|[->| ->]]]]]; unfold ops; cbn [firstn fold_left fst snd]; unfold wstep, set_slot;
      cbn [w_pl w_pos pl_segs pl_first pl_last]; rewrite ?upd_length; splits; intros; try lia; try exact L; splits; try lia.
Qed.

Lemma read_returns k uri h fmt clock last : (0 < k)%nat -> (length h < 2 * k)%nat -> 0 <= last < Z.of_nat k ->
  forall c n i fuel, 0 <= i < Z.of_nat k -> (i + Z.of_nat c) mod Z.of_nat k = last -> (c < fuel)%nat ->
  exists b, read_loop fuel fmt (moment k uri h) clock n last i = Ok b.
Proof.
  intros Hk Hl HL.
  assert (Len : forall t, length (pl_segs (moment k uri h t)) = k) by (intros t; apply (mid_fields k uri h t Hk Hl)).
  assert (Ix : forall t i, 0 <= i < Z.of_nat k -> exists s, index (pl_segs (moment k uri h t)) (Z.to_nat i) = Ok s).
  { intros t i Hi. unfold index. destruct (nth_error (pl_segs (moment k uri h t)) (Z.to_nat i)) as [s|] eqn:N; [eauto|].
    apply nth_error_None in N. rewrite Len in N. lia. }
  induction c as [|c IH]; intros n i fuel Hi Hc Hf; (destruct fuel as [|fuel]; [lia|]); cbn [read_loop];
    (destruct (Z.ltb_spec i 0); [lia|]);
    destruct (Ix (clock n) i Hi) as [a ->]; destruct (Ix (clock (n + 1)%nat) i Hi) as [b ->]; destruct (Ix (clock (n + 2)%nat) i Hi) as [e ->]; cbn [bind].
  - rewrite Z.add_0_r, Z.mod_small in Hc by lia. subst last. rewrite Z.eqb_refl. eauto.
  - destruct (Z.eqb_spec i last) as [E|E]; [eauto|]. unfold zlen. rewrite Len.
    destruct (IH (n + 3)%nat ((i + 1) mod Z.of_nat k) fuel) as [t E']; [apply Z.mod_pos_bound; lia| |lia|].
    + rewrite Zplus_mod_idemp_l. rewrite <- Hc. f_equal. lia.
    + rewrite E'. cbn [bind]. eauto.
Qed.

Lemma moment_fixed k uri h t : pl_version (moment k uri h t) = 4 /\ pl_uri (moment k uri h t) = uri /\ length (pl_segs (moment k uri h t)) = k.
Proof.
  unfold moment. generalize (firstn t (flat_map ops h)). intros os.
  assert (G : forall w, (pl_version (w_pl w) = 4 /\ pl_uri (w_pl w) = uri /\ length (pl_segs (w_pl w)) = k) ->
    (pl_version (w_pl (fold_left wstep os w)) = 4 /\ pl_uri (w_pl (fold_left wstep os w)) = uri /\ length (pl_segs (w_pl (fold_left wstep os w))) = k)).
  { induction os as [|o os IH]; intros w Hw; [exact Hw|]. cbn [fold_left]. apply IH. destruct o; cbn; rewrite ?upd_length; exact Hw. }
  apply G. cbn. rewrite repeat_length. splits; reflexivity.
Qed.

Lemma read_quiet k uri h fmt t : read_text fmt (moment k uri h) (fun _ => t) = render fmt (moment k uri h t).
Proof.
  destruct (moment_fixed k uri h t) as (V & U & L). destruct (moment_fixed k uri h 0) as (V0 & U0 & L0).
  unfold read_text, render. rewrite V, V0, L, L0. set (pl := moment k uri h t) in *.
  assert (G : forall fuel i n, read_loop fuel fmt (moment k uri h) (fun _ => t) n (pl_last pl) i = render_loop fuel fmt pl i).
  { induction fuel as [|fuel IH]; intros i n; [reflexivity|]. cbn [read_loop render_loop]. fold pl. destruct (i <? 0); [reflexivity|].
    destruct (index (pl_segs pl) (Z.to_nat i)) as [s| | |]; try reflexivity. cbn [bind]. rewrite U0, U. destruct (i =? pl_last pl); [reflexivity|].
    unfold zlen. rewrite L0, L. rewrite IH. reflexivity. }
  rewrite G. reflexivity.
Qed.
