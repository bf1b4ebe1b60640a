(* Lemmas about the parameter-set parser. *)
From Verif Require Import Base S_bits M_bits L_base L_bits S_sps M_sps.
From Coq Require Import ZifyBool ZifyNat.

Definition good (r : reader) : Prop := rd_ok r /\ r_buf r <> [].

(* m, started on unread bits u, ends on unread bits u' with outcome o *)
Definition run {A} (m : rd A) (u u' : list bool) (o : res A) : Prop :=
  forall r, good r -> unread r = u -> exists r', m r = (r', o) /\ good r' /\ unread r' = u'.

Lemma sim_run {A} (m : rd A) sp u : sim m sp -> run m u (fst (sp u)) (snd (sp u)).
Proof.
  intros S r [H Hne] <-. destruct (S r H Hne) as (r' & E & H' & B' & U'). exists r'. splits; auto.
  split; congruence.
Qed.
Lemma run_ret {A} (a : A) u : run (rret a) u u (Ok a).
Proof. intros r H E. exists r. auto. Qed.
Lemma run_bind {A B} (m : rd A) (f : A -> rd B) u u1 a u2 o :
  run m u u1 (Ok a) -> run (f a) u1 u2 o -> run (rbind m f) u u2 o.
Proof.
  intros H1 H2 r G E. destruct (H1 r G E) as (r1 & E1 & G1 & U1). unfold rbind. rewrite E1. apply H2; auto.
Qed.
Lemma run_bind_err {A B} (m : rd A) (f : A -> rd B) u u1 e : run m u u1 (Err e) -> run (rbind m f) u u1 (Err e).
Proof. intros H1 r G E. destruct (H1 r G E) as (r1 & E1 & G1 & U1). unfold rbind. rewrite E1. eauto. Qed.
Lemma run_bind_panic {A B} (m : rd A) (f : A -> rd B) u u1 : run m u u1 Panic -> run (rbind m f) u u1 Panic.
Proof. intros H1 r G E. destruct (H1 r G E) as (r1 & E1 & G1 & U1). unfold rbind. rewrite E1. eauto. Qed.

Lemma run_ue u : run RUe u (fst (spec_ue u)) (snd (spec_ue u)).
Proof. apply (sim_run RUe), sim_ue. Qed.
Lemma run_se u : run RSe u (fst (spec_se u)) (snd (spec_se u)).
Proof. apply (sim_run RSe), sim_se. Qed.
Lemma run_flag u : run RFlag u (fst (spec_flag u)) (snd (spec_flag u)).
Proof. apply (sim_run RFlag), sim_flag. Qed.
Lemma run_byte n u : 0 <= n -> run (RByte n) u (fst (spec_read_byte n u)) (snd (spec_read_byte n u)).
Proof. intros H. apply (sim_run (RByte n)), sim_read_byte, H. Qed.
Lemma run_avail u : run RAvail u u (Ok (zlen u)).
Proof.
  intros r [H Hne] <-. exists r. unfold RAvail. rewrite available_unread by exact H. splits; auto. split; auto.
Qed.
Lemma run_scaling n u : exists u' l o, spec_scaling n true u 8 8 false = (u', l, o) /\
  run (RScaling n) u u' (let! b := o in Ok (l, b)).
Proof.
  destruct (spec_scaling n true u 8 8 false) as [[u' l] o] eqn:E. exists u', l, o. split; [reflexivity|].
  intros r [H Hne] <-. destruct (scaling_loop_spec n true r 8 8 false H Hne) as (r' & E' & H' & B' & U').
  rewrite E in *. cbn [fst snd] in *. exists r'. unfold RScaling, read_scaling_list. rewrite E'.
  splits; [destruct o; reflexivity | split; congruence | exact U'].
Qed.

(* ---------- consumption ---------- *)
Lemma spec_zeroes_len u k u' : spec_zeroes u = Some (k, u') -> length u = (S k + length u')%nat.
Proof.
  revert k; induction u as [|[|] u IH]; intros k; cbn [spec_zeroes]; intros E; try discriminate.
  - injection E as <- <-. reflexivity.
  - destruct (spec_zeroes u) as [[j w]|]; [|discriminate]. injection E as <- <-. cbn [length].
    rewrite (IH j eq_refl). lia.
Qed.
Lemma spec_ue_len u : match spec_ue u with (u', Ok _) => (length u' < length u)%nat | (u', _) => (length u' <= length u)%nat end.
Proof.
  unfold spec_ue. destruct (spec_zeroes u) as [[k w]|] eqn:E; [|cbn; lia].
  apply spec_zeroes_len in E. destruct (spec_read_cases (Z.of_nat k) w) as [(v & Ev & Hk)|[Ev Hk]]; rewrite Ev.
  - rewrite skipn_length. lia.
  - lia.
Qed.
Lemma spec_se_len u : match spec_se u with (u', Ok _) => (length u' < length u)%nat | (u', _) => (length u' <= length u)%nat end.
Proof. pose proof (spec_ue_len u) as H. unfold spec_se. destruct (spec_ue u) as [u' [v|e| |]]; exact H. Qed.

(* ---------- totality ---------- *)
Definition ok_or_eof {A} (P : A -> Prop) (o : res A) : Prop := (exists a, o = Ok a /\ P a) \/ o = Err ErrUnexpectedEOF.
Definition tot {A} (P : A -> Prop) (m : rd A) : Prop :=
  forall u, exists u' o, run m u u' o /\ (length u' <= length u)%nat /\ ok_or_eof P o.
Definition any {A} (a : A) : Prop := True.

Lemma tot_ret {A} (P : A -> Prop) a : P a -> tot P (rret a).
Proof. intros H u. exists u, (Ok a). splits; [apply run_ret | lia | left; eauto]. Qed.
Lemma tot_bind {A B} (P : A -> Prop) (Q : B -> Prop) m f :
  tot P m -> (forall a, P a -> tot Q (f a)) -> tot Q (rbind m f).
Proof.
  intros H1 H2 u. destruct (H1 u) as (u1 & o & R1 & L1 & [(a & -> & Pa)| ->]).
  - destruct (H2 a Pa u1) as (u2 & o2 & R2 & L2 & O2). exists u2, o2. splits; [eapply run_bind; eauto | lia | exact O2].
  - exists u1, (Err ErrUnexpectedEOF). splits; [eapply run_bind_err; eauto | lia | right; reflexivity].
Qed.
Lemma tot_ue : tot (fun v => 0 <= v < 2 ^ 32) RUe.
Proof.
  intros u. pose proof (run_ue u) as R. pose proof (spec_ue_len u) as L.
  destruct (spec_ue_outcomes u) as [(u' & v & Ev)|(u' & Ev)]; rewrite Ev in *; do 2 eexists; splits; eauto; try (cbn; lia).
  - left. exists v. split; [reflexivity|]. eapply spec_ue_range; eauto.
  - right. reflexivity.
Qed.
Lemma tot_se : tot any RSe.
Proof.
  intros u. pose proof (run_se u) as R. pose proof (spec_se_len u) as L.
  destruct (spec_se_outcomes u) as [(u' & v & Ev & _)|(u' & Ev)]; rewrite Ev in *; do 2 eexists; splits; eauto; try (cbn; lia).
  - left. exists v. split; [reflexivity|exact I].
  - right. reflexivity.
Qed.
Lemma tot_flag : tot any RFlag.
Proof.
  intros u. pose proof (run_flag u) as R. do 2 eexists; splits; eauto.
  - destruct u; cbn; lia.
  - destruct u; cbn; [right; reflexivity | left; exists b; split; [reflexivity | exact I]].
Qed.
Lemma tot_byte n : 0 <= n -> tot any (RByte n).
Proof.
  intros Hn u. pose proof (run_byte n u Hn) as R. unfold spec_read_byte in *. do 2 eexists; splits; eauto.
  - destruct (spec_read_cases (Z.min n 8) u) as [(v & Ev & _)|[Ev _]]; rewrite Ev; cbn [fst]; [rewrite skipn_length|]; lia.
  - destruct (spec_read_cases (Z.min n 8) u) as [(v & Ev & _)|[Ev _]]; rewrite Ev; cbn [snd];
      [left; exists v; split; [reflexivity|exact I] | right; reflexivity].
Qed.
Lemma spec_scaling_len : forall n first u lastS nextS ud u' l o,
  spec_scaling n first u lastS nextS ud = (u', l, o) -> (length u' <= length u)%nat.
Proof.
  induction n as [|n IH]; intros first u lastS nextS ud u' l o; cbn [spec_scaling].
  - intros E. inversion E; subst. lia.
  - destruct (nextS =? 0).
    + destruct (spec_scaling n false u lastS nextS ud) as [[w m] p] eqn:E1. intros E. inversion E; subst. eauto.
    + pose proof (spec_se_len u) as L. destruct (spec_se u) as [w [d|e| |]]; try (intros E; inversion E; subst; lia).
      cbv zeta. match goal with |- context [spec_scaling n ?a ?b ?c ?d ?e] => destruct (spec_scaling n a b c d e) as [[w' m] p] eqn:E1 end.
      intros E. inversion E; subst. apply IH in E1. lia.
Qed.
Lemma tot_scaling n : tot (fun p => length (fst p) = n) (RScaling n).
Proof.
  intros u. destruct (run_scaling n u) as (u' & l & o & E & R). do 2 eexists; splits; eauto.
  - eapply spec_scaling_len; eauto.
  - destruct (spec_scaling_outcomes n true u 8 8 false) as (u2 & l2 & o2 & E2 & [(b & -> & Hl)|[-> Hl]]);
      rewrite E in E2; inversion E2; subst; cbn [bind].
    + left. eexists; split; [reflexivity|reflexivity].
    + right; reflexivity.
Qed.
Lemma tot_avail : tot any RAvail.
Proof. intros u. exists u, (Ok (zlen u)). splits; [apply run_avail | lia | left; eexists; split; [reflexivity|exact I]]. Qed.
Lemma tot_when {A} (P : A -> Prop) c d m : P d -> tot P m -> tot P (rwhen c d m).
Proof. intros Hd Hm. unfold rwhen. destruct c; [exact Hm | apply tot_ret, Hd]. Qed.

(* ---------- scaling lists ---------- *)
Definition offs (i : nat) : nat := if (i <=? 6)%nat then 16 * i else 96 + 64 * (i - 6).
Lemma offs_next i : offs (S i) = (offs i + list_size i)%nat.
Proof. unfold offs, list_size. destruct (S i <=? 6)%nat eqn:E1, (i <=? 6)%nat eqn:E2, (i <? 6)%nat eqn:E3; lia. Qed.
Lemma size_next i : (if (5 <=? i)%nat then 64%nat else list_size i) = list_size (S i).
Proof. unfold list_size. destruct (5 <=? i)%nat eqn:E1, (i <? 6)%nat eqn:E2, (S i <? 6)%nat eqn:E3; lia. Qed.
Lemma offs_bound i : (i <= 12)%nat -> (offs i <= 480)%nat.
Proof. unfold offs. destruct (i <=? 6)%nat eqn:E; lia. Qed.

Lemma put_slice_ok {A} (arr : list A) off l : (off + length l <= length arr)%nat ->
  put_slice arr off l = Ok (firstn off arr ++ l ++ skipn (off + length l) arr) /\
  length (firstn off arr ++ l ++ skipn (off + length l) arr) = length arr.
Proof.
  intros H. unfold put_slice. replace (off + length l <=? length arr)%nat with true by lia. split; [reflexivity|].
  rewrite !app_length, firstn_length, skipn_length. lia.
Qed.

Definition mx_ok (m : matrix) : Prop := length (mx_list m) = 480%nat /\ length (mx_default m) = 12%nat.
Lemma mx0_ok : mx_ok matrix0.
Proof. split; reflexivity. Qed.

Lemma tot_scaling_lists : forall todo i m, (i + todo <= 12)%nat -> mx_ok m ->
  tot any (scaling_lists todo i (offs i) (list_size i) m).
Proof.
  induction todo as [|t IH]; intros i m Hi Hm; cbn [scaling_lists]; [apply tot_ret; exact I|].
  eapply tot_bind; [apply tot_flag|]. intros p _.
  apply tot_bind with (P := mx_ok).
  - destruct p; [|apply tot_ret; exact Hm].
    eapply tot_bind; [apply tot_scaling|]. intros [l d] Hl. cbn [fst] in Hl.
    destruct Hm as [Hm1 Hm2].
    destruct (put_slice_ok (mx_list m) (offs i) l) as [E1 L1].
    { rewrite Hl, <- offs_next, Hm1. apply offs_bound. lia. }
    destruct (put_slice_ok (mx_default m) i [d]) as [E2 L2]; [rewrite Hm2; cbn [length]; lia|].
    rewrite E1, E2. intros u. do 2 eexists. splits.
    + intros r G E. exists r. splits; [reflexivity|exact G|exact E].
    + lia.
    + left. eexists. split; [reflexivity|]. split; cbn [mx_list mx_default]; congruence.
  - intros m' Hm'. rewrite size_next, <- offs_next. apply IH; [lia|exact Hm'].
Qed.

(* ---------- loops of dropped values ---------- *)
Lemma skip_se_tot : forall fuel n u, (length u < fuel)%nat ->
  exists u' o, run (skip_se_loop fuel n) u u' o /\ (length u' <= length u)%nat /\ ok_or_eof any o.
Proof.
  induction fuel as [|f IH]; intros n u H; [lia|]. cbn [skip_se_loop].
  destruct (n <=? 0) eqn:E; [apply tot_ret; exact I|].
  pose proof (run_se u) as R. pose proof (spec_se_len u) as L.
  destruct (spec_se_outcomes u) as [(u1 & v & Ev & _)|(u1 & Ev)]; rewrite Ev in *; cbn [fst snd] in R.
  - destruct (IH (n - 1) u1 ltac:(lia)) as (u2 & o & R2 & L2 & O2). exists u2, o.
    splits; [eapply run_bind; eauto | lia | exact O2].
  - exists u1, (Err ErrUnexpectedEOF). splits; [eapply run_bind_err; eauto | lia | right; reflexivity].
Qed.

(* a step whose fuel is computed from the reader *)
Lemma run_fuel {A} (g : nat -> rd A) u u' o :
  (forall f, (length u < f)%nat -> run (g f) u u' o) -> run (fun r => g (bits_fuel r) r) u u' o.
Proof. intros H r G E. apply (H (bits_fuel r)); auto. rewrite <- E. apply bits_fuel_ok, G. Qed.

Lemma run_det {A} (m : rd A) u u1 o1 u2 o2 r : good r -> unread r = u -> run m u u1 o1 -> run m u u2 o2 -> o1 = o2 /\ u1 = u2.
Proof.
  intros G E H1 H2. destruct (H1 r G E) as (r1 & E1 & _ & <-). destruct (H2 r G E) as (r2 & E2 & _ & <-).
  rewrite E1 in E2. inversion E2; subst. auto.
Qed.

(* fuel: totality for loops where one fuel value serves all readers of the same unread bits *)
Lemma run_bits_fuel {A} (g : nat -> rd A) u u' o :
  run (g (S (length u))) u u' o -> run (fun r => g (bits_fuel r) r) u u' o.
Proof.
  intros H r G E. replace (bits_fuel r) with (S (length u)); [apply H; auto|].
  unfold bits_fuel. rewrite available_unread by apply G. rewrite E. unfold zlen. lia.
Qed.

Lemma tot_skip_se n : tot any (skip_se n).
Proof.
  intros u. destruct (skip_se_tot (S (length u)) n u ltac:(lia)) as (u' & o & R & L & O).
  exists u', o. splits; auto. unfold skip_se. apply (run_bits_fuel (fun f => skip_se_loop f n)), R.
Qed.

Ltac tots := repeat first
  [ eapply tot_bind; [first [apply tot_ue | apply tot_se | apply tot_flag | apply tot_skip_se | apply tot_avail
                             | apply tot_byte; lia]|]; intros ? _
  | apply tot_ret; exact I ].

Lemma tot_sps_chroma p : tot any (parse_sps_chroma p).
Proof.
  unfold parse_sps_chroma. destruct (high_profile p); [|apply tot_ret; exact I].
  eapply tot_bind; [apply tot_ue|]. intros c _.
  eapply tot_bind; [apply (tot_when any); [exact I | apply tot_flag]|]. intros sep _. tots.
  eapply tot_bind; [apply (tot_when any); [exact I|]|]. 2:{ intros ? _. tots. }
  apply (tot_scaling_lists _ 0); [destruct (c =? 3); lia | apply mx0_ok].
Qed.
Lemma tot_sps_poc p : tot any (parse_sps_poc p).
Proof. unfold parse_sps_poc. destruct (p =? 0); tots. Qed.
Lemma tot_sps_crop c : tot any (parse_sps_crop c).
Proof. unfold parse_sps_crop. destruct c; tots. Qed.

Lemma tot_sps : tot any parse_sps_body.
Proof.
  unfold parse_sps_body. tots.
  eapply tot_bind; [apply tot_sps_chroma|]. intros [[[[[[? ?] ?] ?] ?] ?] ?] _. tots.
  eapply tot_bind; [apply tot_sps_poc|]. intros [[[[? ?] ?] ?] ?] _. tots.
  cbv zeta. eapply tot_bind; [apply (tot_when any); [exact I | apply tot_flag]|]. intros ? _. tots.
  eapply tot_bind; [apply tot_sps_crop|]. intros [[[? ?] ?] ?] _. tots.
Qed.

Lemma new_good buf : buf_ok buf -> buf <> [] -> good (new_reader buf).
Proof. intros H Hn. split; [apply new_reader_ok, H | exact Hn]. Qed.

Lemma sps_empty : parse_sps_body (new_reader []) = (new_reader [], Err ErrUnexpectedEOF).
Proof. reflexivity. Qed.
Lemma pps_empty st : parse_pps_body st (new_reader []) = (new_reader [], Err ErrUnexpectedEOF).
Proof. reflexivity. Qed.

Lemma sps_outcome buf : buf_ok buf ->
  (exists r s, parse_sps_body (new_reader buf) = (r, Ok s)) \/
  (exists r, parse_sps_body (new_reader buf) = (r, Err ErrUnexpectedEOF)).
Proof.
  intros H. destruct buf as [|b buf]; [right; rewrite sps_empty; eauto|].
  destruct (tot_sps (bits_of (b :: buf))) as (u' & o & R & _ & O).
  destruct (R (new_reader (b :: buf)) (new_good _ H ltac:(discriminate)) (unread_new _)) as (r' & E & _).
  rewrite E. destruct O as [(a & -> & _)| ->]; eauto.
Qed.

(* ---------- PPS: crashes ---------- *)
Definition ok_eof_panic {A} (o : res A) : Prop := (exists a, o = Ok a) \/ o = Err ErrUnexpectedEOF \/ o = Panic.

Lemma read_into_ok arr i m u u' x : 0 <= i < zlen arr -> run m u u' (Ok x) ->
  run (read_into arr i m) u u' (Ok (upd arr (Z.to_nat i) x)).
Proof.
  intros Hi R r G E. destruct (R r G E) as (r' & E' & G' & U'). exists r'. unfold read_into, put_index. rewrite E'.
  replace ((0 <=? i) && (i <? zlen arr)) with true by lia. auto.
Qed.
Lemma read_into_err arr i m u u' e : 0 <= i < zlen arr -> run m u u' (Err e) -> run (read_into arr i m) u u' (Err e).
Proof.
  intros Hi R r G E. destruct (R r G E) as (r' & E' & G' & U'). exists r'. unfold read_into, put_index. rewrite E'.
  replace ((0 <=? i) && (i <? zlen arr)) with true by lia. auto.
Qed.
Lemma read_into_out arr i u : zlen arr <= i -> exists u', run (read_into arr i RUe) u u' Panic.
Proof.
  intros Hi. pose proof (run_ue u) as R. destruct (spec_ue_outcomes u) as [(u1 & v & Ev)|(u1 & Ev)]; rewrite Ev in R; cbn [fst snd] in R;
    exists u1; intros r G E; destruct (R r G E) as (r' & E' & G' & U'); exists r'; unfold read_into, put_index; rewrite E';
    replace ((0 <=? i) && (i <? zlen arr)) with false by lia; auto.
Qed.

Lemma run_lengths_outcome : forall fuel i num arr u, (length u < fuel)%nat -> 0 <= i <= 8 -> zlen arr = 8 ->
  exists u' o, run (run_lengths fuel i num arr) u u' o /\ ok_eof_panic o /\
    (o = Panic <-> 8 <= num /\ ues (Z.to_nat (8 - i)) u).
Proof.
  induction fuel as [|f IH]; intros i num arr u Hf Hi Ha; [lia|]. cbn [run_lengths].
  destruct (i <=? num) eqn:En.
  2:{ exists u, (Ok arr). splits; [apply run_ret | left; eauto | ]. split; [discriminate | intros [? _]; lia]. }
  destruct (Z.eq_dec i 8) as [->|Hi8].
  - destruct (read_into_out arr 8 u ltac:(lia)) as (u' & R). exists u', Panic.
    splits; [eapply run_bind_panic; eauto | right; right; reflexivity |].
    split; [intros _; split; [lia|exact I] | reflexivity].
  - replace (Z.to_nat (8 - i)) with (S (Z.to_nat (8 - (i + 1)))) by lia. cbn [ues].
    pose proof (run_ue u) as R. pose proof (spec_ue_len u) as L.
    destruct (spec_ue_outcomes u) as [(u1 & v & Ev)|(u1 & Ev)]; rewrite Ev in *; cbn [fst snd] in R.
    + destruct (IH (i + 1) num (upd arr (Z.to_nat i) v) u1 ltac:(lia) ltac:(lia)) as (u2 & o & R2 & O2 & P2).
      { unfold zlen in *. rewrite upd_length. exact Ha. }
      exists u2, o. splits; [eapply run_bind; [apply read_into_ok; [lia|exact R]|exact R2] | exact O2 |].
      rewrite P2. split.
      * intros [H1 H2]. split; [exact H1|]. eauto.
      * intros [H1 (u' & v' & E & H2)]. inversion E; subst. auto.
    + exists u1, (Err ErrUnexpectedEOF). splits.
      * eapply run_bind_err, read_into_err; [lia|exact R].
      * right; left; reflexivity.
      * split; [discriminate|]. intros [_ (u' & v' & E & _)]. discriminate.
Qed.

Lemma rectangles_outcome : forall fuel i num tl br u, (length u < fuel)%nat -> 0 <= i <= 8 -> zlen tl = 8 -> zlen br = 8 ->
  exists u' o, run (rectangles fuel i num tl br) u u' o /\ ok_eof_panic o /\
    (o = Panic <-> 8 < num /\ ues (Z.to_nat (16 - 2 * i)) u).
Proof.
  induction fuel as [|f IH]; intros i num tl br u Hf Hi Ht Hb; [lia|]. cbn [rectangles].
  destruct (i <? num) eqn:En.
  2:{ exists u, (Ok (tl, br)). splits; [apply run_ret | left; eauto | ]. split; [discriminate | intros [? _]; lia]. }
  destruct (Z.eq_dec i 8) as [->|Hi8].
  - destruct (read_into_out tl 8 u ltac:(lia)) as (u' & R). exists u', Panic.
    splits; [eapply run_bind_panic; eauto | right; right; reflexivity |].
    split; [intros _; split; [lia|exact I] | reflexivity].
  - replace (Z.to_nat (16 - 2 * i)) with (S (S (Z.to_nat (16 - 2 * (i + 1))))) by lia. cbn [ues].
    pose proof (run_ue u) as R. pose proof (spec_ue_len u) as L.
    destruct (spec_ue_outcomes u) as [(u1 & v & Ev)|(u1 & Ev)]; rewrite Ev in *; cbn [fst snd] in R.
    + pose proof (run_ue u1) as R1. pose proof (spec_ue_len u1) as L1.
      destruct (spec_ue_outcomes u1) as [(u2 & w & Ew)|(u2 & Ew)]; rewrite Ew in *; cbn [fst snd] in R1.
      * destruct (IH (i + 1) num (upd tl (Z.to_nat i) v) (upd br (Z.to_nat i) w) u2 ltac:(lia) ltac:(lia)) as (u3 & o & R3 & O3 & P3);
          try (unfold zlen in *; rewrite upd_length; assumption).
        exists u3, o. splits; [ | exact O3 |].
        { eapply run_bind; [apply read_into_ok; [lia|exact R]|]. eapply run_bind; [apply read_into_ok; [lia|exact R1]|exact R3]. }
        rewrite P3. split.
        -- intros [H1 H2]. split; [exact H1|]. eauto 10.
        -- intros [H1 (u' & v' & E & u'' & w' & E' & H2)]. inversion E; subst. rewrite Ew in E'. inversion E'; subst. auto.
      * exists u2, (Err ErrUnexpectedEOF). splits.
        -- eapply run_bind; [apply read_into_ok; [lia|exact R]|]. eapply run_bind_err, read_into_err; [lia|exact R1].
        -- right; left; reflexivity.
        -- split; [discriminate|]. intros [_ (u' & v' & E & u'' & w' & E' & _)]. inversion E; subst. congruence.
    + exists u1, (Err ErrUnexpectedEOF). splits.
      * eapply run_bind_err, read_into_err; [lia|exact R].
      * right; left; reflexivity.
      * split; [discriminate|]. intros [_ (u' & v' & E & _)]. discriminate.
Qed.

Lemma group_ids_tot : forall fuel n bits u, 1 <= bits -> (length u < fuel)%nat ->
  exists u' o, run (group_ids fuel n bits) u u' o /\ (length u' <= length u)%nat /\ ok_or_eof any o.
Proof.
  induction fuel as [|f IH]; intros n bits u Hb H; [lia|]. cbn [group_ids].
  destruct (n <=? 0) eqn:E; [apply tot_ret; exact I|].
  pose proof (run_byte bits u ltac:(lia)) as R. unfold spec_read_byte in R.
  destruct (spec_read_cases (Z.min bits 8) u) as [(v & Ev & Hv)|[Ev Hv]]; rewrite Ev in *; cbn [fst snd] in R.
  - destruct (IH (n - 1) bits (skipn (Z.to_nat (Z.min bits 8)) u) Hb) as (u2 & o & R2 & L2 & O2).
    { rewrite skipn_length. unfold zlen in Hv. lia. }
    rewrite skipn_length in L2. destruct O2 as [(l & -> & _)| ->].
    + exists u2, (Ok (v :: l)). splits; [|lia|left; eexists; split; [reflexivity|exact I]].
      eapply run_bind; [exact R|]. eapply run_bind; [exact R2|]. apply run_ret.
    + exists u2, (Err ErrUnexpectedEOF). splits; [|lia|right; reflexivity].
      eapply run_bind; [exact R|]. eapply run_bind_err; exact R2.
  - exists u, (Err ErrUnexpectedEOF). splits; [eapply run_bind_err; exact R | lia | right; reflexivity].
Qed.

Lemma group_bits_pos num : 0 < num < 2 ^ 32 -> 1 <= group_bits num.
Proof.
  intros H. unfold group_bits. destruct (u32 (num + 1) =? 0) eqn:E; [lia|].
  assert (N : num + 1 <> 2 ^ 32) by (intros N; rewrite N in E; discriminate).
  rewrite u32_small by lia. pose proof (Z.log2_up_pos (num + 1) ltac:(lia)). lia.
Qed.

Ltac rwt := cbv beta; repeat match goal with H : (_ =? _) = _ |- _ => rewrite H end.
Lemma slice_groups_outcome num u : 0 <= num < 2 ^ 32 ->
  exists u' o, run (slice_groups num) u u' o /\ ok_eof_panic o /\ (o = Panic <-> 0 < num /\ groups_crash num u).
Proof.
  intros Hn. unfold slice_groups. destruct (num >? 0) eqn:En.
  2:{ do 2 eexists. splits; [apply run_ret | left; eauto |]. split; [discriminate|intros [? _]; lia]. }
  pose proof (run_ue u) as R. unfold groups_crash.
  destruct (spec_ue_outcomes u) as [(u1 & typ & Ev)|(u1 & Ev)]; rewrite Ev in *; cbn [fst snd] in R.
  2:{ exists u1, (Err ErrUnexpectedEOF). splits; [eapply run_bind_err; eauto | right; left; reflexivity |].
      split; [discriminate|]. intros [_ (u' & t' & E & _)]. discriminate. }
  destruct (typ =? 0) eqn:T0; [|destruct (typ =? 2) eqn:T2; [|destruct (typ =? 5) eqn:T5; [|destruct (typ =? 6) eqn:T6]]].
  - destruct (run_lengths_outcome (S (length u1)) 0 num (repeat 0 8) u1 ltac:(lia) ltac:(lia) eq_refl) as (u2 & o & R2 & O2 & P2).
    apply (run_bits_fuel (fun f => run_lengths f 0 num (repeat 0 8))) in R2.
    assert (K : o = Panic <-> 0 < num /\ (exists u' t, (u1, Ok typ) = (u', Ok t) /\
       (t = 0 /\ 8 <= num /\ ues 8 u' \/ t = 2 /\ 8 < num /\ ues 16 u' \/
        t = 6 /\ (exists u2, spec_ue u' = (u2, Ok (2 ^ 32 - 1)))))).
    { rewrite P2. change (Z.to_nat (8 - 0)) with 8%nat. split.
      - intros [H1 H2]. split; [lia|]. exists u1, typ. split; [reflexivity|]. left. splits; auto. lia.
      - intros [_ (u' & t & E & [(_ & H1 & H2)|[(H1 & _)|(H1 & _)]])]; inversion E; subst; auto; lia. }
    destruct O2 as [(a & ->)|[-> | ->]].
    + eexists u2, _. splits; [eapply run_bind; [exact R|]; rwt; eapply run_bind; [exact R2|]; apply run_ret | left; eauto |].
      rewrite <- K. split; discriminate.
    + exists u2, (Err ErrUnexpectedEOF). splits; [eapply run_bind; [exact R|]; rwt; eapply run_bind_err; exact R2 | right; left; reflexivity |].
      rewrite <- K. split; discriminate.
    + exists u2, Panic. splits; [eapply run_bind; [exact R|]; rwt; eapply run_bind_panic; exact R2 | right; right; reflexivity |].
      rewrite <- K. tauto.
  - destruct (rectangles_outcome (S (length u1)) 0 num (repeat 0 8) (repeat 0 8) u1 ltac:(lia) ltac:(lia) eq_refl eq_refl) as (u2 & o & R2 & O2 & P2).
    apply (run_bits_fuel (fun f => rectangles f 0 num (repeat 0 8) (repeat 0 8))) in R2.
    assert (K : o = Panic <-> 0 < num /\ (exists u' t, (u1, Ok typ) = (u', Ok t) /\
       (t = 0 /\ 8 <= num /\ ues 8 u' \/ t = 2 /\ 8 < num /\ ues 16 u' \/
        t = 6 /\ (exists u2, spec_ue u' = (u2, Ok (2 ^ 32 - 1)))))).
    { rewrite P2. change (Z.to_nat (16 - 2 * 0)) with 16%nat. split.
      - intros [H1 H2]. split; [lia|]. exists u1, typ. split; [reflexivity|]. right; left. splits; auto. lia.
      - intros [_ (u' & t & E & [(H1 & _)|[(_ & H1 & H2)|(H1 & _)]])]; inversion E; subst; auto; lia. }
    destruct O2 as [([a b] & ->)|[-> | ->]].
    + eexists u2, _. splits; [eapply run_bind; [exact R|]; rwt; eapply run_bind; [exact R2|]; apply run_ret | left; eauto |].
      rewrite <- K. split; discriminate.
    + exists u2, (Err ErrUnexpectedEOF). splits; [eapply run_bind; [exact R|]; rwt; eapply run_bind_err; exact R2 | right; left; reflexivity |].
      rewrite <- K. split; discriminate.
    + exists u2, Panic. splits; [eapply run_bind; [exact R|]; rwt; eapply run_bind_panic; exact R2 | right; right; reflexivity |].
      rewrite <- K. tauto.
  - assert (T : tot any (dir <- RFlag ;; rate <- RUe ;; rret (typ, repeat 0 8, repeat 0 8, repeat 0 8, dir, rate, 0, @nil Z))) by tots.
    destruct (T u1) as (u2 & o & R2 & _ & O2). exists u2, o. splits; [eapply run_bind; [exact R|]; rwt; exact R2 | destruct O2 as [(a & -> & _)| ->]; unfold ok_eof_panic; eauto |].
    split; [destruct O2 as [(a & -> & _)| ->]; discriminate|].
    intros [_ (u' & t & E & [(H1 & _)|[(H1 & _)|(H1 & _)]])]; inversion E; subst; lia.
  - pose proof (run_ue u1) as R1. destruct (spec_ue_outcomes u1) as [(u2 & ps & Ew)|(u2 & Ew)]; rewrite Ew in *; cbn [fst snd] in R1.
    + pose proof (spec_ue_range _ _ _ Ew) as Rg.
      assert (W : (u32 (ps + 1) =? 0) = (ps =? 2 ^ 32 - 1)).
      { destruct (ps =? 2 ^ 32 - 1) eqn:E; [apply Z.eqb_eq in E; rewrite E; reflexivity|]. rewrite u32_small by lia. lia. }
      destruct (ps =? 2 ^ 32 - 1) eqn:Eps.
      * exists u2, Panic. splits; [|right; right; reflexivity|].
        -- eapply run_bind; [exact R|]. rwt. eapply run_bind; [exact R1|]. cbv beta. rewrite W.
           intros r G E. exists r. auto.
        -- split; [|reflexivity]. intros _. split; [lia|]. exists u1, typ. split; [reflexivity|]. right; right. split; [lia|].
           apply Z.eqb_eq in Eps. subst ps. eauto.
      * destruct (group_ids_tot (S (length u2)) (ps + 1) (group_bits num) u2 (group_bits_pos num ltac:(lia)) ltac:(lia)) as (u3 & o & R3 & _ & O3).
        apply (run_bits_fuel (fun f => group_ids f (ps + 1) (group_bits num))) in R3.
        assert (K : 0 < num /\ (exists u' t, (u1, Ok typ) = (u', Ok t) /\
           (t = 0 /\ 8 <= num /\ ues 8 u' \/ t = 2 /\ 8 < num /\ ues 16 u' \/
            t = 6 /\ (exists u2, spec_ue u' = (u2, Ok (2 ^ 32 - 1))))) -> False).
        { intros [_ (u' & t & E & [(H1 & _)|[(H1 & _)|(_ & w & H1)]])]; inversion E; subst; try lia.
          rewrite Ew in H1. inversion H1; subst. lia. }
        destruct O3 as [(a & -> & _)| ->].
        -- eexists u3, _. splits; [|left; eauto|split; [discriminate|tauto]].
           eapply run_bind; [exact R|]. rwt. eapply run_bind; [exact R1|]. cbv beta. rewrite W.
           eapply run_bind; [exact R3|]. apply run_ret.
        -- exists u3, (Err ErrUnexpectedEOF). splits; [|right; left; reflexivity|split; [discriminate|tauto]].
           eapply run_bind; [exact R|]. rwt. eapply run_bind; [exact R1|]. cbv beta. rewrite W.
           eapply run_bind_err; exact R3.
    + exists u2, (Err ErrUnexpectedEOF). splits; [|right; left; reflexivity|].
      * eapply run_bind; [exact R|]. rwt. eapply run_bind_err; exact R1.
      * split; [discriminate|].
        intros [_ (u' & t & E & [(H1 & _)|[(H1 & _)|(_ & w & H1)]])]; inversion E; subst; try lia. congruence.
  - eexists u1, _. splits; [|left; eauto|].
    + eapply run_bind; [exact R|]. rwt. apply run_ret.
    + split; [discriminate|].
      intros [_ (u' & t & E & [(H1 & _)|[(H1 & _)|(H1 & _)]])]; inversion E; subst; lia.
Qed.

Lemma tot_pps_tail c : tot any (pps_tail c).
Proof.
  unfold pps_tail. tots. match goal with |- context [if ?b then _ else _] => destruct b end; [|tots]. tots.
  eapply tot_bind; [apply (tot_when any); [exact I|]|]. 2:{ intros ? _. tots. }
  apply (tot_scaling_lists _ 0); [repeat match goal with |- context [if ?b then _ else _] => destruct b end; lia | apply mx0_ok].
Qed.

Lemma pps_body_outcome st u :
  exists u' o, run (parse_pps_body st) u u' o /\ ok_eof_panic o /\ (o = Panic <-> pps_crash u).
Proof.
  assert (EOF : forall u', run (parse_pps_body st) u u' (Err ErrUnexpectedEOF) -> ~ pps_crash u ->
    exists u' o, run (parse_pps_body st) u u' o /\ ok_eof_panic o /\ (o = Panic <-> pps_crash u)).
  { intros u' R N. exists u', (Err ErrUnexpectedEOF). splits; [exact R | right; left; reflexivity | split; [discriminate|tauto]]. }
  unfold parse_pps_body in *.
  pose proof (run_ue u) as R1. destruct (spec_ue_outcomes u) as [(u1 & id & E1)|(u1 & E1)]; rewrite E1 in R1; cbn [fst snd] in R1.
  2:{ apply (EOF u1); [eapply run_bind_err; exact R1|]. intros (? & ? & ? & ? & ? & ? & ? & ? & ? & H & _). congruence. }
  pose proof (run_ue u1) as R2. destruct (spec_ue_outcomes u1) as [(u2 & sid & E2)|(u2 & E2)]; rewrite E2 in R2; cbn [fst snd] in R2.
  2:{ apply (EOF u2); [eapply run_bind; [exact R1|]; eapply run_bind_err; exact R2|].
      intros (? & ? & ? & ? & ? & ? & ? & ? & ? & H & H2 & _). rewrite E1 in H. inversion H; subst. congruence. }
  pose proof (run_flag u2) as R3. destruct u2 as [|b1 u3]; cbn [spec_flag fst snd] in R3.
  { apply (EOF []); [eapply run_bind; [exact R1|]; eapply run_bind; [exact R2|]; cbv zeta; eapply run_bind_err; exact R3|].
    intros (? & ? & ? & ? & ? & ? & ? & ? & ? & H & H2 & H3 & _). rewrite E1 in H. inversion H; subst. congruence. }
  pose proof (run_flag u3) as R4. destruct u3 as [|b2 u4]; cbn [spec_flag fst snd] in R4.
  { apply (EOF []); [eapply run_bind; [exact R1|]; eapply run_bind; [exact R2|]; cbv zeta; eapply run_bind; [exact R3|]; eapply run_bind_err; exact R4|].
    intros (? & ? & ? & ? & ? & ? & ? & ? & ? & H & H2 & H3 & _). rewrite E1 in H. inversion H; subst. congruence. }
  pose proof (run_ue u4) as R5. destruct (spec_ue_outcomes u4) as [(u5 & num & E5)|(u5 & E5)]; rewrite E5 in R5; cbn [fst snd] in R5.
  2:{ apply (EOF u5); [eapply run_bind; [exact R1|]; eapply run_bind; [exact R2|]; cbv zeta; eapply run_bind; [exact R3|]; eapply run_bind; [exact R4|]; eapply run_bind_err; exact R5|].
      intros (? & ? & ? & ? & ? & ? & ? & ? & ? & H & H2 & H3 & H4 & _). rewrite E1 in H. inversion H; subst.
      rewrite E2 in H2. inversion H2; subst. congruence. }
  destruct (slice_groups_outcome num u5 (spec_ue_range _ _ _ E5)) as (u6 & o & R6 & O6 & P6).
  assert (K : o = Panic <-> pps_crash u).
  { rewrite P6. split.
    - intros [H1 H2]. exists u1, id, (b1 :: b2 :: u4), sid, b1, b2, u4, u5, num. splits; auto.
    - intros (? & ? & ? & ? & ? & ? & ? & ? & ? & H & H2 & H3 & H4 & H5 & H6).
      rewrite E1 in H. inversion H; subst. rewrite E2 in H2. inversion H2; subst. rewrite E5 in H4. inversion H4; subst. auto. }
  assert (T : forall p, tot any (
    '(typ, rl, tl, br, dir, rate, ps, ids) <- rret p ;;
    l0 <- RUe ;; l1 <- RUe ;; wp <- RFlag ;; wb <- RByte 2 ;; qp <- RSe ;; qs <- RSe ;; cq <- RSe ;; db <- RFlag ;; ci <- RFlag ;; rp <- RFlag ;;
    '(t8, mp, m, sc) <- pps_tail (match st sid with Some s => sps_chroma_format_idc s | None => 3 end) ;;
    rret (mkPps id sid b1 b2 num typ rl tl br dir rate ps ids l0 l1 wp wb qp qs cq db ci rp t8 mp m sc))).
  { intros p. eapply tot_bind; [apply (tot_ret any); exact I|]. intros [[[[[[[? ?] ?] ?] ?] ?] ?] ?] _. tots.
    eapply tot_bind; [apply tot_pps_tail|]. intros [[[? ?] ?] ?] _. tots. }
  destruct O6 as [(a & ->)|[-> | ->]].
  - destruct (T a u6) as (u7 & o & R7 & _ & O7). exists u7, o. splits.
    + eapply run_bind; [exact R1|]. eapply run_bind; [exact R2|]. cbv zeta. eapply run_bind; [exact R3|]. eapply run_bind; [exact R4|].
      eapply run_bind; [exact R5|]. eapply run_bind; [exact R6|]. exact R7.
    + destruct O7 as [(x & -> & _)| ->]; unfold ok_eof_panic; eauto.
    + rewrite <- K. split; [destruct O7 as [(x & -> & _)| ->]|]; discriminate.
  - apply (EOF u6); [|rewrite <- K; discriminate].
    eapply run_bind; [exact R1|]. eapply run_bind; [exact R2|]. cbv zeta. eapply run_bind; [exact R3|]. eapply run_bind; [exact R4|].
    eapply run_bind; [exact R5|]. eapply run_bind_err; exact R6.
  - exists u6, Panic. splits; [|right; right; reflexivity|rewrite <- K; tauto].
    eapply run_bind; [exact R1|]. eapply run_bind; [exact R2|]. cbv zeta. eapply run_bind; [exact R3|]. eapply run_bind; [exact R4|].
    eapply run_bind; [exact R5|]. eapply run_bind_panic; exact R6.
Qed.

Lemma pps_outcome st buf : buf_ok buf ->
  exists r o, parse_pps_body st (new_reader buf) = (r, o) /\ ok_eof_panic o /\ (o = Panic <-> pps_crash (bits_of buf)).
Proof.
  intros H. destruct buf as [|b buf].
  { exists (new_reader []), (Err ErrUnexpectedEOF). splits; [apply pps_empty | right; left; reflexivity |].
    split; [discriminate|]. intros (? & ? & ? & ? & ? & ? & ? & ? & ? & E & _). discriminate. }
  destruct (pps_body_outcome st (bits_of (b :: buf))) as (u' & o & R & O & P).
  destruct (R (new_reader (b :: buf)) (new_good _ H ltac:(discriminate)) (unread_new _)) as (r' & E & _). eauto.
Qed.
