(* Lemmas for P_follow: what a parser reads does not depend on the bits that come after. *)
From Coq Require Import ZifyBool ZifyNat.
From Verif Require Import Base S_bits M_bits S_sps M_sps S_spsrel S_follow L_base L_bits L_sps.

(* m does the same with the bits t behind, if it succeeds without them and the result satisfies Q *)
Definition lngq {A} (Q : A -> Prop) (t : list bool) (m : rd A) : Prop :=
  forall u, exists u' o, L_sps.run m u u' o /\ forall a, o = Ok a -> Q a -> L_sps.run m (u ++ t) (u' ++ t) (Ok a).
Definition lng {A} (t : list bool) (m : rd A) : Prop :=
  forall u, exists u' o, L_sps.run m u u' o /\ forall a, o = Ok a -> L_sps.run m (u ++ t) (u' ++ t) (Ok a).

Lemma lng_const {A} t (o : res A) : lng t (fun r => (r, o)).
Proof. intros u. exists u, o. split; [intros r G E; exists r; auto|]. intros a -> r G E. exists r. auto. Qed.
Lemma lng_ret {A} t (a : A) : lng t (rret a).
Proof. apply (lng_const t (Ok a)). Qed.
Lemma run_bind_out {A B} (m : rd A) (f : A -> rd B) u u1 o : L_sps.run m u u1 o -> (forall a, o <> Ok a) ->
  exists o', L_sps.run (rbind m f) u u1 o' /\ forall b, o' <> Ok b.
Proof.
  intros R N. destruct o as [a|e| |]; [destruct (N a eq_refl)| | |]; [exists (Err e)|exists Panic|exists Fuel];
  (split; [|discriminate]; intros r G E; destruct (R r G E) as (r1 & E1 & G1); exists r1; unfold rbind; rewrite E1; auto).
Qed.
Lemma lngq_bind {A B} Q t (m : rd A) (f : A -> rd B) : lng t m -> (forall a, lngq Q t (f a)) -> lngq Q t (rbind m f).
Proof.
  intros M F u. destruct (M u) as (u1 & o & R & H). destruct o as [a|e| |].
  - destruct (F a u1) as (u2 & o2 & R2 & H2). exists u2, o2. split; [eapply run_bind; eauto|]. intros b E K. eapply run_bind; [apply H; reflexivity|apply H2; assumption].
  - destruct (run_bind_out m f u u1 (Err e) R) as (o' & R' & N); [discriminate|]. exists u1, o'. split; [exact R'|]. intros b E. destruct (N b E).
  - destruct (run_bind_out m f u u1 Panic R) as (o' & R' & N); [discriminate|]. exists u1, o'. split; [exact R'|]. intros b E. destruct (N b E).
  - destruct (run_bind_out m f u u1 Fuel R) as (o' & R' & N); [discriminate|]. exists u1, o'. split; [exact R'|]. intros b E. destruct (N b E).
Qed.
Lemma lng_q {A} t (m : rd A) : lng t m <-> lngq (fun _ => True) t m.
Proof. split; intros H u; destruct (H u) as (u' & o & R & K); exists u', o; split; auto. Qed.
Lemma lng_bind {A B} t (m : rd A) (f : A -> rd B) : lng t m -> (forall a, lng t (f a)) -> lng t (rbind m f).
Proof. intros M F. apply lng_q, lngq_bind; [exact M|]. intros a. apply lng_q, F. Qed.
Lemma lng_when {A} t c (d : A) m : lng t m -> lng t (rwhen c d m).
Proof. intros H. destruct c; [exact H|apply lng_ret]. Qed.

Lemma long_read n u u' v t : 0 <= n -> zlen t mod 8 = 0 -> spec_read n u = (u', Ok v) -> spec_read n (u ++ t) = (u' ++ t, Ok v).
Proof.
  unfold spec_read. intros N T. destruct ((n >? 32) || (n >? zlen u)) eqn:C; [discriminate|]. intros E. inversion E; subst.
  assert (K : (Z.to_nat n <= length u)%nat) by (unfold zlen in *; lia).
  replace ((n >? 32) || (n >? zlen (u ++ t))) with false by (unfold zlen in *; rewrite app_length in *; lia).
  rewrite skipn_app, firstn_app. replace (Z.to_nat n - length u)%nat with 0%nat by lia. cbn [skipn firstn]. rewrite app_nil_r.
  do 4 f_equal. unfold acc_width. f_equal. rewrite L_base.zlen_app. rewrite Z.add_mod, T, Z.add_0_r, Z.mod_mod by lia. reflexivity.
Qed.
Lemma long_zeroes u k r t : spec_zeroes u = Some (k, r) -> spec_zeroes (u ++ t) = Some (k, r ++ t).
Proof.
  revert k r. induction u as [|[] u IH]; intros k r; cbn [spec_zeroes app]; [discriminate|intros E; inversion E; reflexivity|].
  destruct (spec_zeroes u) as [[j q]|]; [|discriminate]. intros E. inversion E; subst. rewrite (IH _ _ eq_refl). reflexivity.
Qed.
Lemma long_ue u u' v t : zlen t mod 8 = 0 -> spec_ue u = (u', Ok v) -> spec_ue (u ++ t) = (u' ++ t, Ok v).
Proof.
  intros T. unfold spec_ue. destruct (spec_zeroes u) as [[z r]|] eqn:Ez; [|discriminate]. rewrite (long_zeroes _ _ _ t Ez).
  destruct (spec_read (Z.of_nat z) r) as [r' [x|e| |]] eqn:R; try discriminate. intros E. inversion E; subst.
  rewrite (long_read _ _ _ _ t (Zle_0_nat z) T R). reflexivity.
Qed.
Lemma long_se u u' v t : zlen t mod 8 = 0 -> spec_se u = (u', Ok v) -> spec_se (u ++ t) = (u' ++ t, Ok v).
Proof.
  intros T. unfold spec_se. destruct (spec_ue u) as [r [k|e| |]] eqn:Ez; try discriminate. rewrite (long_ue _ _ _ t T Ez). intros E. inversion E; subst. reflexivity.
Qed.
Lemma long_scaling : forall n first u lastS nextS ud u' l b t, zlen t mod 8 = 0 ->
  spec_scaling n first u lastS nextS ud = (u', l, Ok b) -> spec_scaling n first (u ++ t) lastS nextS ud = (u' ++ t, l, Ok b).
Proof.
  induction n as [|n IH]; intros first u lastS nextS ud u' l b t T; cbn [spec_scaling]; [intros E; inversion E; reflexivity|].
  destruct (nextS =? 0).
  - destruct (spec_scaling n false u lastS nextS ud) as [[u1 l1] o1] eqn:E1. intros E. inversion E; subst. rewrite (IH _ _ _ _ _ _ _ _ _ T E1). reflexivity.
  - destruct (spec_se u) as [u0 [d|e| |]] eqn:E0; try discriminate. rewrite (long_se _ _ _ t T E0). cbv zeta.
    match goal with |- (let '(_, _) := spec_scaling ?a ?b ?c ?d ?e ?f in _) = _ -> _ => destruct (spec_scaling a b c d e f) as [[u1 l1] o1] eqn:E1 end.
    intros E. inversion E; subst. rewrite (IH _ _ _ _ _ _ _ _ _ T E1). reflexivity.
Qed.

Lemma lng_spec {A} t (m : rd A) sp : (forall u, L_sps.run m u (fst (sp u)) (snd (sp u))) ->
  (forall u u' v, sp u = (u', Ok v) -> sp (u ++ t) = (u' ++ t, Ok v)) -> lng t m.
Proof.
  intros R H u. exists (fst (sp u)), (snd (sp u)). split; [apply R|]. intros a E. pose proof (H u (fst (sp u)) a) as K.
  specialize (K ltac:(rewrite <- E; apply surjective_pairing)). pose proof (R (u ++ t)) as R'. rewrite K in R'. exact R'.
Qed.
Lemma lng_ue t : zlen t mod 8 = 0 -> lng t RUe.
Proof. intros T. apply (lng_spec t RUe spec_ue run_ue). intros u u' v. apply long_ue, T. Qed.
Lemma lng_se t : zlen t mod 8 = 0 -> lng t RSe.
Proof. intros T. apply (lng_spec t RSe spec_se run_se). intros u u' v. apply long_se, T. Qed.
Lemma lng_flag t : lng t RFlag.
Proof. apply (lng_spec t RFlag spec_flag run_flag). intros [|b u] u' v E; inversion E; reflexivity. Qed.
Lemma lng_byte t n : 0 <= n -> zlen t mod 8 = 0 -> lng t (RByte n).
Proof. intros N T. apply (lng_spec t (RByte n) (spec_read_byte n)); [intros u; apply run_byte, N|]. intros u u' v. apply long_read; [lia|exact T]. Qed.
Lemma lng_scaling t n : zlen t mod 8 = 0 -> lng t (RScaling n).
Proof.
  intros T u. destruct (run_scaling n u) as (u' & l & o & E & R). exists u', (let! b := o in Ok (l, b)). split; [exact R|].
  intros a H. destruct o as [b|e| |]; try discriminate. cbn [bind] in H. inversion H; subst.
  destruct (run_scaling n (u ++ t)) as (w & l' & o & E' & R'). rewrite (long_scaling _ _ _ _ _ _ _ _ _ t T E) in E'. inversion E'; subst. exact R'.
Qed.
Lemma lng_lists t : zlen t mod 8 = 0 -> forall todo i off size m, lng t (scaling_lists todo i off size m).
Proof.
  intros T. induction todo as [|k IH]; intros i off size m; cbn [scaling_lists]; [apply lng_ret|].
  apply lng_bind; [apply lng_flag|]. intros p. apply lng_bind; [|intros; apply IH].
  destruct p; [|apply lng_ret]. apply lng_bind; [apply lng_scaling, T|]. intros [l d].
  destruct (put_slice (mx_list m) off l), (put_slice (mx_default m) i [d]); apply lng_const.
Qed.
(* loops with the unread bits as fuel *)
Lemma lng_loop {A} t (g : nat -> rd A) :
  (forall k f u, exists u' o, L_sps.run (g f) u u' o /\ forall a, o = Ok a -> L_sps.run (g (f + k)%nat) (u ++ t) (u' ++ t) (Ok a)) ->
  lng t (fun r => g (bits_fuel r) r).
Proof.
  intros H u. destruct (H (length t) (S (length u)) u) as (u' & o & R & K). exists u', o. split; [apply run_bits_fuel, R|].
  intros a E. apply run_bits_fuel. rewrite app_length. apply (K a E).
Qed.
Lemma loop_step {A B} t (m : rd A) (f g : A -> rd B) : lng t m ->
  (forall a u, exists u' o, L_sps.run (f a) u u' o /\ forall b, o = Ok b -> L_sps.run (g a) (u ++ t) (u' ++ t) (Ok b)) ->
  forall u, exists u' o, L_sps.run (rbind m f) u u' o /\ forall b, o = Ok b -> L_sps.run (rbind m g) (u ++ t) (u' ++ t) (Ok b).
Proof.
  intros M F u. destruct (M u) as (u1 & o & R & H). destruct o as [a|e| |].
  - destruct (F a u1) as (u2 & o2 & R2 & H2). exists u2, o2. split; [eapply run_bind; eauto|]. intros b E. eapply run_bind; [apply H; reflexivity|apply H2; assumption].
  - destruct (run_bind_out m f u u1 (Err e) R) as (o' & R' & N); [discriminate|]. exists u1, o'. split; [exact R'|]. intros b E. destruct (N b E).
  - destruct (run_bind_out m f u u1 Panic R) as (o' & R' & N); [discriminate|]. exists u1, o'. split; [exact R'|]. intros b E. destruct (N b E).
  - destruct (run_bind_out m f u u1 Fuel R) as (o' & R' & N); [discriminate|]. exists u1, o'. split; [exact R'|]. intros b E. destruct (N b E).
Qed.
Lemma loop_ret {A} t (a : A) u : exists u' o, L_sps.run (rret a) u u' o /\ forall b, o = Ok b -> L_sps.run (rret a) (u ++ t) (u' ++ t) (Ok b).
Proof. apply (lng_ret t a u). Qed.
Lemma lng_skip t n : zlen t mod 8 = 0 -> lng t (skip_se n).
Proof.
  intros T. apply (lng_loop t (fun f => skip_se_loop f n)). intros k f. revert n. induction f as [|f IH]; intros n u.
  - cbn [skip_se_loop]. destruct (n <=? 0) eqn:N.
    + exists u, (Ok tt). split; [apply run_ret|]. intros a E. inversion E; subst. destruct k; cbn [plus skip_se_loop]; rewrite N; apply run_ret.
    + exists u, Fuel. split; [intros r G E; exists r; auto|discriminate].
  - cbn [plus skip_se_loop]. destruct (n <=? 0); [apply loop_ret|]. apply loop_step; [apply lng_se, T|]. intros a v. apply IH.
Qed.
Lemma lng_into t arr i m : lng t m -> lng t (read_into arr i m).
Proof.
  intros M u. destruct (M u) as (u' & o & R & H). destruct o as [x|e| |].
  - exists u', (put_index arr i x). split; [intros r G E; destruct (R r G E) as (r1 & E1 & G1); exists r1; unfold read_into; rewrite E1; auto|].
    intros a E r G E'. destruct (H x eq_refl r G E') as (r1 & E1 & G1). exists r1. unfold read_into. rewrite E1, E. auto.
  - exists u', (match put_index arr i 0 with Ok _ => Err e | _ => Panic end). split.
    + intros r G E. destruct (R r G E) as (r1 & E1 & G1). exists r1. unfold read_into. rewrite E1. destruct (put_index arr i 0); auto.
    + intros a E. destruct (put_index arr i 0); discriminate.
  - exists u', Panic. split; [|discriminate]. intros r G E; destruct (R r G E) as (r1 & E1 & G1); exists r1; unfold read_into; rewrite E1; auto.
  - exists u', Fuel. split; [|discriminate]. intros r G E; destruct (R r G E) as (r1 & E1 & G1); exists r1; unfold read_into; rewrite E1; auto.
Qed.
Lemma lng_lengths t i num arr : zlen t mod 8 = 0 -> lng t (fun r => run_lengths (bits_fuel r) i num arr r).
Proof.
  intros T. apply (lng_loop t (fun f => run_lengths f i num arr)). intros k f. revert i arr. induction f as [|f IH]; intros i arr u.
  - cbn [run_lengths]. destruct (i <=? num) eqn:N.
    + exists u, Fuel. split; [intros r G E; exists r; auto|discriminate].
    + exists u, (Ok arr). split; [apply run_ret|]. intros a E. inversion E; subst. destruct k; cbn [plus run_lengths]; rewrite N; apply run_ret.
  - cbn [plus run_lengths]. destruct (i <=? num); [|apply loop_ret]. apply loop_step; [apply lng_into, lng_ue, T|]. intros a v. apply IH.
Qed.
Lemma lng_rectangles t i num tl br : zlen t mod 8 = 0 -> lng t (fun r => rectangles (bits_fuel r) i num tl br r).
Proof.
  intros T. apply (lng_loop t (fun f => rectangles f i num tl br)). intros k f. revert i tl br. induction f as [|f IH]; intros i tl br u.
  - cbn [rectangles]. destruct (i <? num) eqn:N.
    + exists u, Fuel. split; [intros r G E; exists r; auto|discriminate].
    + exists u, (Ok (tl, br)). split; [apply run_ret|]. intros a E. inversion E; subst. destruct k; cbn [plus rectangles]; rewrite N; apply run_ret.
  - cbn [plus rectangles]. destruct (i <? num); [|apply loop_ret]. apply loop_step; [apply lng_into, lng_ue, T|]. intros a v. apply loop_step; [apply lng_into, lng_ue, T|]. intros b w. apply IH.
Qed.
Lemma lng_ids t n bits : zlen t mod 8 = 0 -> 0 <= bits -> lng t (fun r => group_ids (bits_fuel r) n bits r).
Proof.
  intros T B. apply (lng_loop t (fun f => group_ids f n bits)). intros k f. revert n. induction f as [|f IH]; intros n u.
  - cbn [group_ids]. destruct (n <=? 0) eqn:N.
    + exists u, (Ok []). split; [apply run_ret|]. intros a E. inversion E; subst. destruct k; cbn [plus group_ids]; rewrite N; apply run_ret.
    + exists u, Fuel. split; [intros r G E; exists r; auto|discriminate].
  - cbn [plus group_ids]. destruct (n <=? 0); [apply loop_ret|]. apply loop_step; [apply lng_byte; assumption|]. intros a v.
    destruct (IH (n - 1) v) as (v' & o & R & H). destruct o as [l|e| |].
    + exists v', (Ok (a :: l)). split; [eapply run_bind; [exact R|apply run_ret]|]. intros b E. inversion E; subst. eapply run_bind; [apply H; reflexivity|apply run_ret].
    + exists v', (Err e). split; [eapply run_bind_err; exact R|discriminate].
    + exists v', Panic. split; [eapply run_bind_panic; exact R|discriminate].
    + exists v', Fuel. split; [|discriminate]. intros r G E. destruct (R r G E) as (r1 & E1 & G1). exists r1. unfold rbind. rewrite E1. auto.
Qed.

Ltac lngs T := repeat first
  [ apply lng_bind; [first [apply lng_ue, T | apply lng_se, T | apply lng_flag | apply lng_skip, T | apply lng_byte; [lia|exact T]
      | apply lng_when; first [apply lng_flag|apply lng_lists, T]]|]; intros ?
  | apply lng_ret ].

Lemma lng_chroma t p : zlen t mod 8 = 0 -> lng t (parse_sps_chroma p).
Proof. intros T. unfold parse_sps_chroma. destruct (high_profile p); lngs T. Qed.
Lemma lng_poc t p : zlen t mod 8 = 0 -> lng t (parse_sps_poc p).
Proof. intros T. unfold parse_sps_poc. destruct (p =? 0); lngs T. Qed.
Lemma lng_crop t c : zlen t mod 8 = 0 -> lng t (parse_sps_crop c).
Proof. intros T. unfold parse_sps_crop. destruct c; lngs T. Qed.
Lemma lng_sps t : zlen t mod 8 = 0 -> lng t parse_sps_body.
Proof.
  intros T. unfold parse_sps_body. lngs T.
  apply lng_bind; [apply lng_chroma, T|]. intros [[[[[[? ?] ?] ?] ?] ?] ?]. lngs T.
  apply lng_bind; [apply lng_poc, T|]. intros [[[[? ?] ?] ?] ?]. lngs T. cbv zeta. lngs T.
  apply lng_bind; [apply lng_crop, T|]. intros [[[? ?] ?] ?]. lngs T.
Qed.
Lemma lng_groups t num : zlen t mod 8 = 0 -> lng t (slice_groups num).
Proof.
  intros T. unfold slice_groups. cbv zeta. destruct (num >? 0) eqn:N; [|apply lng_ret]. apply lng_bind; [apply lng_ue, T|]. intros typ.
  destruct (typ =? 0); [apply lng_bind; [apply lng_lengths, T|intros; apply lng_ret]|].
  destruct (typ =? 2); [apply lng_bind; [apply lng_rectangles, T|intros [? ?]; apply lng_ret]|].
  destruct (typ =? 5); [lngs T|]. destruct (typ =? 6); [|apply lng_ret].
  apply lng_bind; [apply lng_ue, T|]. intros ps. destruct (u32 (ps + 1) =? 0); [apply (lng_const t Panic)|].
  apply lng_bind; [apply lng_ids; [exact T|]|intros; apply lng_ret]. unfold group_bits. destruct (u32 (num + 1) =? 0); [lia|apply Z.log2_up_nonneg].
Qed.

(* ---- picture parameter sets ---- *)
Lemma lngq_tail t chroma (k : bool * bool * matrix * Z -> rd pps_info) i : zlen t mod 8 = 0 -> (forall p, lng t (k p)) -> k (false, false, matrix0, 0) = rret i -> ~ told i ->
  lngq told t (rbind (pps_tail chroma) k).
Proof.
  intros T K I N u.
  set (m := t8 <- RFlag ;; mp <- RFlag ;; m <- rwhen mp matrix0 (scaling_lists (if t8 then (if chroma =? 3 then 12 else 8) else 6) 0 0 16 matrix0) ;; sc <- RSe ;; rret (t8, mp, m, sc) : rd (bool * bool * matrix * Z)).
  assert (M : lng t (rbind m k)) by (apply lng_bind; [subst m; lngs T|exact K]).
  assert (B : forall w, 0 < zlen w -> forall w' o, L_sps.run (rbind m k) w w' o -> L_sps.run (rbind (pps_tail chroma) k) w w' o).
  { intros w W w' o R r G E. destruct (R r G E) as (r1 & E1 & G1). exists r1. split; [|exact G1]. rewrite <- E1.
    destruct (run_avail w r G E) as (r2 & E2 & _). unfold pps_tail. unfold rbind at 1 2. rewrite E2.
    unfold RAvail in E2. inversion E2; subst r2. replace (available r >? 0) with true by lia. reflexivity. }
  destruct u as [|b u].
  - exists [], (Ok i). split; [|intros a E Q; inversion E; subst; contradiction].
    eapply run_bind with (a := (false, false, matrix0, 0)); [|rewrite I; apply run_ret]. unfold pps_tail. eapply run_bind; [apply run_avail|]. apply run_ret.
  - destruct (M (b :: u)) as (u' & o & R & H). exists u', o. split; [apply B; [rewrite L_base.zlen_cons; unfold zlen; lia|exact R]|].
    intros a E _. apply B; [cbn [app]; rewrite L_base.zlen_cons; unfold zlen; lia|]. apply H, E.
Qed.
Lemma lngq_pps t st : zlen t mod 8 = 0 -> lngq told t (parse_pps_body st).
Proof.
  intros T. unfold parse_pps_body.
  do 2 (apply lngq_bind; [apply lng_ue, T|]; intros ?). cbv zeta. do 2 (apply lngq_bind; [apply lng_flag|]; intros ?). apply lngq_bind; [apply lng_ue, T|]; intros ?.
  apply lngq_bind; [apply lng_groups, T|]. intros [[[[[[[? ?] ?] ?] ?] ?] ?] ?].
  repeat (apply lngq_bind; [first [apply lng_ue, T | apply lng_se, T | apply lng_flag | apply lng_byte; [lia|exact T]]|]; intros ?).
  eapply lngq_tail; [exact T|intros [[[? ?] ?] ?]; apply lng_ret|reflexivity|]. unfold told. cbn. intuition congruence.
Qed.

Lemma tail_bytes tl : zlen (bits_of tl) mod 8 = 0.
Proof. rewrite zlen_bits_of, Z.mul_comm. apply Z.mod_mul. lia. Qed.
Lemma ok_prefix buf tl : buf_ok (buf ++ tl) -> buf_ok buf.
Proof. intros [B L]. apply Forall_app in B as (B & _). split; [exact B|]. rewrite L_base.zlen_app in L. unfold zlen in *. lia. Qed.
Lemma sps_follow s buf tl : buf_ok (buf ++ tl) -> snd (parse_sps s buf) = Ok tt -> parse_sps s (buf ++ tl) = parse_sps s buf.
Proof.
  intros H. unfold parse_sps. destruct buf as [|b buf]; [rewrite sps_empty; discriminate|].
  destruct (lng_sps (bits_of tl) (tail_bytes tl) (bits_of (b :: buf))) as (u' & o & R & K). rewrite <- bits_of_app in K.
  destruct (R (new_reader (b :: buf)) (new_good _ (ok_prefix _ _ H) ltac:(discriminate)) (unread_new _)) as (r & E & _). rewrite E.
  destruct o as [i|e| |]; try discriminate. intros _.
  destruct (K i eq_refl (new_reader ((b :: buf) ++ tl)) (new_good _ H ltac:(discriminate)) (unread_new _)) as (r' & E' & _). rewrite E'. reflexivity.
Qed.
Lemma pps_follow s buf tl id i : buf_ok (buf ++ tl) -> snd (parse_pps s buf) = Ok tt ->
  get_pps s id <> Some i -> get_pps (fst (parse_pps s buf)) id = Some i -> told i -> parse_pps s (buf ++ tl) = parse_pps s buf.
Proof.
  intros H. unfold parse_pps. destruct buf as [|b buf]; [rewrite pps_empty; discriminate|].
  destruct (lngq_pps (bits_of tl) (st_sps s) (tail_bytes tl) (bits_of (b :: buf))) as (u' & o & R & K). rewrite <- bits_of_app in K.
  destruct (R (new_reader (b :: buf)) (new_good _ (ok_prefix _ _ H) ltac:(discriminate)) (unread_new _)) as (r & E & _). rewrite E.
  destruct o as [j|e| |]; try discriminate. intros _ N G Q. cbn [fst get_pps st_pps] in G. unfold map_set in G.
  destruct (id =? pps_id j); [|destruct (N G)]. inversion G; subst j.
  destruct (K i eq_refl Q (new_reader ((b :: buf) ++ tl)) (new_good _ H ltac:(discriminate)) (unread_new _)) as (r' & E' & _). rewrite E'. reflexivity.
Qed.
