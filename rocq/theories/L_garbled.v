From Coq Require Import String.
From Verif Require Import Base GoStrings S_sdp S_garbled M_sdp L_base L_strings L_crash L_sdp.
From Coq Require Import ZifyBool ZifyNat.

Lemma letter64_val c x : letter64 c x <-> b64_val c = Some x.
Proof.
  split.
  - intros [P N]. assert (L : (Z.to_nat x < 64)%nat) by (change 64%nat with (length alphabet64); apply nth_error_Some; congruence).
    assert (G : forall n, (n < 64)%nat -> nth_error alphabet64 n = Some c -> b64_val c = Some (Z.of_nat n)).
    { clear. intros n H E. do 64 (destruct n as [|n]; [vm_compute in E; injection E as <-; reflexivity|]). lia. }
    rewrite (G _ L N). f_equal. lia.
  - intros V. pose proof (b64_val_range c x V) as R. split; [lia|].
    assert (C : c = b64_char x).
    { unfold b64_val, b64_char in *.
      destruct ((65 <=? c) && (c <=? 90)) eqn:A1; [injection V as <-; replace (c - 65 <? 26) with true by lia; lia|].
      destruct ((97 <=? c) && (c <=? 122)) eqn:A2; [injection V as <-; replace (c - 71 <? 26) with false by lia; replace (c - 71 <? 52) with true by lia; lia|].
      destruct ((48 <=? c) && (c <=? 57)) eqn:A3; [injection V as <-; replace (c + 4 <? 26) with false by lia; replace (c + 4 <? 52) with false by lia; replace (c + 4 <? 62) with true by lia; lia|].
      destruct (c =? 43) eqn:A4; [injection V as <-; cbn; lia|]. destruct (c =? 47) eqn:A5; [injection V as <-; cbn; lia|discriminate]. }
    subst c. clear V.
    assert (G : forall n, (n < 64)%nat -> nth_error alphabet64 n = Some (b64_char (Z.of_nat n))).
    { clear. intros n H. do 64 (destruct n as [|n]; [reflexivity|]). lia. }
    rewrite (G (Z.to_nat x)) by lia. do 2 f_equal. lia.
Qed.

Lemma letter64_range c x : letter64 c x -> 0 <= x < 64.
Proof. intros L. apply (b64_val_range c). apply letter64_val. exact L. Qed.

Lemma val_pad : b64_val 61 = None. Proof. reflexivity. Qed.

(* a text that stands for something is read right *)
Lemma spells_quanta p x : spells64 p x -> b64_quanta p = (x, true).
Proof.
  induction 1 as [|a b c d x y z w i j k p t A B C D I J K E _ IH|a b c x y z i j e A B C I J V E|a b x y i e A B I V E]; [reflexivity| | |].
  - cbn [b64_quanta]. pose proof (letter64_range _ _ A); pose proof (letter64_range _ _ B); pose proof (letter64_range _ _ C); pose proof (letter64_range _ _ D).
    apply letter64_val in A, B, C, D. rewrite A, B, C, D, IH. unfold byte_ok in *.
    assert (i = x * 4 + y / 16) as -> by lia. assert (j = y mod 16 * 16 + z / 4) as -> by lia. assert (k = z mod 4 * 64 + w) as -> by lia. reflexivity.
  - cbn [b64_quanta]. pose proof (letter64_range _ _ A); pose proof (letter64_range _ _ B); pose proof (letter64_range _ _ C).
    apply letter64_val in A, B, C. rewrite A, B, C, val_pad. change (61 =? 61) with true. cbv iota. unfold byte_ok in *.
    assert (i = x * 4 + y / 16) as -> by lia. assert (j = y mod 16 * 16 + z / 4) as -> by lia. reflexivity.
  - cbn [b64_quanta]. pose proof (letter64_range _ _ A); pose proof (letter64_range _ _ B).
    apply letter64_val in A, B. rewrite A, B, val_pad. change (61 =? 61) with true. cbn [andb]. unfold byte_ok in *.
    assert (i = x * 4 + y / 16) as -> by lia. reflexivity.
Qed.

Lemma quanta_four a b c d r : b64_quanta (a :: b :: c :: d :: r) =
  match b64_val a, b64_val b with
  | Some x, Some y =>
      match b64_val c with
      | Some z =>
          match b64_val d with
          | Some w => (x * 4 + y / 16 :: y mod 16 * 16 + z / 4 :: z mod 4 * 64 + w :: fst (b64_quanta r), snd (b64_quanta r))
          | None => if d =? 61 then ([x * 4 + y / 16; y mod 16 * 16 + z / 4], match r with [] => true | _ => false end) else ([], false)
          end
      | None => if (c =? 61) && (d =? 61) then ([x * 4 + y / 16], match r with [] => true | _ => false end) else ([], false)
      end
  | _, _ => ([], false)
  end.
Proof.
  cbn [b64_quanta]. destruct (b64_val a), (b64_val b); try reflexivity. destruct (b64_val c); [|reflexivity]. destruct (b64_val d); [|reflexivity].
  destruct (b64_quanta r). reflexivity.
Qed.

(* what is read of any text is what its beginning stands for, as far as it goes *)
Lemma quanta_salvaged n : forall s, (length s <= n)%nat -> exists p r, s = p ++ r /\ spells64 p (fst (b64_quanta s)) /\
  (snd (b64_quanta s) = true -> r = []) /\
  (r = [] \/ last p 0 = 61 \/ forall q r', r = q ++ r' -> length q = 4%nat -> forall y, ~ spells64 q y).
Proof.
  induction n as [|n IH]; intros s L.
  { destruct s; [|cbn in L; lia]. exists [], []. splits; [reflexivity|constructor|reflexivity|left; reflexivity]. }
  assert (No : fst (b64_quanta s) = [] /\ snd (b64_quanta s) = false -> exists p r, s = p ++ r /\ spells64 p (fst (b64_quanta s)) /\ (snd (b64_quanta s) = true -> r = []) /\
    (r = [] \/ last p 0 = 61 \/ forall q r', r = q ++ r' -> length q = 4%nat -> forall y, ~ spells64 q y)).
  { intros [E F]. rewrite E, F. exists [], s. splits; [reflexivity|constructor|discriminate|right; right].
    intros q r' Q4 Q y Y. subst s. apply spells_quanta in Y.
    destruct q as [|a [|b [|c [|d [|e q]]]]]; cbn [length] in Q; try lia. cbn [app] in E, F. rewrite quanta_four in E, F, Y.
    destruct (b64_val a), (b64_val b); try discriminate. destruct (b64_val c).
    - destruct (b64_val d); [discriminate|]. destruct (d =? 61); discriminate.
    - destruct ((c =? 61) && (d =? 61)); discriminate. }
  destruct s as [|a [|b [|c [|d s]]]]; try (apply No; split; reflexivity).
  { exists [], []. splits; [reflexivity|constructor|reflexivity|left; reflexivity]. }
  rewrite quanta_four in No |- *.
  destruct (b64_val a) as [x|] eqn:A; [|apply No; split; reflexivity]. destruct (b64_val b) as [y|] eqn:B; [|apply No; split; reflexivity].
  pose proof (b64_val_range _ _ A) as Ra. pose proof (b64_val_range _ _ B) as Rb.
  destruct (b64_val c) as [z|] eqn:C.
  - pose proof (b64_val_range _ _ C) as Rc. destruct (b64_val d) as [w|] eqn:D.
    + pose proof (b64_val_range _ _ D) as Rd. destruct (IH s ltac:(cbn [length] in L; lia)) as (p & r & E & P & Q & R).
      exists (a :: b :: c :: d :: p), r. cbn [fst snd]. splits.
      * cbn [app]. rewrite <- E. reflexivity.
      * apply (sp_four a b c d x y z w); try (apply letter64_val; assumption); unfold byte_ok; try lia. exact P.
      * exact Q.
      * destruct R as [R|[R|R]]; [left; exact R| |right; right; exact R]. right. left. destruct p; [cbn in R; lia|]. exact R.
    + destruct (d =? 61) eqn:D6; [|apply No; split; reflexivity]. assert (d = 61) as -> by lia. exists [a; b; c; 61], s. cbn [fst snd]. splits.
      * reflexivity.
      * apply (sp_three a b c x y z _ _ (z mod 4)); try (apply letter64_val; assumption); unfold byte_ok; lia.
      * destruct s; [reflexivity|discriminate].
      * right. left. reflexivity.
  - destruct ((c =? 61) && (d =? 61)) eqn:D6; [|apply No; split; reflexivity]. assert (c = 61 /\ d = 61) as [-> ->] by lia. exists [a; b; 61; 61], s. cbn [fst snd]. splits.
    + reflexivity.
    + apply (sp_two a b x y _ (y mod 16)); try (apply letter64_val; assumption); unfold byte_ok; lia.
    + destruct s; [reflexivity|discriminate].
    + right. left. reflexivity.
Qed.

(* and nothing else is salvaged *)
Lemma salvaged_quanta p x : spells64 p x -> forall r, (r = [] \/ last p 0 = 61 \/ forall q r', r = q ++ r' -> length q = 4%nat -> forall y, ~ spells64 q y) ->
  fst (b64_quanta (p ++ r)) = x.
Proof.
  induction 1 as [|a b c d x y z w i j k p t A B C D I J K E H IH|a b c x y z i j e A B C I J V E|a b x y i e A B I V E]; intros r R.
  - cbn [app last] in *. destruct R as [->|[R|R]]; [reflexivity|lia|]. destruct r as [|a [|b [|c [|d r]]]]; try reflexivity.
    destruct (quanta_salvaged 4 [a; b; c; d] ltac:(cbn; lia)) as (p & r' & E & P & Q & _).
    specialize (R [a; b; c; d] r eq_refl eq_refl). rewrite quanta_four in *.
    destruct (b64_val a) eqn:A, (b64_val b) eqn:B; try reflexivity.
    destruct (b64_val c) eqn:C; [destruct (b64_val d) eqn:D|].
    + exfalso. rewrite (Q eq_refl), app_nil_r in E. subst p. exact (R _ P).
    + destruct (d =? 61); [|reflexivity]. exfalso. rewrite (Q eq_refl), app_nil_r in E. subst p. exact (R _ P).
    + destruct ((c =? 61) && (d =? 61)); [|reflexivity]. exfalso. rewrite (Q eq_refl), app_nil_r in E. subst p. exact (R _ P).
  - cbn [app]. rewrite quanta_four. assert (W : b64_quanta (a :: b :: c :: d :: p) = (i :: j :: k :: t, true)) by (apply spells_quanta; econstructor; eassumption).
    rewrite quanta_four in W. pose proof (letter64_range _ _ A). apply letter64_val in A, B, C, D. rewrite A, B, C, D in *. cbn [fst].
    pose proof (spells_quanta _ _ H) as Q. rewrite Q in W. cbn [fst snd] in W. injection W as -> -> ->. rewrite IH; [reflexivity|].
    destruct R as [R|[R|R]]; [left; exact R| |right; right; exact R]. right. left. destruct p as [|u p]; [|exact R]. cbn [last] in R. subst d. discriminate.
  - cbn [app]. rewrite quanta_four. assert (W : b64_quanta [a; b; c; 61] = ([i; j], true)) by (apply spells_quanta; econstructor; eassumption).
    rewrite quanta_four in W. apply letter64_val in A, B, C. rewrite A, B, C, val_pad in *. change (61 =? 61) with true in *. cbv iota in *. cbn [fst]. congruence.
  - cbn [app]. rewrite quanta_four. assert (W : b64_quanta [a; b; 61; 61] = ([i], true)) by (apply spells_quanta; econstructor; eassumption).
    rewrite quanta_four in W. apply letter64_val in A, B. rewrite A, B, val_pad in *. change (61 =? 61) with true in *. cbn [andb] in *. cbn [fst]. congruence.
Qed.

Lemma salvaged64_iff t x : salvaged64 t x <-> x = fst (b64_decode t).
Proof.
  unfold salvaged64, b64_decode. fold (unbroken t). split.
  - intros (p & r & E & P & R). rewrite E. symmetry. apply salvaged_quanta; assumption.
  - intros ->. destruct (quanta_salvaged _ (unbroken t) (le_n _)) as (p & r & E & P & _ & R). eauto 6.
Qed.
Lemma means64_iff t x : means64 t x <-> b64_decode t = (x, true).
Proof.
  unfold means64, b64_decode. fold (unbroken t). split; [apply spells_quanta|]. intros E.
  destruct (quanta_salvaged _ (unbroken t) (le_n _)) as (p & r & E' & P & Q & _). rewrite E in P, Q. rewrite (Q eq_refl), app_nil_r in E'. rewrite E'. exact P.
Qed.

(* ---- hexadecimal ---- *)
Lemma digit16_val c x : digit16 c x <-> unhex c = Some x.
Proof.
  split.
  - intros [P N]. assert (L : (Z.to_nat x < 16)%nat) by (destruct N as [N|N]; match type of N with nth_error ?l _ = _ => change 16%nat with (length l) end; apply nth_error_Some; congruence).
    assert (G : forall n, (n < 16)%nat -> nth_error (bs "0123456789abcdef") n = Some c \/ nth_error (bs "0123456789ABCDEF") n = Some c -> unhex c = Some (Z.of_nat n)).
    { clear. intros n H E. do 16 (destruct n as [|n]; [destruct E as [E|E]; vm_compute in E; injection E as <-; reflexivity|]). lia. }
    rewrite (G _ L N). f_equal. lia.
  - unfold unhex, digit16. intros V.
    assert (G : forall n, (n < 16)%nat -> (48 <= c <= 57 /\ c = 48 + Z.of_nat n \/ 97 <= c <= 102 /\ c = 87 + Z.of_nat n \/ 65 <= c <= 70 /\ c = 55 + Z.of_nat n) ->
       nth_error (bs "0123456789abcdef") n = Some c \/ nth_error (bs "0123456789ABCDEF") n = Some c).
    { clear. intros n H E. do 16 (destruct n as [|n]; [destruct E as [[E1 ->]|[[E1 ->]|[E1 ->]]]; try lia; vm_compute; auto|]). lia. }
    assert (0 <= x < 16 /\ (48 <= c <= 57 /\ c = 48 + x \/ 97 <= c <= 102 /\ c = 87 + x \/ 65 <= c <= 70 /\ c = 55 + x)) as [R C].
    { destruct ((48 <=? c) && (c <=? 57)) eqn:A1; [injection V as <-; lia|]. destruct ((97 <=? c) && (c <=? 102)) eqn:A2; [injection V as <-; lia|].
      destruct ((65 <=? c) && (c <=? 70)) eqn:A3; [injection V as <-; lia|discriminate]. }
    split; [lia|]. apply G; lia.
Qed.

Lemma hex_two a b r : hex_decode (a :: b :: r) = match unhex a, unhex b with Some x, Some y => (x * 16 + y :: fst (hex_decode r), snd (hex_decode r)) | _, _ => ([], false) end.
Proof. cbn [hex_decode]. destruct (unhex a), (unhex b); try reflexivity. destruct (hex_decode r). reflexivity. Qed.

Lemma hex_salvaged n : forall s, (length s <= n)%nat -> exists p r, s = p ++ r /\ spells16 p (fst (hex_decode s)) /\
  (r = [] \/ forall q r', r = q ++ r' -> length q = 2%nat -> forall y, ~ spells16 q y).
Proof.
  induction n as [|n IH]; intros s L.
  { destruct s; [|cbn in L; lia]. exists [], []. splits; [reflexivity|constructor|left; reflexivity]. }
  destruct s as [|a [|b s]].
  - exists [], []. splits; [reflexivity|constructor|left; reflexivity].
  - exists [], [a]. splits; [reflexivity|constructor|right]. intros [|u [|v q]] r' E Q; cbn in Q; try lia. discriminate.
  - rewrite hex_two. assert (No : unhex a = None \/ unhex b = None -> exists p r, a :: b :: s = p ++ r /\ spells16 p [] /\ (r = [] \/ forall q r', r = q ++ r' -> length q = 2%nat -> forall y, ~ spells16 q y)).
    { intros N. exists [], (a :: b :: s). splits; [reflexivity|constructor|right]. intros [|u [|v [|o q]]] r' E Q y Y; cbn in Q; try lia. injection E as -> -> _.
      inversion Y as [|? ? ? ? ? ? A B]; subst. apply digit16_val in A, B. destruct N; congruence. }
    destruct (unhex a) as [x|] eqn:A; [|apply No; auto]. destruct (unhex b) as [y|] eqn:B; [|apply No; auto].
    destruct (IH s ltac:(cbn [length] in L; lia)) as (p & r & E & P & R). exists (a :: b :: p), r. cbn [fst]. splits.
    + cbn [app]. rewrite <- E. reflexivity.
    + constructor; [apply digit16_val; exact A|apply digit16_val; exact B|exact P].
    + exact R.
Qed.
Lemma salvaged_hex p x : spells16 p x -> forall r, (r = [] \/ forall q r', r = q ++ r' -> length q = 2%nat -> forall y, ~ spells16 q y) -> fst (hex_decode (p ++ r)) = x.
Proof.
  induction 1 as [|a b x y p t A B H IH]; intros r R.
  - cbn [app]. destruct R as [->|R]; [reflexivity|]. destruct r as [|a [|b r]]; try reflexivity. rewrite hex_two.
    destruct (unhex a) as [x|] eqn:A; [|reflexivity]. destruct (unhex b) as [y|] eqn:B; [|reflexivity]. exfalso. apply (R [a; b] r eq_refl eq_refl (x * 16 + y :: [])).
    constructor; [apply digit16_val; exact A|apply digit16_val; exact B|constructor].
  - cbn [app]. rewrite hex_two. apply digit16_val in A, B. rewrite A, B. cbn [fst]. rewrite IH by exact R. reflexivity.
Qed.
Lemma salvaged16_iff t x : salvaged16 t x <-> x = fst (hex_decode t).
Proof.
  split.
  - intros (p & r & -> & P & R). symmetry. apply salvaged_hex; assumption.
  - intros ->. destruct (hex_salvaged _ t (le_n _)) as (p & r & E & P & R). exists p, r. splits; assumption.
Qed.

(* ---- the attribute ---- *)
Lemma written_join ps : written_text ps = join 59 (map (fun p : written => fst (fst p) ++ w_name p ++ 61 :: w_value p) ps).
Proof.
  induction ps as [|[[b n] v] [|q r] IH]; [reflexivity|reflexivity|]. change (written_text ((b, n, v) :: q :: r)) with (b ++ n ++ 61 :: v ++ 59 :: written_text (q :: r)). rewrite IH.
  cbn [map join]. unfold w_name, w_value. cbn [fst snd]. rewrite <- !app_assoc. reflexivity.
Qed.
Lemma written_no_semi p : written_ok p -> ~ In 59 (fst (fst p) ++ w_name p ++ 61 :: w_value p).
Proof.
  intros (B & N1 & N2 & N3 & _) I. apply in_app_or in I as [I|I]; [revert I; apply blanks_absent; [exact B|lia]|].
  apply in_app_or in I as [I|[I|I]]; [auto|lia|auto].
Qed.
Lemma written_param m p : written_ok p -> attr_param m (fst (fst p) ++ w_name p ++ 61 :: w_value p) =
  if beq (w_name p) (bs "config") then with_config m (fst (hex_decode (w_value p)))
  else if beq (w_name p) (bs "sizelength") then with_sizelength m (fst (atoi (w_value p)))
  else if beq (w_name p) (bs "indexlength") then with_indexlength m (fst (atoi (w_value p)))
  else if beq (w_name p) (bs "sprop-parameter-sets") then with_sprops m (m_sprops m ++ map (fun f => fst (b64_decode f)) (split_on 44 (w_value p)))
  else m.
Proof.
  intros (B & N1 & _ & _ & T). unfold attr_param. rewrite app_assoc, split2_app.
  - rewrite trim_space_blanks, T by exact B. reflexivity.
  - intros I. apply in_app_or in I as [I|I]; [revert I; apply blanks_absent; [exact B|lia]|auto].
Qed.

Lemma beq_both n a b : beq n a = true -> beq a b = false -> beq n b = false.
Proof. intros E N. apply beq_eq in E. subst. exact N. Qed.

Lemma written_fold ps : Forall written_ok ps -> forall m,
  let m' := fold_left attr_param (map (fun p : written => fst (fst p) ++ w_name p ++ 61 :: w_value p) ps) m in
  m_sprops m' = m_sprops m ++ map (fun f => fst (b64_decode f)) (set_texts ps) /\
  m_config m' = fold_left (fun c p => if beq (w_name p) (bs "config") then fst (hex_decode (w_value p)) else c) ps (m_config m).
Proof.
  induction 1 as [|p ps P _ IH]; intros m; [cbn; rewrite app_nil_r; auto|]. cbv zeta in *. cbn [map fold_left]. rewrite written_param by exact P.
  match goal with |- context [fold_left attr_param _ ?x] => destruct (IH x) as [-> ->] end. unfold set_texts. cbn [flat_map fold_left]. fold (set_texts ps).
  destruct (beq (w_name p) (bs "config")) eqn:E1.
  { rewrite (beq_both _ _ (bs "sprop-parameter-sets") E1) by reflexivity. split; reflexivity. }
  destruct (beq (w_name p) (bs "sizelength")) eqn:E2; [rewrite (beq_both _ _ (bs "sprop-parameter-sets") E2) by reflexivity; split; reflexivity|].
  destruct (beq (w_name p) (bs "indexlength")) eqn:E3; [rewrite (beq_both _ _ (bs "sprop-parameter-sets") E3) by reflexivity; split; reflexivity|].
  destruct (beq (w_name p) (bs "sprop-parameter-sets")); [|split; reflexivity]. cbn [m_sprops m_config with_sprops]. rewrite map_app, app_assoc. split; reflexivity.
Qed.

Lemma written_semi m ps : (2 <= length ps)%nat -> Forall written_ok ps ->
  attr_semi m (written_text ps) = fold_left attr_param (map (fun p : written => fst (fst p) ++ w_name p ++ 61 :: w_value p) ps) m.
Proof.
  intros L F. unfold attr_semi. rewrite written_join, split_join.
  - destruct ps as [|x [|y ps]]; cbn [length] in L; try lia. reflexivity.
  - destruct ps; [cbn in L; lia|discriminate].
  - apply Forall_map. eapply Forall_impl; [|exact F]. exact written_no_semi.
Qed.

Lemma written_line ls done m l pt ps : Forall one_line (ls ++ [l]) -> in_video ls -> sdp_parse (body_of ls) = Ok (done ++ [m]) ->
  trim_space l = bs "a=fmtp:" ++ itoa pt ++ bs " " ++ written_text ps -> (2 <= length ps)%nat -> Forall written_ok ps ->
  exists m', sdp_parse (body_of (ls ++ [l])) = Ok (done ++ [m']) /\
    m_sprops m' = m_sprops m ++ map (fun f => fst (b64_decode f)) (set_texts ps) /\
    m_config m' = fold_left (fun c p => if beq (w_name p) (bs "config") then fst (hex_decode (w_value p)) else c) ps (m_config m).
Proof.
  intros O V E T L F. eexists. split; [apply (attr_appended ls done m l (bs "fmtp:" ++ itoa pt ++ 32 :: written_text ps)); assumption|].
  rewrite fmtp_split. cbn [fold_left]. rewrite fmtp_head. unfold attr_field. rewrite written_semi by assumption.
  destruct (written_fold ps F (attr_slash (attr_colon m (written_text ps)) (written_text ps))) as [E1 E2]. rewrite E1, E2.
  destruct (colon_slash_keep m (written_text ps)) as (K1 & K2 & _). rewrite K1, K2. auto.
Qed.

(* a letter that is none, after whole groups *)
Lemma quanta_damaged n : forall b c rest, (length b <= n)%nat -> bytes_ok b -> zlen b mod 3 = 0 -> b64_val c = None -> b64_quanta (b64_encode b ++ c :: rest) = (b, false).
Proof.
  induction n as [|n IH]; intros b c rest L B M C.
  - destruct b; [|cbn in L; lia]. cbn [b64_encode app]. destruct rest as [|u [|v [|w rest]]]; try reflexivity. rewrite quanta_four, C. reflexivity.
  - destruct b as [|x [|y [|z b]]]; [apply (IH []); cbn; lia || assumption | cbn in M; lia | cbn in M; lia|].
    apply Forall_cons_iff in B as [Bx B]. apply Forall_cons_iff in B as [By B]. apply Forall_cons_iff in B as [Bz B]. unfold byte_ok in *.
    cbn [b64_encode app]. rewrite quanta_four, !b64_val_char by lia. rewrite IH; [|cbn [length] in L; lia|exact B|rewrite !zlen_cons in M; lia|exact C]. cbn [fst snd].
    f_equal. assert (x = x / 4 * 4 + (x mod 4 * 16 + y / 16) / 16) as <- by lia.
    assert (y = (x mod 4 * 16 + y / 16) mod 16 * 16 + (y mod 16 * 4 + z / 64) / 4) as <- by lia.
    assert (z = (y mod 16 * 4 + z / 64) mod 4 * 64 + z mod 64) as <- by lia. reflexivity.
Qed.
