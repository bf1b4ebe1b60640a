(* Lemmas: reading the Authorization field. *)
From Coq Require Import String.
From Verif Require Import Base GoStrings S_md5 S_digest M_digest S_authfield L_base L_strings L_digest.

Lemma string_text_plain v : forall t, unescaped v -> string_text (v ++ 34 :: t) = Some (v, t).
Proof.
  induction v as [|c v IH]; intros t (Q & B); cbn [app string_text]; [reflexivity|].
  destruct (c =? 34) eqn:E; [exfalso; apply Q; left; lia|]. destruct (c =? 92) eqn:E2; [exfalso; apply B; left; lia|].
  rewrite IH; [reflexivity|]. split; intros X; [apply Q|apply B]; right; exact X.
Qed.

(* behind an escape, the string read lags behind the text *)
Lemma string_text_lag n : forall u k t r, (length u <= n)%nat -> string_text (u ++ 34 :: t) = Some (repeat 92 (S k) ++ u, r) -> False.
Proof.
  induction n as [|n IH]; intros u k t r L E.
  - destruct u as [|x u]; [|cbn [length] in L; lia]. cbn in E. discriminate.
  - destruct u as [|x u]; [cbn in E; discriminate|]. cbn [app string_text] in E.
    destruct (x =? 34) eqn:X; [cbn in E; discriminate|]. destruct (x =? 92) eqn:X2.
    + assert (x = 92) by lia; subst x. destruct u as [|c u].
      * cbn [app] in E. destruct (string_text t) as [[v t']|]; [|discriminate]. cbn [repeat app] in E. injection E as E _ _. discriminate.
      * cbn [app] in E. destruct (string_text (u ++ 34 :: t)) as [[v t']|] eqn:F; [|discriminate].
        cbn [repeat app] in E. injection E as E1 E2 _. subst c. apply (IH u (S k) t t'); [cbn [length] in L; lia|].
        rewrite F, E2. f_equal. f_equal. change (92 :: 92 :: u) with ([92] ++ [92] ++ u). rewrite !app_assoc.
        f_equal. rewrite <- app_assoc. change ([92] ++ [92]) with (repeat 92 2). rewrite <- repeat_app. f_equal. lia.
    + destruct (string_text (u ++ 34 :: t)) as [[v t']|]; [|discriminate]. cbn [repeat app] in E. injection E as E1 _ _. lia.
Qed.

Lemma string_text_marked u : forall t r, string_text (u ++ 34 :: t) = Some (u, r) -> unescaped u.
Proof.
  induction u as [|x u IH]; intros t r E; [split; intros []|]. cbn [app string_text] in E.
  destruct (x =? 34) eqn:X; [discriminate|]. destruct (x =? 92) eqn:X2.
  - exfalso. assert (x = 92) by lia; subst x. destruct u as [|c u].
    + cbn [app] in E. destruct (string_text t) as [[v t']|]; [|discriminate]. injection E as E _ _. discriminate.
    + cbn [app] in E. destruct (string_text (u ++ 34 :: t)) as [[v t']|] eqn:F; [|discriminate]. injection E as E1 E2 _. subst c.
      apply (string_text_lag (length u) u 0 t t'); [lia|]. rewrite F, E2. reflexivity.
  - destruct (string_text (u ++ 34 :: t)) as [[v t']|] eqn:F; [|discriminate]. injection E as E1 _. subst v.
    destruct (IH _ _ F) as (Q & B). split; (intros [Y|Y]; [lia|]); [exact (Q Y)|exact (B Y)].
Qed.

Lemma token_text_plain v t : ~ In 44 v -> ~ In 32 v -> token_text (v ++ 44 :: t) = (v, 44 :: t).
Proof.
  induction v as [|c v IH]; intros A B; cbn [app token_text]; [reflexivity|].
  replace (c =? 44) with false by (symmetry; apply Z.eqb_neq; intros ->; apply A; left; reflexivity).
  replace (c =? 32) with false by (symmetry; apply Z.eqb_neq; intros ->; apply B; left; reflexivity).
  cbn [orb]. rewrite IH; [reflexivity| |]; intros X; [apply A|apply B]; right; exact X.
Qed.
Lemma up_to_app x v t : ~ In x v -> up_to x (v ++ x :: t) = Some (v, t).
Proof.
  induction v as [|c v IH]; intros A; cbn [app up_to]; [rewrite Z.eqb_refl; reflexivity|].
  replace (c =? x) with false by (symmetry; apply Z.eqb_neq; intros ->; apply A; left; reflexivity).
  rewrite IH; [reflexivity|]. intros X; apply A; right; exact X.
Qed.
Lemma up_to_inv x v : forall t r, up_to x (v ++ x :: t) = Some (v, r) -> ~ In x v.
Proof.
  induction v as [|c v IH]; intros t r; cbn [app up_to]; [intros _ []|].
  destruct (c =? x) eqn:E; [discriminate|]. destruct (up_to x (v ++ x :: t)) as [[v' t']|] eqn:F; [|discriminate].
  intros Y. injection Y as -> _. intros [Y|Y]; [lia|]. exact (IH _ _ F Y).
Qed.

(* ---- the parameters one after the other ---- *)
Definition aparam_text (p : aparam) : bytes :=
  if ap_quoted p then quoted (ap_name p) (ap_value p) else ap_name p ++ bs "=" ++ ap_value p.
Definition name_ok (n : bytes) : Prop := ~ In 61 n /\ ~ In 32 n.
Definition aparam_ok (p : aparam) : Prop :=
  name_ok (ap_name p) /\
  if ap_quoted p then unescaped (ap_value p)
  else ~ In 44 (ap_value p) /\ ~ In 32 (ap_value p) /\ ~ In 34 (ap_value p).

Lemma no_blanks_name n t : ~ In 32 n -> no_blanks (n ++ 61 :: t) = n ++ 61 :: t.
Proof.
  destruct n as [|c n]; intros A; cbn [app no_blanks]; [reflexivity|].
  replace (c =? 32) with false by (symmetry; apply Z.eqb_neq; intros ->; apply A; left; reflexivity). reflexivity.
Qed.

Lemma auth_params_blank n s : auth_params n (32 :: s) = auth_params n s.
Proof. destruct n; reflexivity. Qed.

Lemma auth_params_more n p t : aparam_ok p -> auth_params (S n) (aparam_text p ++ bs ", " ++ t) =
  match auth_params n t with Some l => Some (p :: l) | None => None end.
Proof.
  destruct p as [m q v]. intros ((A & B) & V). unfold aparam_text. cbn [ap_name ap_quoted ap_value] in *. cbn [auth_params]. destruct q.
  - unfold quoted. replace ((m ++ bs "=""" ++ v ++ bs """") ++ bs ", " ++ t) with (m ++ 61 :: 34 :: v ++ 34 :: 44 :: 32 :: t)
      by (rewrite <- !app_assoc; reflexivity).
    rewrite (no_blanks_name m _ B), (up_to_app _ _ _ A). rewrite (string_text_plain v _ V).
    change (no_blanks (44 :: 32 :: t)) with (44 :: 32 :: t). cbn [Z.eqb Pos.eqb]. rewrite auth_params_blank. reflexivity.
  - replace ((m ++ bs "=" ++ v) ++ bs ", " ++ t) with (m ++ 61 :: v ++ 44 :: 32 :: t) by (rewrite <- !app_assoc; reflexivity).
    rewrite (no_blanks_name m _ B), (up_to_app _ _ _ A). destruct V as (V1 & V2 & V3).
    assert (X : forall (y : Z -> option (bool * bytes * bytes)) (z : option (bool * bytes * bytes)), match v ++ 44 :: 32 :: t with 34 :: q => y 0 | _ => z end = z).
    { intros y z. destruct v as [|c v]; cbn [app]; [reflexivity|]. destruct (Z.eq_dec c 34) as [->|N]; [exfalso; apply V3; left; reflexivity|].
      destruct c as [|c|c]; try reflexivity. repeat (destruct c as [c|c|]; try reflexivity). contradiction N; reflexivity. }
    assert (Y : match v ++ 44 :: 32 :: t with
             | 34 :: q => match string_text q with Some (v, t) => Some (true, v, t) | None => None end
             | _ => let '(v, t) := token_text (v ++ 44 :: 32 :: t) in Some (false, v, t)
             end = Some (false, v, 44 :: 32 :: t)).
    { rewrite (token_text_plain v _ V1 V2). clear X. destruct v as [|c v]; cbn [app]; [reflexivity|].
      destruct (Z.eq_dec c 34) as [->|N]; [exfalso; apply V3; left; reflexivity|].
      destruct c as [|c|c]; try reflexivity. repeat (destruct c as [c|c|]; try reflexivity). contradiction N; reflexivity. }
    rewrite Y. change (no_blanks (44 :: 32 :: t)) with (44 :: 32 :: t). cbn [Z.eqb Pos.eqb]. rewrite auth_params_blank. reflexivity.
Qed.

Lemma auth_params_last n m v : name_ok m -> unescaped v -> auth_params (S n) (quoted m v) = Some [mkAParam m true v].
Proof.
  intros (A & B) V. cbn [auth_params]. unfold quoted. change (m ++ bs "=""" ++ v ++ bs """") with (m ++ 61 :: 34 :: v ++ [34]).
  rewrite (no_blanks_name m _ B), (up_to_app _ _ _ A). rewrite (string_text_plain v _ V). reflexivity.
Qed.

Lemma auth_params_all l : forall n m v, Forall aparam_ok l -> name_ok m -> unescaped v -> (length l < n)%nat ->
  auth_params n (commas (map aparam_text l ++ [quoted m v])) = Some (l ++ [mkAParam m true v]).
Proof.
  induction l as [|p l IH]; intros n m v F M V L; (destruct n as [|n]; [lia|]).
  - exact (auth_params_last n m v M V).
  - inversion F as [|? ? P F']; subst. cbn [map app commas].
    assert (X : commas (aparam_text p :: map aparam_text l ++ [quoted m v]) =
                aparam_text p ++ bs ", " ++ commas (map aparam_text l ++ [quoted m v])).
    { destruct l; reflexivity. }
    change (match map aparam_text l ++ [quoted m v] with [] => aparam_text p | _ => aparam_text p ++ bs ", " ++ commas (map aparam_text l ++ [quoted m v]) end)
      with (commas (aparam_text p :: map aparam_text l ++ [quoted m v])).
    rewrite X, (auth_params_more n p _ P), (IH n m v F' M V) by (cbn [length] in L; lia). reflexivity.
Qed.

(* ---- the header ---- *)
Definition header_params (c : chal) (uri user nc cn : bytes) : list aparam :=
  [mkAParam (bs "username") true user; mkAParam (bs "realm") true (c_realm c); mkAParam (bs "nonce") true (c_nonce c);
   mkAParam (bs "uri") true uri; mkAParam (bs "algorithm") true (c_algorithm c)] ++
  (match c_opaque c with [] => [] | o => [mkAParam (bs "opaque") true o] end) ++
  (match c_qop c with [] => [] | q => [mkAParam (bs "qop") true q; mkAParam (bs "nc") false nc; mkAParam (bs "cnonce") true cn] end).
Definition header_resp (c : chal) (uri ha1 nc cn verb body : bytes) : bytes :=
  rfc_response ha1 (c_nonce c) nc cn (c_qop c) (rfc_ha2 (beq (c_qop c) (bs "auth-int")) verb uri body).

Lemma header_text c uri user ha1 nc cn verb body : header_with c uri user ha1 nc cn verb body =
  bs "Digest " ++ commas (map aparam_text (header_params c uri user nc cn) ++ [quoted (bs "response") (header_resp c uri ha1 nc cn verb body)]).
Proof. unfold header_with, header_params, header_resp. destruct (c_opaque c), (c_qop c); reflexivity. Qed.

Definition hexish (s : bytes) : Prop := Forall (fun c => 48 <= c <= 57 \/ 97 <= c <= 102) s.
Lemma hexish_unescaped s : hexish s -> unescaped s.
Proof. unfold hexish. rewrite Forall_forall. intros F. split; intros X; apply F in X; lia. Qed.
Lemma hexish_token s : hexish s -> ~ In 44 s /\ ~ In 32 s /\ ~ In 34 s.
Proof. unfold hexish. rewrite Forall_forall. intros F. splits; intros X; apply F in X; lia. Qed.

Lemma md5_bytes m : bytes_ok (md5 m).
Proof.
  unfold md5. destruct (md5_blocks _ _ _) as [[[a b] c] d]. unfold le_bytes.
  assert (P : forall k z, bytes_ok (be_put k z)).
  { induction k as [|k IH]; intros z; cbn [be_put]; constructor; [unfold byte_ok; apply Z.mod_pos_bound; lia|apply IH]. }
  do 3 (apply bytes_ok_app; split; [apply Forall_rev, P|]). apply Forall_rev, P.
Qed.
Lemma md5_16 m : length (md5 m) = 16%nat.
Proof. unfold md5. destruct (md5_blocks _ _ _) as [[[a b] c] d]. reflexivity. Qed.
Lemma H_hexish s : hexish (H s).
Proof. apply hex_alphabet, md5_bytes. Qed.
Lemma hex_twice l : length (hex_encode l) = (2 * length l)%nat.
Proof. induction l as [|x l IH]; [reflexivity|]. change (hex_encode (x :: l)) with (hex_digit (x / 16) :: hex_digit (x mod 16) :: hex_encode l). cbn [length]. lia. Qed.
Lemma H_32 s : length (H s) = 32%nat.
Proof. unfold H. rewrite hex_twice, md5_16. reflexivity. Qed.
Lemma hexfix_hexish k : forall n, hexish (hexfix k n).
Proof.
  induction k as [|k IH]; intros n; cbn [hexfix]; [constructor|]. apply Forall_app. split; [apply IH|]. constructor; [|constructor].
  pose proof (Z.mod_pos_bound n 16 ltac:(lia)). unfold hex_digit. destruct (_ <? 10) eqn:E; lia.
Qed.
Lemma hexfix_len k : forall n, length (hexfix k n) = k.
Proof. induction k as [|k IH]; intros n; cbn [hexfix]; [reflexivity|]. rewrite app_length, IH. cbn [length]. lia. Qed.
Lemma cnonce_hexish rnd : bytes_ok rnd -> hexish (cnonce_of rnd).
Proof. intros B. unfold cnonce_of, hexish. pose proof (hex_alphabet _ B) as F. rewrite <- (firstn_skipn 8 (hex_encode rnd)) in F. apply Forall_app in F. apply F. Qed.
Lemma resp_hexish c uri ha1 nc cn verb body : hexish (header_resp c uri ha1 nc cn verb body) /\ length (header_resp c uri ha1 nc cn verb body) = 32%nat.
Proof. unfold header_resp, rfc_response. destruct (c_qop c); split; try apply H_hexish; apply H_32. Qed.

Definition chal_plain (c : chal) : Prop :=
  unescaped (c_realm c) /\ unescaped (c_nonce c) /\ unescaped (c_opaque c) /\ unescaped (c_algorithm c) /\ unescaped (c_qop c).

Lemma name_okb n : forallb (fun c => negb (c =? 61) && negb (c =? 32)) n = true -> name_ok n.
Proof. rewrite forallb_forall. intros F. split; intros X; apply F in X; discriminate X. Qed.

Lemma header_params_ok c uri user nc cn : chal_plain c -> unescaped uri -> unescaped user -> hexish nc -> hexish cn ->
  Forall aparam_ok (header_params c uri user nc cn).
Proof.
  intros (R & N & O & A & Q) U V NC CN. unfold header_params. apply Forall_app. split; [|apply Forall_app; split].
  - repeat (apply Forall_cons); [..|apply Forall_nil]; (split; [apply name_okb; reflexivity|]); assumption.
  - destruct (c_opaque c) eqn:E; constructor; [|constructor]. split; [apply name_okb; reflexivity|]. exact O.
  - destruct (c_qop c) eqn:E; [constructor|]. repeat (apply Forall_cons); [..|apply Forall_nil]; (split; [apply name_okb; reflexivity|]).
    + exact Q.
    + apply hexish_token, NC.
    + apply hexish_unescaped, CN.
Qed.

Lemma commas_longer l : (length l <= length (commas l) + 1)%nat.
Proof.
  induction l as [|x l IH]; [cbn; lia|]. destruct l as [|y l]; [cbn [length commas]; lia|].
  change (commas (x :: y :: l)) with (x ++ bs ", " ++ commas (y :: l)). rewrite !app_length. change (length (bs ", ")) with 2%nat.
  cbn [length] in *. lia.
Qed.

Lemma header_read c uri user ha1 nc cn verb body : chal_plain c -> unescaped uri -> unescaped user -> hexish nc -> hexish cn ->
  auth_read (header_with c uri user ha1 nc cn verb body) =
  Some (header_params c uri user nc cn ++ [mkAParam (bs "response") true (header_resp c uri ha1 nc cn verb body)]).
Proof.
  intros P U V NC CN. rewrite header_text. unfold auth_read.
  replace (has_prefix (bs "Digest ") _) with true by reflexivity.
  change (skipn 7 (bs "Digest " ++ ?x)) with x. cbv iota.
  apply auth_params_all.
  - apply header_params_ok; assumption.
  - apply name_okb; reflexivity.
  - apply hexish_unescaped, resp_hexish.
  - match goal with |- (_ < length (_ ++ commas ?l))%nat => pose proof (commas_longer l) as L end.
    rewrite app_length in L. rewrite map_length in L. rewrite app_length. change (length (bs "Digest ")) with 7%nat. cbn [length] in L. lia.
Qed.

Lemma header_says c uri user ha1 nc cn verb body l : length nc = 8%nat ->
  l = header_params c uri user nc cn ++ [mkAParam (bs "response") true (header_resp c uri ha1 nc cn verb body)] -> says c uri user l.
Proof.
  intros L ->. pose proof (resp_hexish c uri ha1 nc cn verb body) as (_ & R). generalize dependent (header_resp c uri ha1 nc cn verb body). intros r R.
  unfold says, header_params. destruct (c_opaque c), (c_qop c); (splits; try reflexivity); try (exists r; split; [reflexivity|exact R]);
    try (exists nc; split; [reflexivity|exact L]); exists cn; reflexivity.
Qed.

Lemma header_form c uri user nc cn r l : l = header_params c uri user nc cn ++ [mkAParam (bs "response") true r] ->
  ~ in_form l /\ Forall (fun p => ap_name p = bs "algorithm" \/ ap_name p = bs "qop" \/ ap_quoted p = negb (existsb (beq (ap_name p)) token_params)) l.
Proof.
  intros ->. split.
  - unfold in_form, header_params. intros F. cbn [app] in F. do 4 apply Forall_inv_tail in F. apply Forall_inv in F. discriminate F.
  - unfold header_params. apply Forall_app. split; [|constructor; [right; right; reflexivity|constructor]].
    apply Forall_app. split; [|apply Forall_app; split].
    + repeat (apply Forall_cons); [..|apply Forall_nil]; first [right; right; reflexivity|left; reflexivity].
    + destruct (c_opaque c); repeat (apply Forall_cons); try apply Forall_nil. right; right; reflexivity.
    + destruct (c_qop c); repeat (apply Forall_cons); try apply Forall_nil; first [right; right; reflexivity|right; left; reflexivity].
Qed.

(* whatever the other values are, the name read first is the user only if there is nothing to escape in it *)
Lemma header_name c uri user ha1 nc cn verb body l : auth_read (header_with c uri user ha1 nc cn verb body) = Some l ->
  auth_value (bs "username") l = Some user -> unescaped user.
Proof.
  rewrite header_text. unfold auth_read. replace (has_prefix (bs "Digest ") _) with true by reflexivity. cbv iota.
  set (q := quoted (bs "response") _). clearbody q.
  match goal with |- auth_params ?n _ = _ -> _ => generalize n as k end. intros k.
  match goal with |- auth_params _ (skipn 7 (bs "Digest " ++ ?x)) = _ -> _ => change (skipn 7 (bs "Digest " ++ x)) with x end.
  assert (X : exists t, commas (map aparam_text (header_params c uri user nc cn) ++ [q]) = bs "username" ++ 61 :: 34 :: user ++ 34 :: t).
  { unfold header_params. cbn [app map]. match goal with |- exists t, commas (?x :: ?y :: ?r) = _ => exists (bs ", " ++ commas (y :: r)); change (commas (x :: y :: r)) with (x ++ bs ", " ++ commas (y :: r)) end.
    unfold aparam_text, quoted. cbn [ap_quoted ap_name ap_value]. rewrite <- !app_assoc. reflexivity. }
  destruct X as (t & ->). destruct k as [|k]; [discriminate|]. cbn [auth_params].
  change (no_blanks (bs "username" ++ 61 :: 34 :: user ++ 34 :: t)) with (bs "username" ++ 61 :: 34 :: user ++ 34 :: t).
  rewrite up_to_app by (intros Y; repeat (destruct Y as [Y|Y]; [discriminate|]); destruct Y).
  destruct (string_text (user ++ 34 :: t)) as [[v r]|] eqn:F; [|discriminate].
  intros E A. assert (v = user).
  { destruct (no_blanks r) as [|x r']; [|destruct (x =? 44); [destruct (auth_params k r')|]; try discriminate];
      injection E as <-; cbn [auth_value ap_name ap_value] in A; rewrite beq_refl in A; congruence. }
  subst v. exact (string_text_marked _ _ _ F).
Qed.

(* ---- histories ---- *)
Lemma drift_each c uri user (P : bytes -> Prop) ops : forall key n cn, renewals_ok ops -> hexish cn ->
  (forall ha1 nc cn verb body, hexish nc -> length nc = 8%nat -> hexish cn -> P (header_with c uri user ha1 nc cn verb body)) ->
  Forall P (drift_calls c uri user key n cn ops).
Proof.
  induction ops as [|[v b|r] ops IH]; intros key n cn R C K; cbn [drift_calls]; [constructor| |].
  - cbv zeta. constructor; [apply K; [apply hexfix_hexish|apply hexfix_len|exact C]|]. apply IH; assumption.
  - destruct R as (B & R). apply IH; [exact R|apply cnonce_hexish, B|exact K].
Qed.
Lemma drift_any c uri user (P : bytes -> Prop) ops : forall key n cn,
  (forall ha1 nc cn verb body, P (header_with c uri user ha1 nc cn verb body)) ->
  Forall P (drift_calls c uri user key n cn ops).
Proof.
  induction ops as [|[v b|r] ops IH]; intros key n cn K; cbn [drift_calls]; [constructor| |].
  - cbv zeta. constructor; [apply K|]. apply IH; assumption.
  - apply IH; exact K.
Qed.
