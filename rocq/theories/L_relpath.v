(* Lemmas: URIs of playlists with a base that is a relative path. *)
From Coq Require Import String.
From Verif Require Import Base GoStrings M_url M_conn M_message M_transport M_sdp M_session M_dial S_url S_badurl L_base L_strings L_url L_badurl L_playlist.
From Coq Require Import ZifyBool ZifyNat.

(* up, then down: no step up after a step down *)
Definition updown (out : list bytes) : Prop := exists k names, out = repeat (bs "..") k ++ names /\ Forall (fun s => beq s (bs "..") = false) names.
Lemma all_up k names : Forall (fun s => beq s (bs "..") = false) names -> forallb (beq (bs "..")) (repeat (bs "..") k ++ names) = match names with [] => true | _ => false end.
Proof.
  intros F. induction k as [|k IH]; cbn [repeat app forallb].
  - destruct F as [|s l E F]; [reflexivity|]. cbn [forallb]. assert (X : beq (bs "..") s = false) by (destruct (beq (bs "..") s) eqn:Q; [apply beq_eq in Q; subst s; rewrite beq_refl in E; discriminate E|reflexivity]). rewrite X. reflexivity.
  - rewrite beq_refl. exact IH.
Qed.
Lemma wander_step here s : updown here -> updown (wander here s).
Proof.
  intros (k & names & -> & F). unfold wander. destruct (beq s [] || beq s (bs ".")); [exists k, names; auto|]. destruct (beq s (bs "..")) eqn:E.
  - rewrite all_up by exact F. destruct names as [|a names] using rev_ind.
    + apply beq_eq in E. subst s. exists (S k), []. split; [|constructor]. rewrite !app_nil_r. change [bs ".."] with (repeat (bs "..") 1). rewrite <- repeat_app. f_equal. lia.
    + clear IHnames. assert (X : (match names ++ [a] with [] => true | _ => false end) = false) by (destruct names; reflexivity). rewrite X. rewrite app_assoc, removelast_last. exists k, names. split; [reflexivity|]. apply Forall_app in F. tauto.
  - exists k, (names ++ [s]). split; [apply app_assoc_reverse|]. apply Forall_app. split; [exact F|constructor; [exact E|constructor]].
Qed.
Lemma clean_els_wander l : forall out, updown (rev out) -> clean_els false out l = fold_left wander l (rev out).
Proof.
  induction l as [|s l IH]; intros out U; [reflexivity|]. cbn [clean_els fold_left]. pose proof (wander_step (rev out) s U) as U'. unfold wander in U' |- * at 2.
  destruct (beq s [] || beq s (bs ".")) eqn:E1; [apply IH; exact U|].
  destruct (beq s (bs "..")) eqn:E2; [|rewrite IH by exact U'; reflexivity].
  destruct U as (k & names & R & F). rewrite R in U' |- *. rewrite all_up in U' |- * by exact F.
  destruct out as [|p out].
  - cbn [rev] in R. destruct k; [|discriminate R]. destruct names; [|discriminate R]. cbn [repeat app] in *. rewrite IH by exact U'. reflexivity.
  - cbn [rev] in R. destruct names as [|a names] using rev_ind.
    + rewrite app_nil_r in *. destruct k as [|k]; [apply (f_equal (@List.length bytes)) in R; rewrite app_length in R; cbn [List.length repeat] in R; lia|].
      assert (X : repeat (bs "..") (S k) = repeat (bs "..") k ++ [bs ".."]) by (change [bs ".."] with (repeat (bs "..") 1); rewrite <- repeat_app; f_equal; lia).
      rewrite X in R. apply app_inj_tail in R as (R & ->). rewrite beq_refl. rewrite IH; [cbn [rev]; rewrite R, X; reflexivity|]. cbn [rev]. rewrite R, <- X. exact U'.
    + clear IHnames. assert (X : (match names ++ [a] with [] => true | _ => false end) = false) by (destruct names; reflexivity). rewrite X in U' |- *. rewrite app_assoc in R, U' |- *.
      apply app_inj_tail in R as (R & ->). rewrite removelast_last in U' |- *. apply Forall_app in F as (_ & F). apply Forall_cons_iff in F as (F & _). rewrite F. rewrite IH by (rewrite R; exact U'). rewrite R. reflexivity.
Qed.
Lemma wander_forall (P : bytes -> Prop) l : forall here, Forall P here -> Forall P l -> Forall P (fold_left wander l here).
Proof.
  induction l as [|s l IH]; intros here H F; [exact H|]. apply Forall_cons_iff in F as (Fs & F). cbn [fold_left]. apply IH; [|exact F]. unfold wander. destruct (_ || _); [exact H|].
  assert (A : Forall P (here ++ [s])) by (apply Forall_app; split; [exact H|constructor; [exact Fs|constructor]]).
  destruct (beq s (bs "..")); [|exact A]. destruct (forallb _ here); [exact A|].
  apply Forall_forall. intros x J. rewrite Forall_forall in H. apply H. destruct here as [|a here] using rev_ind; [destruct J|]. rewrite removelast_last in J. apply in_or_app. left. exact J.
Qed.
Lemma wandered_app segs f : name_ok f -> wandered (segs ++ [f]) = wandered segs ++ [f].
Proof.
  intros (NE & N1 & N2 & _). unfold wandered. rewrite fold_left_app. cbn [fold_left]. unfold wander at 1.
  assert (E0 : beq f [] = false) by (destruct (beq f []) eqn:E; [apply beq_eq in E; contradiction|reflexivity]).
  assert (E1 : beq f (bs ".") = false) by (destruct (beq f (bs ".")) eqn:E; [apply beq_eq in E; contradiction|reflexivity]).
  assert (E2 : beq f (bs "..") = false) by (destruct (beq f (bs "..")) eqn:E; [apply beq_eq in E; contradiction|reflexivity]).
  rewrite E0, E1, E2. reflexivity.
Qed.
Lemma join_els_joined names : join_els names = joined names.
Proof.
  destruct names as [|s names]; [reflexivity|]. unfold joined. revert s. induction names as [|t names IH]; intros s; [cbn; rewrite app_nil_r; reflexivity|].
  change (join_els (s :: t :: names)) with (s ++ 47 :: join_els (t :: names)). rewrite IH. reflexivity.
Qed.
Lemma joined_bytes names : Forall seg_ok names -> bytes_ok (joined names).
Proof. intros F. destruct F as [|s l (_ & B) F]; [constructor|]. cbn [joined]. apply bytes_ok_app. split; [exact B|apply slashed_bytes; exact F]. Qed.
Lemma clean_joined s segs f : s <> [] -> Forall seg_ok (s :: segs) -> name_ok f -> clean (joined (s :: segs) ++ 47 :: f) = joined (wandered (s :: segs) ++ [f]).
Proof.
  intros NS F N. assert (X : joined (s :: segs) ++ 47 :: f = s ++ slashed (segs ++ [f])) by (cbn [joined]; rewrite slashed_app, <- app_assoc; cbn [slashed flat_map]; rewrite app_nil_r; reflexivity). rewrite X.
  apply Forall_cons_iff in F as ((Fs & Bs) & F).
  assert (S : split_on 47 (s ++ slashed (segs ++ [f])) = s :: segs ++ [f]) by (apply split_slashed; [exact Fs|apply Forall_app; split; [exact F|constructor; [split; apply N|constructor]]]).
  unfold clean. destruct s as [|c s]; [contradiction|]. cbn [app]. assert (C : (c =? 47) = false) by (destruct (c =? 47) eqn:E; [|reflexivity]; exfalso; apply Fs; left; lia). rewrite C. cbv zeta iota.
  cbn [app] in S. rewrite S. rewrite clean_els_wander by (exists 0%nat, []; split; [reflexivity|constructor]). cbn [rev]. change ((c :: s) :: segs ++ [f]) with (((c :: s) :: segs) ++ [f]). fold (wandered (((c :: s) :: segs) ++ [f])).
  rewrite wandered_app by exact N. rewrite join_els_joined. assert (NB : beq (joined (wandered ((c :: s) :: segs) ++ [f])) [] = false); [|rewrite NB; reflexivity].
  destruct (wandered ((c :: s) :: segs)) as [|a l].
  - destruct N as (N & _). destruct f; [contradiction|reflexivity].
  - cbn [app joined]. rewrite slashed_app. cbn [slashed flat_map]. match goal with |- beq ?x [] = false => destruct x eqn:E; [|reflexivity] end. apply (f_equal (@List.length Z)) in E. rewrite !app_length in E. cbn [List.length] in E. lia.
Qed.

Lemma scheme_none path q : forall seen raw, ~ colon_first path -> get_scheme seen (path ++ query_text q) raw = Some ([], raw).
Proof.
  induction path as [|c r IH]; intros seen raw N.
  - destruct q as [q|]; reflexivity.
  - cbn [app get_scheme]. assert (N' : c <> 47 -> ~ colon_first r) by (intros C (a & b & -> & A); apply N; exists (c :: a), b; split; [reflexivity|intros [E|E]; [contradiction|contradiction]]).
    assert (C58 : c <> 58) by (intros ->; apply N; exists [], r; split; [reflexivity|intros []]).
    destruct (letter c) eqn:L; [apply IH, N'; unfold letter in L; lia|]. destruct (is_digit c || one_of (bs "+-.") c) eqn:G; [|destruct (c =? 58) eqn:E; [lia|reflexivity]].
    assert (C : c <> 47) by (intros ->; discriminate G). destruct seen; [reflexivity|apply IH, N', C].
Qed.
Lemma ktext_pct t v : pct path_char t v -> forallb ktextb t = true.
Proof.
  intros P. induction P as [|c t v C P IH|a b x y t v A B P IH]; [reflexivity| |]; cbn [forallb].
  - rewrite IH, andb_true_r. unfold ktextb. rewrite orb_true_iff, one_of_spec. destruct C as [C|[C|C]]; [left; apply reg_spec; tauto|left; apply reg_spec; tauto|right; cbn in *; lia].
  - rewrite IH, andb_true_r. change (ktextb 37) with true. cbn [andb]. assert (H : forall a x, hexit a x -> ktextb a = true).
    { intros a0 x0 H. unfold ktextb. rewrite orb_true_iff. left. apply reg_spec. unfold unreserved. unfold hexit in H. lia. }
    rewrite (H _ _ A), (H _ _ B). reflexivity.
Qed.
Lemma parse_relative path q d : match q with Some q => query_ok q | None => True end -> forallb ktextb path = true -> path <> [] -> has_prefix (bs "/") path = false -> ~ colon_first path ->
  unescape InPath path = Some d ->
  exists raw, (raw = [] \/ raw = path) /\
  parse (path ++ query_text q) = Some (mkUrl [] [] None [] d raw false (match q with Some [] => true | _ => false end) (match q with Some q => q | None => [] end) [] []).
Proof.
  intros Q K NP HP NC U. destruct (query_calm q Q) as (QC & Q35).
  assert (P35 : ~ In 35 path) by (eapply not_in_b; [exact K|reflexivity]). assert (P63 : ~ In 63 path) by (eapply not_in_b; [exact K|reflexivity]).
  assert (PC : existsb (fun c => (c <? 32) || (c =? 127)) path = false) by (apply (existsb_not _ ktextb); [intros c C; apply ktext_facts in C; lia|exact K]).
  unfold parse. rewrite cut_none by (rewrite in_app_iff; tauto). unfold parse1. rewrite existsb_app, PC, QC. cbn [orb]. destruct (beq (path ++ query_text q) (bs "*")) eqn:ST.
  - apply beq_eq in ST. destruct path as [|c [|c' path]]; [contradiction| |discriminate ST]. cbn [app] in ST. change (bs "*") with [42] in ST. injection ST as -> ST. destruct q; [discriminate ST|]. injection U as <-. exists []. split; [auto|reflexivity].
  - rewrite scheme_none by exact NC. change (to_lower []) with (@nil Z). cbv zeta. rewrite cut_query by exact P63. rewrite HP. cbn [negb beq].
    assert (F : has 58 (match cut 47 path with Some (a, _) => a | None => path end) = false).
    { apply has_not. intros J. apply NC. destruct (cut 47 path) as [[a b]|] eqn:CU.
      - apply cut_some in CU as (-> & A). apply in_split in J as (l1 & l2 & ->). exists l1, (l2 ++ 47 :: b). split; [rewrite <- app_assoc; reflexivity|intros J; apply A, in_or_app; auto].
      - apply cut_none_inv in CU. apply in_split in J as (l1 & l2 & ->). exists l1, l2. split; [reflexivity|intros J; apply CU, in_or_app; auto]. }
    rewrite F. unfold set_encoded. rewrite U. eexists. split; [|reflexivity]. destruct (beq path (escape InPath d)); auto.
Qed.
Lemma playlist_relpath path q s segs dir f : pct path_char path (joined (s :: segs)) -> s <> [] -> Forall seg_ok (s :: segs) -> has_prefix (bs "/") path = false -> ~ colon_first path ->
  match q with Some q => query_ok q | None => True end -> name_ok f -> (dir = [] \/ exists d, dir = d ++ [47]) ->
  exists dot p, playlist_uri (path ++ query_text q) (dir ++ f) = Some (dot ++ p ++ query_text q) /\ pct path_char p (joined (wandered (s :: segs) ++ [f])) /\
    (colon_first p -> dot = bs "./") /\ (~ colon_first p -> dot = []).
Proof.
  intros PC NS F HP NC Q N D. assert (U : unescape InPath path = Some (joined (s :: segs))).
  { eapply unescape_pct; [reflexivity| |exact PC]. intros c [X|[X|X]]; [|assert (R : regb c = true) by (apply reg_spec; right; exact X); apply reg_facts in R; tauto|cbn in X; lia]. assert (R : regb c = true) by (apply reg_spec; left; exact X). apply reg_facts in R. tauto. }
  assert (NJ : joined (s :: segs) <> []) by (destruct s; [contradiction|discriminate]).
  assert (NP : path <> []) by (intros ->; cbn [unescape] in U; injection U as U; apply NJ; symmetry; exact U).
  destruct (parse_relative path q _ Q (ktext_pct _ _ PC) NP HP NC U) as (raw & RW & PL).
  unfold playlist_uri. rewrite PL. rewrite (file_base_name dir f N D). cbn [u_scheme u_opaque u_user u_host u_path u_rawpath u_omit u_force u_query u_fragment u_rawfragment].
  assert (J : path_join (joined (s :: segs)) f = joined (wandered (s :: segs) ++ [f])).
  { unfold path_join. assert (NF : beq f [] = false) by (destruct N as (N & _); destruct f; [contradiction|reflexivity]). rewrite NF.
    assert (NB : beq (joined (s :: segs)) [] = false) by (destruct (joined (s :: segs)); [contradiction|reflexivity]). rewrite NB. apply clean_joined; assumption. }
  rewrite J. set (v := joined (wandered (s :: segs) ++ [f])) in *.
  assert (PE : pct path_char (encoded InPath v raw) v).
  { assert (B : bytes_ok v) by (apply joined_bytes, Forall_app; split; [apply wander_forall; [constructor|exact F]|constructor; [split; apply N|constructor]]).
    destruct (encoded_raw v raw) as [E|[(E & UR)|(E & V)]]; rewrite E.
    - apply pct_escape, B.
    - destruct RW as [->| ->]; [injection UR as <-; constructor|]. rewrite U in UR. injection UR as <-. exact PC.
    - rewrite V. apply pct_lit; [right; left; cbn; lia|constructor]. }
  set (p := encoded InPath v raw) in *.
  exists (if has 58 (match cut 47 p with Some (a, _) => a | None => p end) then bs "./" else []), p.
  assert (C : has 58 (match cut 47 p with Some (a, _) => a | None => p end) = true <-> colon_first p).
  { rewrite has_58. split.
    - intros X. destruct (cut 47 p) as [[a b]|] eqn:CU.
      + apply cut_some in CU as (-> & A). apply in_split in X as (l1 & l2 & ->). exists l1, (l2 ++ 47 :: b). split; [rewrite <- app_assoc; reflexivity|intros X; apply A, in_or_app; auto].
      + apply cut_none_inv in CU. apply in_split in X as (l1 & l2 & X). rewrite X in *. exists l1, l2. split; [reflexivity|intros Y; apply CU, in_or_app; auto].
    - intros (a & b & E & A). destruct (cut 47 p) as [[x y]|] eqn:CU.
      + apply cut_some in CU as (CU & X). rewrite E in CU. clear - CU A. revert x CU. induction a as [|c a IH]; intros x CU.
        * destruct x as [|c x]; [discriminate CU|]. injection CU as <- _. left. reflexivity.
        * destruct x as [|c' x]; [cbn [app] in CU; injection CU as -> _; exfalso; apply A; left; reflexivity|]. cbn [app] in CU. injection CU as <- CU. right. apply IH; [intros J; apply A; right; exact J|exact CU].
      + rewrite E. apply in_or_app. right. left. reflexivity. }
  splits.
  - unfold url_string. cbn [u_scheme u_opaque u_user u_host u_path u_rawpath u_omit u_force u_query u_fragment u_rawfragment]. fold p. cbn [beq negb andb]. rewrite andb_false_r. cbn [app beq andb].
    f_equal. rewrite <- !app_assoc. do 2 f_equal. rewrite app_nil_r. destruct q as [[|c q]|]; reflexivity.
  - exact PE.
  - intros X. apply C in X. rewrite X. reflexivity.
  - intros X. destruct (has 58 _) eqn:H; [exfalso; apply X, C; reflexivity|reflexivity].
Qed.
