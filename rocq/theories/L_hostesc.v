From Coq Require Import String.
From Verif Require Import Base GoStrings M_conn M_message M_transport M_sdp M_session M_url M_dial S_message S_url S_badurl L_base L_strings L_message L_url L_badurl.
From Coq Require Import ZifyBool.

(* an encoded byte of ASCII in a host *)
Lemma unescape_low a x y m n t : ~ In 37 a -> hexit x m -> hexit y n -> m * 16 + n < 128 -> m * 16 + n <> 37 -> unescape InHost (a ++ 37 :: x :: y :: t) = None.
Proof.
  intros N X Y L E. induction a as [|c a IH]; cbn [app unescape].
  - change (37 =? 37) with true. cbv iota. rewrite (hexit_unhex _ _ X), (hexit_unhex _ _ Y). cbv zeta.
    assert (B : 0 <= n) by (unfold hexit in Y; lia).
    replace (m <? 8) with true by lia. replace (m * 16 + n =? 37) with false by lia. reflexivity.
  - destruct (c =? 37) eqn:W; [contradiction N; left; lia|]. destruct (in_host InHost && (c <? 128) && should_escape c InHost); [reflexivity|].
    rewrite IH by (intros I; apply N; right; exact I). reflexivity.
Qed.
Lemma not_bracket h : (forall t, h <> 91 :: t) -> has_prefix (bs "[") h = false.
Proof.
  intros N. destruct h as [|c n]; [reflexivity|]. change (bs "[") with [91]. unfold has_prefix. cbn [length firstn app beq]. destruct (c =? 91) eqn:X; [|reflexivity]. contradiction (N n). f_equal. lia.
Qed.
Lemma host_low a x y m n t : ~ In 37 a -> hexit x m -> hexit y n -> m * 16 + n < 128 -> m * 16 + n <> 37 -> (forall r, a <> 91 :: r) -> parse_host (a ++ 37 :: x :: y :: t) = None.
Proof.
  intros N X Y L E B. unfold parse_host. rewrite not_bracket.
  - rewrite (unescape_low a x y m n t N X Y L E). destruct (cut_last 58 (a ++ 37 :: x :: y :: t)) as [[u v]|]; [|reflexivity]. destruct (negb (valid_port (58 :: v))); reflexivity.
  - intros r R. destruct a as [|c a]; [discriminate R|]. injection R as -> _. apply (B a). reflexivity.
Qed.

(* names *)
Lemma high_escape v : 128 <= v -> should_escape v InHost = true.
Proof.
  intros H. unfold should_escape. assert (A : alnum v = false) by (unfold alnum, letter, is_digit; lia). rewrite A.
  assert (O : forall l, Forall (fun c => c < 128) l -> one_of l v = false) by (intros l F; apply not_one_of; intros I; rewrite Forall_forall in F; apply F in I; lia).
  rewrite !O by (cbn; repeat constructor; lia). rewrite andb_false_r. reflexivity.
Qed.
Lemma hexit_range d n : hexit d n -> 0 <= n < 16.
Proof. unfold hexit. lia. Qed.
Lemma hexup_ok n : 0 <= n < 16 -> upperhex n = hexup n.
Proof. intros R. unfold upperhex, hexup. destruct (n <? 10); lia. Qed.
Lemma name_unescape t v w : host_name t v w -> unescape InHost t = Some v.
Proof.
  induction 1 as [|c t v w C _ IH|a b x y t v w A B X _ IH]; [reflexivity| |]; cbn [unescape].
  - apply reg_spec, reg_facts in C as (E & _ & N & _). destruct (c =? 37) eqn:W; [lia|]. rewrite E, andb_false_r, IH. reflexivity.
  - change (37 =? 37) with true. cbv iota. rewrite (hexit_unhex _ _ A), (hexit_unhex _ _ B). cbv zeta. apply hexit_range in B.
    replace ((x <? 8) && negb (x * 16 + y =? 37)) with false by lia. rewrite IH. reflexivity.
Qed.
Lemma unescape_host_app t v w p : host_name t v w -> forallb hostb p = true -> unescape InHost (t ++ p) = Some (v ++ p).
Proof.
  intros H P. induction H as [|c t v w C _ IH|a b x y t v w A B X _ IH]; cbn [app]; [apply unescape_host; exact P| |]; cbn [unescape].
  - apply reg_spec, reg_facts in C as (E & _ & N & _). destruct (c =? 37) eqn:W; [lia|]. rewrite E, andb_false_r, IH. reflexivity.
  - change (37 =? 37) with true. cbv iota. rewrite (hexit_unhex _ _ A), (hexit_unhex _ _ B). cbv zeta. apply hexit_range in B.
    replace ((x <? 8) && negb (x * 16 + y =? 37)) with false by lia. rewrite IH. reflexivity.
Qed.
Lemma name_escape t v w : host_name t v w -> escape InHost v = w.
Proof.
  induction 1 as [|c t v w C _ IH|a b x y t v w A B X _ IH]; [reflexivity| |]; unfold escape in *; cbn [flat_map]; rewrite IH.
  - apply reg_spec, reg_facts in C as (E & _). rewrite E. reflexivity.
  - apply hexit_range in A, B. assert (E : should_escape (x * 16 + y) InHost = true) by (destruct X as [X| ->]; [apply high_escape; exact X|reflexivity]). rewrite E.
    assert (DV : (x * 16 + y) / 16 = x) by (rewrite Z.add_comm, Z.div_add by lia; rewrite Z.div_small by lia; lia). assert (MD : (x * 16 + y) mod 16 = y) by (rewrite Z.add_comm, Z.mod_add by lia; apply Z.mod_small; lia). rewrite DV, MD.
    rewrite !hexup_ok by assumption. reflexivity.
Qed.
Lemma name_chars t v w : host_name t v w -> (forall c, In c t -> regb c = true \/ c = 37) /\ (forall c, In c v -> regb c = true \/ 128 <= c \/ c = 37).
Proof.
  induction 1 as [|c t v w C _ (IH1 & IH2)|a b x y t v w A B X _ (IH1 & IH2)]; [split; intros c []| |].
  - apply reg_spec in C. split; intros d [<-|I]; auto.
  - apply hexit_reg in A, B. split; [intros d [<-|[<-|[<-|I]]]; auto|intros d [<-|I]; [right; exact X|auto]].
Qed.
Lemma name_nil t v w : host_name t v w -> t <> [] -> v <> [].
Proof. intros H N. destruct H; congruence. Qed.
Lemma parse_host_name t v w p : host_name t v w -> match p with Some p => rport_ok p | None => True end -> parse_host (t ++ rport_text p) = Some (v ++ rport_text p).
Proof.
  intros H P. pose proof (rport_chars p P) as PC. destruct (name_chars t v w H) as (TC & _). unfold parse_host.
  rewrite not_bracket.
  2:{ intros r R. destruct t as [|c t]; [destruct p; discriminate R|]. injection R as -> _. destruct (TC 91 (or_introl eq_refl)) as [X|X]; discriminate X. }
  assert (N58 : ~ In 58 t) by (intros I; destruct (TC 58 I) as [X|X]; discriminate X).
  rewrite (unescape_host_app t v w _ H PC). destruct p as [p|]; cbn [rport_text].
  - change (bs ":" ++ p) with (58 :: p). pose proof (port_digits p P) as D. rewrite cut_last_app by (eapply not_in_b; [exact D|reflexivity]). cbn [valid_port]. change (58 =? 58) with true. rewrite D. reflexivity.
  - rewrite app_nil_r, cut_last_none by exact N58. reflexivity.
Qed.
Lemma split_name t v w p : host_name t v w -> t <> [] -> rport_ok p -> split_host_port (v ++ 58 :: p) = Some (v, p).
Proof.
  intros H NE P. pose proof (port_digits p P) as D. assert (N58 : ~ In 58 p) by (eapply not_in_b; [exact D|reflexivity]). assert (N91 : ~ In 91 p) by (eapply not_in_b; [exact D|reflexivity]). assert (N93 : ~ In 93 p) by (eapply not_in_b; [exact D|reflexivity]).
  destruct (name_chars t v w H) as (_ & VC). unfold split_host_port. rewrite cut_last_app by exact N58. rewrite not_bracket.
  2:{ intros r R. apply name_nil in H; [|exact NE]. destruct v as [|c v]; [contradiction|]. injection R as -> _. destruct (VC 91 (or_introl eq_refl)) as [X|X]; [discriminate X|lia]. }
  assert (G : forall c, In c v -> c <> 58 /\ c <> 91 /\ c <> 93) by (intros c I; apply VC in I as [I|I]; [apply reg_facts in I; lia|lia]).
  rewrite !has_not; [reflexivity| | |]; intros I; try (apply in_app_or in I as [I|[X|I]]; try discriminate X; try contradiction); apply G in I; lia.
Qed.
Lemma split_name_none t v w : host_name t v w -> split_host_port v = None.
Proof.
  intros H. destruct (name_chars t v w H) as (_ & VC). unfold split_host_port. rewrite cut_last_none; [reflexivity|]. intros I. apply VC in I as [I|I]; [discriminate I|lia].
Qed.

Lemma dial_name sch u who t v w port path q proto reach guid werr s :
  scheme_ok sch -> ruser_is u who -> host_name t v w -> t <> [] -> match port with Some p => rport_ok p | None => True end -> path_ok path -> match q with Some q => query_ok q | None => True end ->
  rport_number port <= 65535 -> proto <> ProtoHTTP ->
  dial (located sch (ruser_text u ++ t ++ rport_text port) path q) proto reach guid werr s =
  if reach v (rport_number port)
  then ([Connect v (rport_number port)], s,
        Some (dialled proto who (lowered sch ++ bs "://" ++ w ++ bs ":" ++ (match port with Some p => p | None => bs "554" end) ++ path ++ query_text q)))
  else ([], s, None).
Proof.
  intros S U H NE P K Q N NH. set (ztext := t ++ rport_text port). destruct (name_chars t v w H) as (TC & VC).
  assert (ZC : Forall auth_char ztext).
  { apply Forall_forall. intros c I. unfold ztext in I. apply in_app_or in I as [G|G].
    - apply TC in G as [G| ->]; [|unfold auth_char; cbn; lia]. assert (X : hostb c = true) by (unfold hostb; rewrite G; reflexivity). apply host_facts in X. unfold auth_char. cbn. lia.
    - pose proof (rport_chars port P) as F. rewrite forallb_forall in F. apply F, host_facts in G. unfold auth_char. cbn. lia. }
  assert (N64 : ~ In 64 ztext).
  { unfold ztext. intros I. apply in_app_or in I as [G|G].
    - apply TC in G as [G|G]; discriminate G.
    - pose proof (rport_chars port P) as F. rewrite forallb_forall in F. apply F in G. discriminate G. }
  assert (PA : parse_authority (ruser_text u ++ ztext) = Some (ruser_of u who, v ++ rport_text port)).
  { pose proof (parse_host_name t v w port H P) as PH. fold ztext in PH.
    unfold parse_authority. destruct u as [|n|n p]; cbn [ruser_text ruser_is] in *.
    - cbn [app]. rewrite cut_last_none by exact N64. rewrite PH. destruct who; [contradiction|reflexivity].
    - destruct who as [[name pass]|]; [|contradiction]. destruct U as (A & ->). apply user_text in A as (A & D). rewrite <- app_assoc. change (bs "@" ++ ztext) with (64 :: ztext).
      rewrite cut_last_app by exact N64. rewrite PH. assert (V : valid_userinfo n = true) by (unfold valid_userinfo; eapply forallb_imp; [|exact A]; intros x X; apply utext_ptext, ptext_facts in X; apply X). rewrite V. cbn [negb].
      rewrite cut_none by (intros I; rewrite forallb_forall in A; apply A, utext_colon in I; lia). rewrite D. reflexivity.
    - destruct who as [[name pass]|]; [|contradiction]. destruct U as (A & B). apply user_text in A as (A & D). apply pass_text in B as (B & E). change (bs ":" ++ p ++ bs "@") with (58 :: p ++ [64]).
      replace ((n ++ 58 :: p ++ [64]) ++ ztext) with ((n ++ 58 :: p) ++ 64 :: ztext) by (rewrite <- !app_assoc; cbn [app]; rewrite <- !app_assoc; reflexivity).
      rewrite cut_last_app by exact N64. rewrite PH. assert (V : valid_userinfo (n ++ 58 :: p) = true).
      { unfold valid_userinfo. rewrite forallb_app. cbn [forallb]. rewrite !andb_true_iff. splits; [|reflexivity|].
        - eapply forallb_imp; [|exact A]. intros x X. apply utext_ptext, ptext_facts in X. apply X.
        - eapply forallb_imp; [|exact B]. intros x X. apply ptext_facts in X. apply X. }
      rewrite V. cbn [negb]. rewrite cut_app by (intros I; rewrite forallb_forall in A; apply A, utext_colon in I; lia). rewrite D, E. reflexivity. }
  destruct (path_text path K) as (K1 & VE & PS & d & D & ND & _).
  assert (PC : Forall (fun c => 32 <= c /\ c <> 127 /\ c <> 35 /\ c <> 63) path).
  { apply Forall_forall. intros c I. rewrite forallb_forall in K1. apply K1, ktext_facts in I. lia. }
  unfold dial. rewrite parse_gen; [|exact S|apply Forall_app; split; [eapply ruser_auth; exact U|exact ZC]|exact PS|exact PC|exact Q].
  rewrite PA. unfold set_encoded. rewrite D.
  assert (DH : forall om fo qu, dial_host (mkUrl (lowered sch) [] (ruser_of u who) (v ++ rport_text port) d (if beq path (escape InPath d) then [] else path) om fo qu [] []) = v ++ 58 :: port_or port).
  { intros om fo qu. unfold dial_host. cbn [u_host]. destruct port as [p|]; cbn [rport_text port_or].
    - change (bs ":" ++ p) with (58 :: p). rewrite (split_name t v w) by assumption. reflexivity.
    - rewrite app_nil_r, (split_name_none t v w) by assumption. reflexivity. }
  rewrite DH. rewrite (split_name t v w (port_or port) H NE (port_or_ok port P)).
  assert (PN : port_number (port_or port) = rport_number port) by (destruct port; reflexivity). rewrite PN. cbv zeta.
  destruct (proto =? ProtoHTTP) eqn:PE; [lia|]. destruct (rport_number port >? 65535) eqn:G; [lia|]. cbn [orb].
  destruct (reach v (rport_number port)); [|reflexivity]. cbn [negb].
  assert (C : forall om fo qu, credentials (mkUrl (lowered sch) [] (ruser_of u who) (v ++ rport_text port) d (if beq path (escape InPath d) then [] else path) om fo qu [] []) = who).
  { intros. unfold credentials. cbn [u_user]. destruct u as [|n|n p], who as [[x y]|]; cbn [ruser_is ruser_of] in *; try contradiction; try reflexivity. destruct U as (_ & ->). reflexivity. }
  rewrite C. match goal with |- context [base_uri ?r] => assert (BU : base_uri r = lowered sch ++ bs "://" ++ w ++ bs ":" ++ (match port with Some p => p | None => bs "554" end) ++ path ++ query_text q); [|rewrite BU; reflexivity] end.
  unfold base_uri. rewrite DH. unfold url_string. cbn [u_scheme u_opaque u_user u_host u_path u_rawpath u_omit u_force u_query u_fragment u_rawfragment].
  match goal with |- context [encoded InPath d ?r] => replace (encoded InPath d r) with path by (symmetry; exact (encoded_path path d VE D ND)) end.
  destruct (scheme_chars sch S) as (_ & _ & NS & _). assert (LS : beq (lowered sch) [] = false) by (destruct (lowered sch); [contradiction|reflexivity]). rewrite LS.
  assert (HN : beq (v ++ 58 :: port_or port) [] = false) by (destruct v; reflexivity). rewrite HN. cbn [beq negb andb orb].
  rewrite escape_app, (name_escape t v w H), (escape_host (58 :: port_or port)).
  2:{ cbn [forallb andb]. change (hostb 58) with true. cbn [andb]. eapply forallb_imp; [|apply port_digits, port_or_ok; exact P]. intros c X. apply digitb_host. exact X. }
  assert (SL : (if negb (beq path []) && negb (has_prefix (bs "/") path) && true then bs "/" else []) = []) by (destruct PS as [->|(t0 & ->)]; [reflexivity|assert (HP : has_prefix (bs "/") (47 :: t0) = true) by (apply (has_prefix_app (bs "/"))); rewrite HP; reflexivity]).
  rewrite SL.
  assert (NB : forall x y, beq ((lowered sch ++ bs ":") ++ x ++ y) [] = false) by (intros; destruct (lowered sch); reflexivity). rewrite NB. cbn [andb].
  destruct q as [[|c0 q0]|]; cbn [orb negb beq query_text]; rewrite ?app_nil_r, <- !app_assoc; cbn [app bs map list_ascii_of_string]; rewrite <- ?app_assoc; destruct port; reflexivity.
Qed.

(* brackets inside a name *)
Lemma unescape_keeps b h : forall v, unhex b = None -> b <> 37 -> unescape InHost h = Some v -> In b h -> In b v.
Proof.
  intros v UB NB. revert v. induction h as [h IH] using (well_founded_induction (Wf_nat.well_founded_ltof _ (@length Z))); intros v E I. unfold Wf_nat.ltof in IH.
  destruct h as [|c r]; [destruct I|]. cbn [unescape] in E. destruct (c =? 37) eqn:C.
  - destruct r as [|x [|y r]]; try discriminate E. destruct (unhex x) as [m|] eqn:X; [|discriminate E]. destruct (unhex y) as [n|] eqn:Y; [|discriminate E]. cbv zeta in E.
    destruct ((m <? 8) && negb (m * 16 + n =? 37)); [discriminate E|]. destruct (unescape InHost r) as [t|] eqn:T; [|discriminate E]. injection E as <-.
    right. apply (IH r); [cbn [length]; lia|exact T|]. destruct I as [I|[I|[I|I]]]; [lia|congruence|congruence|exact I].
  - destruct (in_host InHost && (c <? 128) && should_escape c InHost); [discriminate E|]. destruct (unescape InHost r) as [t|] eqn:T; [|discriminate E]. injection E as <-.
    destruct I as [->|I]; [left; reflexivity|right]. apply (IH r); [cbn [length]; lia|exact T|exact I].
Qed.
Lemma unescape_first h v : unescape InHost h = Some (91 :: v) -> exists t, h = 91 :: t.
Proof.
  destruct h as [|c s]; cbn [unescape]; [discriminate|]. destruct (c =? 37) eqn:C.
  - destruct s as [|x [|y s]]; try discriminate. destruct (unhex x) as [m|]; [|discriminate]. destruct (unhex y) as [n|] eqn:Y; [|discriminate]. cbv zeta.
    destruct ((m <? 8) && negb (m * 16 + n =? 37)) eqn:B; [discriminate|]. destruct (unescape InHost s); [|discriminate]. intros E. injection E as E _. apply unhex_range in Y. lia.
  - destruct (in_host InHost && (c <? 128) && should_escape c InHost); [discriminate|]. destruct (unescape InHost s); [|discriminate]. intros E. injection E as -> _. exists s. reflexivity.
Qed.
Lemma split_bracket v p : (forall t, v <> 91 :: t) -> In 91 v \/ In 93 v -> split_host_port (v ++ p) = None.
Proof.
  intros N I. unfold split_host_port. destruct (cut_last 58 (v ++ p)) as [[a b]|]; [|reflexivity].
  rewrite not_bracket.
  2:{ intros t E. destruct v as [|c v]; [destruct I as [[]|[]]|]. injection E as -> _. apply (N v). reflexivity. }
  assert (H : forall c, In c v -> has c (v ++ p) = true).
  { intros c J. unfold has. apply existsb_exists. exists c. split; [apply in_or_app; left; exact J|apply Z.eqb_refl]. }
  destruct I as [I|I]; rewrite (H _ I), ?orb_true_r; reflexivity.
Qed.
Lemma dial_bracket sch u who h path q proto reach guid werr s : scheme_ok sch -> ruser_is u who -> Forall auth_char h -> ~ In 64 h ->
  (forall t, h <> 91 :: t) -> In 91 h \/ In 93 h ->
  (path = [] \/ exists t, path = 47 :: t) -> Forall (fun c => 32 <= c /\ c <> 127 /\ c <> 35 /\ c <> 63) path -> match q with Some q => query_ok q | None => True end ->
  dial (located sch (ruser_text u ++ h) path q) proto reach guid werr s = ([], s, None).
Proof.
  intros S U A N B I K C Q. destruct (parse_host h) as [v|] eqn:P; [|apply (bad_authority sch u who); assumption].
  assert (UH : unescape InHost h = Some v).
  { unfold parse_host in P. rewrite (not_bracket h B) in P. destruct (cut_last 58 h) as [[x y]|]; [|exact P]. destruct (negb (valid_port (58 :: y))); [discriminate P|exact P]. }
  assert (IV : In 91 v \/ In 93 v) by (destruct I as [I|I]; [left|right]; revert I; apply unescape_keeps; (reflexivity || discriminate || exact UH)).
  assert (NV : forall t, v <> 91 :: t).
  { intros t ->. destruct (unescape_first _ _ UH) as (t2 & E). apply (B t2). exact E. }
  assert (PA : forall x y, parse_authority (ruser_text u ++ h) = Some (x, y) -> y = v).
  { intros x y. unfold parse_authority. assert (CL : cut_last 64 (ruser_text u ++ h) = match u with NoUser => None | User n => Some (n, h) | UserPass n p => Some (n ++ 58 :: p, h) end).
    { destruct u as [|n|n p]; cbn [ruser_text].
      - apply cut_last_none. exact N.
      - rewrite <- app_assoc. apply (cut_last_app 64 n h N).
      - replace ((n ++ bs ":" ++ p ++ bs "@") ++ h) with ((n ++ 58 :: p) ++ 64 :: h) by (cbn [app bs]; rewrite <- !app_assoc; cbn [app]; rewrite <- !app_assoc; reflexivity). apply cut_last_app. exact N. }
    rewrite CL. destruct u as [|n|n p]; cbn [ruser_text app]; rewrite P.
    - intros E. injection E as _ <-. reflexivity.
    - destruct (negb (valid_userinfo n)); [discriminate|]. destruct (cut 58 n) as [[a b]|]; repeat match goal with |- context [unescape InUser ?w] => destruct (unescape InUser w) end; intros E; try discriminate E; injection E as _ <-; reflexivity.
    - destruct (negb (valid_userinfo (n ++ 58 :: p))); [discriminate|]. destruct (cut 58 (n ++ 58 :: p)) as [[a b]|]; repeat match goal with |- context [unescape InUser ?w] => destruct (unescape InUser w) end; intros E; try discriminate E; injection E as _ <-; reflexivity. }
  unfold dial. rewrite parse_gen; [|exact S|apply Forall_app; split; [eapply ruser_auth; exact U|exact A]|exact K|exact C|exact Q].
  destruct (parse_authority (ruser_text u ++ h)) as [[x y]|]; [|reflexivity]. specialize (PA x y eq_refl). subst y. destruct (set_encoded InPath path) as [[d r]|]; [|reflexivity].
  unfold dial_host. cbn [u_host]. pose proof (split_bracket v [] NV IV) as S0. rewrite app_nil_r in S0. rewrite S0. rewrite (split_bracket v (bs ":554") NV IV). reflexivity.
Qed.
