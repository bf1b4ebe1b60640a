From Coq Require Import String.
From Verif Require Import Base GoStrings M_conn M_message M_transport M_sdp M_session M_url M_dial S_message S_url S_badurl L_base L_strings L_message L_url.
From Coq Require Import ZifyBool.

Definition authb (c : Z) : bool := (32 <? c) && (c <? 127) && negb (c =? 35) && negb (c =? 47) && negb (c =? 63).
Lemma auth_chars auth : Forall auth_char auth -> forallb authb auth = true.
Proof. intros F. eapply Forall_b; [|exact F]. intros c (R & N). cbn in N. unfold authb. lia. Qed.

Lemma parse_gen sch auth path q : scheme_ok sch -> Forall auth_char auth -> (path = [] \/ exists t, path = 47 :: t) ->
  Forall (fun c => 32 <= c /\ c <> 127 /\ c <> 35 /\ c <> 63) path -> match q with Some q => query_ok q | None => True end ->
  parse (located sch auth path q) =
  match parse_authority auth with
  | Some (user, host) => match set_encoded InPath path with
      | Some (d, r) => Some (mkUrl (lowered sch) [] user host d r false (match q with Some [] => true | _ => false end) (match q with Some q => q | None => [] end) [] [])
      | None => None end
  | None => None
  end.
Proof.
  intros S AC K3 PC Q. pose proof (scheme_chars sch S) as (S1 & S2 & S3 & S4). pose proof (auth_chars auth AC) as A. unfold authb in A.
  assert (K1 : forallb (fun c => (32 <=? c) && negb (c =? 127) && negb (c =? 35) && negb (c =? 63)) path = true) by (eapply Forall_b; [|exact PC]; cbv beta; lia).
  assert (E : located sch auth path q = sch ++ 58 :: 47 :: 47 :: auth ++ path ++ query_text q) by reflexivity.
  rewrite E. clear E. set (raw := sch ++ 58 :: 47 :: 47 :: auth ++ path ++ query_text q).
  assert (QT : forallb (fun c => (32 <=? c) && negb (c =? 127) && negb (c =? 35)) (query_text q) = true).
  { destruct q as [q|]; [|reflexivity]. cbn [query_text]. rewrite forallb_app, andb_true_iff. split; [reflexivity|]. eapply Forall_b; [|exact Q]. cbv beta. lia. }
  assert (R : forallb (fun c => (32 <=? c) && negb (c =? 127) && negb (c =? 35)) raw = true).
  { unfold raw. rewrite forallb_app. cbn [forallb]. rewrite !forallb_app. rewrite !andb_true_iff. splits; try reflexivity; try exact QT.
    - eapply forallb_imp; [|exact S1]. cbv beta. lia.
    - eapply forallb_imp; [|exact A]. cbv beta. lia.
    - eapply forallb_imp; [|exact K1]. cbv beta. lia. }
  unfold parse. rewrite cut_none by (eapply not_in_b; [exact R|reflexivity]). unfold parse1.
  rewrite (existsb_not _ _ raw) with (2 := R) by (cbv beta; lia).
  assert (NS : beq raw (bs "*") = false).
  { destruct S as (c & r & -> & C & _). unfold raw. change (bs "*") with [42]. cbn [app beq]. destruct (c =? 42) eqn:X; [lia|reflexivity]. }
  rewrite NS. unfold raw at 1. rewrite S4. rewrite S2. cbv zeta.
  assert (C63 : cut 63 (47 :: 47 :: auth ++ path ++ query_text q) = match q with Some q => Some (47 :: 47 :: auth ++ path, q) | None => None end).
  { assert (N : ~ In 63 (47 :: 47 :: auth ++ path)).
    { intros [X|[X|I]]; try discriminate X. apply in_app_or in I as [I|I]; [revert I; eapply not_in_b; [exact A|reflexivity]|revert I; eapply not_in_b; [exact K1|reflexivity]]. }
    destruct q as [q|]; cbn [query_text].
    - change (bs "?" ++ q) with (63 :: q). rewrite app_assoc. change (47 :: 47 :: (auth ++ path) ++ 63 :: q) with ((47 :: 47 :: auth ++ path) ++ 63 :: q). apply cut_app. exact N.
    - rewrite app_nil_r. apply cut_none. exact N. }
  rewrite C63. clear C63 R QT NS. assert (NIL : auth ++ path ++ query_text None = auth ++ path) by (cbn [query_text]; rewrite app_nil_r; reflexivity).
  assert (HP : has_prefix (bs "/") (47 :: 47 :: auth ++ path) = true) by (apply (has_prefix_app (bs "/"))).
  assert (HP2 : has_prefix (bs "//") (47 :: 47 :: auth ++ path) = true) by (apply (has_prefix_app (bs "//"))).
  assert (LS : beq (lowered sch) [] = false) by (destruct (lowered sch); [contradiction|reflexivity]).
  assert (C47 : (match cut 47 (auth ++ path) with Some (a, b) => (a, 47 :: b) | None => (auth ++ path, []) end) = (auth, path)).
  { assert (N : ~ In 47 auth) by (eapply not_in_b; [exact A|reflexivity]). destruct K3 as [->|(t & ->)]; [rewrite app_nil_r, cut_none by exact N; reflexivity|rewrite cut_app by exact N; reflexivity]. }
  destruct q as [[|c0 q0]|]; cbv iota; rewrite ?NIL, HP, HP2, LS; cbn [negb orb andb skipn]; rewrite C47; destruct (parse_authority auth) as [[user host]|]; try reflexivity; destruct (set_encoded InPath path) as [[d r]|]; reflexivity.
Qed.

(* control characters *)
Lemma control_refused a c b : c < 32 \/ c = 127 -> ~ In 35 a -> parse (a ++ c :: b) = None.
Proof.
  intros C N. assert (X : forall t, parse1 (a ++ c :: t) = None).
  { intros t. unfold parse1. assert (E : existsb (fun c => (c <? 32) || (c =? 127)) (a ++ c :: t) = true) by (apply existsb_exists; exists c; split; [apply in_elt|lia]). rewrite E. reflexivity. }
  unfold parse. destruct (cut 35 (a ++ c :: b)) as [[x y]|] eqn:E; [|apply X].
  assert (P : exists t, x = a ++ c :: t).
  { destruct (in_dec Z.eq_dec 35 b) as [I|I].
    - apply in_split in I as (p & r & E2).
      assert (I : In 35 b) by (rewrite E2; apply in_elt). clear p r E2.
      assert (M : exists p r, b = p ++ 35 :: r /\ ~ In 35 p).
      { clear -I. induction b as [|k b IH]; [contradiction|]. destruct (Z.eq_dec k 35) as [->|NK]; [exists [], b; split; [reflexivity|intros []]|].
        destruct I as [I|I]; [congruence|]. destruct (IH I) as (p & r & -> & NP). exists (k :: p), r. split; [reflexivity|]. intros [J|J]; [congruence|contradiction]. }
      destruct M as (p & r & -> & NP). exists p. replace (a ++ c :: p ++ 35 :: r) with ((a ++ c :: p) ++ 35 :: r) in E by (rewrite <- app_assoc; reflexivity).
      rewrite cut_app in E; [injection E as <- _; reflexivity|]. intros J. apply in_app_or in J as [J|[J|J]]; [contradiction|lia|contradiction].
    - rewrite cut_none in E; [discriminate|]. intros J. apply in_app_or in J as [J|[J|J]]; [contradiction|lia|contradiction]. }
  destruct P as (t & ->). rewrite X. reflexivity.
Qed.

(* percent signs *)
Lemma unhex_hexit d n : unhex d = Some n -> hexit d n.
Proof.
  unfold unhex, hexit. destruct ((48 <=? d) && (d <=? 57)) eqn:E; [intros X; injection X as <-; lia|].
  destruct ((97 <=? d) && (d <=? 102)) eqn:E2; [intros X; injection X as <-; lia|]. destruct ((65 <=? d) && (d <=? 70)) eqn:E3; [intros X; injection X as <-; lia|discriminate].
Qed.
Lemma percent_bad m s : bad_percent s -> unescape m s = None.
Proof.
  intros (a & r & -> & N & B). induction a as [|c a IH]; cbn [app unescape].
  - change (37 =? 37) with true. cbv iota. destruct r as [|x [|y t]]; try reflexivity.
    destruct (unhex x) as [u|] eqn:X; [|reflexivity]. destruct (unhex y) as [v|] eqn:Y; [|reflexivity]. contradiction B. exists x, y, t, u, v. split; [reflexivity|]. split; apply unhex_hexit; assumption.
  - destruct (c =? 37) eqn:E; [contradiction N; left; lia|]. destruct (in_host m && (c <? 128) && should_escape c m); [reflexivity|]. rewrite IH by (intros I; apply N; right; exact I). reflexivity.
Qed.

(* hosts *)
Lemma host_unclosed a : ~ In 93 a -> parse_host (91 :: a) = None.
Proof.
  intros N. unfold parse_host. assert (E : has_prefix (bs "[") (91 :: a) = true) by (apply (has_prefix_app (bs "["))). rewrite E.
  rewrite cut_last_none; [reflexivity|]. intros [X|X]; [discriminate|contradiction].
Qed.
Lemma host_after a c t : ~ In 93 (c :: t) -> c <> 58 -> parse_host (91 :: a ++ 93 :: c :: t) = None.
Proof.
  intros N C. unfold parse_host. assert (E : has_prefix (bs "[") (91 :: a ++ 93 :: c :: t) = true) by (apply (has_prefix_app (bs "["))). rewrite E.
  change (91 :: a ++ 93 :: c :: t) with ((91 :: a) ++ 93 :: c :: t). rewrite cut_last_app by exact N. cbn [valid_port]. replace (c =? 58) with false by lia. reflexivity.
Qed.
Lemma not_digits p : (exists c, In c p /\ ~ (48 <= c <= 57)) -> forallb is_digit p = false.
Proof.
  intros (c & I & D). apply not_true_is_false. intros F. rewrite forallb_forall in F. apply F in I. unfold is_digit in I. lia.
Qed.
Lemma host_port n p : (forall t, n <> 91 :: t) -> ~ In 58 p -> (exists c, In c p /\ ~ (48 <= c <= 57)) -> parse_host (n ++ 58 :: p) = None.
Proof.
  intros N C D. unfold parse_host.
  assert (E : has_prefix (bs "[") (n ++ 58 :: p) = false).
  { destruct n as [|c n]; [reflexivity|]. change (bs "[") with [91]. unfold has_prefix. cbn [length firstn app beq]. destruct (c =? 91) eqn:X; [|reflexivity]. contradiction (N n). f_equal. lia. }
  rewrite E, cut_last_app by exact C. cbn [valid_port]. rewrite (not_digits p D). reflexivity.
Qed.
Lemma host_port6 a p : ~ In 93 p -> (exists c, In c p /\ ~ (48 <= c <= 57)) -> parse_host (91 :: a ++ 93 :: 58 :: p) = None.
Proof.
  intros N D. unfold parse_host. assert (E : has_prefix (bs "[") (91 :: a ++ 93 :: 58 :: p) = true) by (apply (has_prefix_app (bs "["))). rewrite E.
  change (91 :: a ++ 93 :: 58 :: p) with ((91 :: a) ++ 93 :: 58 :: p). rewrite cut_last_app by (intros [X|X]; [discriminate|contradiction]). cbn [valid_port]. rewrite (not_digits p D). reflexivity.
Qed.
Lemma authority_host u who h : ruser_is u who -> ~ In 64 h -> parse_host h = None -> parse_authority (ruser_text u ++ h) = None.
Proof.
  intros U N P. unfold parse_authority. destruct u as [|n|n q]; cbn [ruser_text].
  - cbn [app]. rewrite cut_last_none by exact N. rewrite P. reflexivity.
  - rewrite <- app_assoc. change (bs "@" ++ h) with (64 :: h). rewrite cut_last_app by exact N. rewrite P. reflexivity.
  - change (bs ":" ++ q ++ bs "@") with (58 :: q ++ [64]). replace ((n ++ 58 :: q ++ [64]) ++ h) with ((n ++ 58 :: q) ++ 64 :: h) by (rewrite <- !app_assoc; cbn [app]; rewrite <- !app_assoc; reflexivity).
    rewrite cut_last_app by exact N. rewrite P. reflexivity.
Qed.

Lemma refused uri proto reach guid werr s : parse uri = None -> dial uri proto reach guid werr s = ([], s, None).
Proof. intros E. unfold dial. rewrite E. reflexivity. Qed.

(* what a user is made of *)
Lemma ruser_auth u who : ruser_is u who -> Forall auth_char (ruser_text u).
Proof.
  intros U. apply Forall_forall. intros c I. pose proof (ruser_chars u who U) as F. rewrite forallb_forall in F. apply F in I. apply orb_true_iff in I as [C|C].
  - pose proof (ptext_facts c C) as (C1 & C2 & _). apply ptext_ktext, ktext_facts in C. unfold auth_char. cbn. lia.
  - unfold auth_char. cbn. lia.
Qed.

Lemma bad_authority sch u who h path q proto reach guid werr s : scheme_ok sch -> ruser_is u who -> Forall auth_char h -> ~ In 64 h -> parse_host h = None ->
  (path = [] \/ exists t, path = 47 :: t) -> Forall (fun c => 32 <= c /\ c <> 127 /\ c <> 35 /\ c <> 63) path -> match q with Some q => query_ok q | None => True end ->
  dial (located sch (ruser_text u ++ h) path q) proto reach guid werr s = ([], s, None).
Proof.
  intros S U H N P K C Q. apply refused. rewrite parse_gen; auto.
  - rewrite (authority_host u who h U N P). reflexivity.
  - apply Forall_app. split; [eapply ruser_auth; exact U|exact H].
Qed.
Lemma bad_path sch auth path q proto reach guid werr s : scheme_ok sch -> Forall auth_char auth -> bad_percent path ->
  (path = [] \/ exists t, path = 47 :: t) -> Forall (fun c => 32 <= c /\ c <> 127 /\ c <> 35 /\ c <> 63) path -> match q with Some q => query_ok q | None => True end ->
  dial (located sch auth path q) proto reach guid werr s = ([], s, None).
Proof.
  intros S A B K C Q. apply refused. rewrite parse_gen by auto. unfold set_encoded. rewrite (percent_bad InPath path B). destruct (parse_authority auth) as [[x y]|]; reflexivity.
Qed.

(* zones *)
Lemma find_zone_at a z : ~ In 37 a -> find_zone (a ++ 37 :: 50 :: 53 :: z) = Some (a, 37 :: 50 :: 53 :: z).
Proof.
  induction a as [|c a IH]; intros N; cbn [app find_zone].
  - reflexivity.
  - change (bs "%25") with [37; 50; 53]. destruct (has_prefix [37; 50; 53] (c :: a ++ 37 :: 50 :: 53 :: z)) eqn:P.
    + apply has_prefix_inv in P. cbn [length] in P. contradiction N. injection P as P _. left. exact P.
    + rewrite IH by (intros I; apply N; right; exact I). reflexivity.
Qed.
Lemma unres_facts c : unreserved c -> regb c = true /\ should_escape c InZone = false.
Proof.
  intros U. assert (R : regb c = true) by (apply reg_spec; left; exact U). split; [exact R|].
  pose proof (ascii_all (fun c => implb (regb c) (negb (should_escape c InZone))) c ltac:(vm_compute; reflexivity) (reg_range c R)) as F. cbv beta in F. rewrite R in F. apply negb_true_iff. exact F.
Qed.
Lemma unescape_zone z : zone_ok z -> unescape InZone z = Some z.
Proof.
  induction z as [|c z IH]; intros F; [reflexivity|]. apply Forall_cons_iff in F as (U & F). apply unres_facts in U as (R & E). apply reg_facts in R.
  cbn [unescape]. destruct (c =? 37) eqn:X; [lia|]. rewrite E, andb_false_r, IH by exact F. reflexivity.
Qed.
Definition v6_ok (a : bytes) : Prop := rhost_ok (V6 a).
Lemma v6_all a : v6_ok a -> forall c, In c a -> v6b c = true.
Proof. intros H c I. unfold v6_ok in H. cbn [rhost_ok] in H. rewrite Forall_forall in H. specialize (H c I). unfold v6b, is_digit. lia. Qed.
Lemma v6_b a : v6_ok a -> forallb v6b a = true.
Proof. intros H. apply forallb_forall. apply v6_all, H. Qed.

Lemma parse_host_zone a z p : v6_ok a -> zone_ok z -> match p with Some p => rport_ok p | None => True end ->
  parse_host (bs "[" ++ a ++ bs "%25" ++ z ++ bs "]" ++ rport_text p) = Some (bs "[" ++ a ++ bs "%" ++ z ++ bs "]" ++ rport_text p).
Proof.
  intros H Z0 P. unfold parse_host. assert (E : has_prefix (bs "[") (bs "[" ++ a ++ bs "%25" ++ z ++ bs "]" ++ rport_text p) = true) by (apply (has_prefix_app (bs "["))). rewrite E.
  replace (bs "[" ++ a ++ bs "%25" ++ z ++ bs "]" ++ rport_text p) with ((91 :: a ++ 37 :: 50 :: 53 :: z) ++ 93 :: rport_text p) by (cbn [app bs]; rewrite <- !app_assoc; reflexivity).
  assert (N93 : ~ In 93 (rport_text p)).
  { destruct p as [p|]; [|intros []]. cbn [rport_text]. change (bs ":" ++ p) with (58 :: p). intros [X|I]; [discriminate X|]. apply (not_in_b is_digit 93 p (port_digits p P) eq_refl I). }
  rewrite cut_last_app by exact N93.
  assert (VP : valid_port (rport_text p) = true) by (destruct p as [p|]; [|reflexivity]; change (rport_text (Some p)) with (58 :: p); cbn [valid_port]; rewrite (port_digits p P); reflexivity).
  rewrite VP. cbn [negb]. change (91 :: a ++ 37 :: 50 :: 53 :: z) with ((91 :: a) ++ 37 :: 50 :: 53 :: z).
  rewrite find_zone_at.
  2:{ intros [X|I]; [discriminate|]. apply (v6_all a H) in I. unfold v6b, is_digit in I. lia. }
  rewrite unescape_host.
  2:{ cbn [forallb]. rewrite andb_true_iff. split; [reflexivity|]. eapply forallb_imp; [|apply v6_b; exact H]. intros x X. apply v6_host. exact X. }
  cbn [unescape]. change (37 =? 37) with true. change (unhex 50) with (Some 2). change (unhex 53) with (Some 5). cbv beta iota zeta.
  change (2 * 16 + 5) with 37. change (37 =? 37) with true. cbn [negb andb]. rewrite unescape_zone by exact Z0.
  change (93 =? 37) with false. cbv iota. change (in_host InHost && (93 <? 128) && should_escape 93 InHost) with false. cbv iota.
  rewrite unescape_host by (apply rport_chars; exact P). cbn [app bs map list_ascii_of_string]. rewrite <- ?app_assoc. cbn [app]. reflexivity.
Qed.
Lemma not_one_of set c : ~ In c set -> one_of set c = false.
Proof. intros N. apply not_true_is_false. intros X. apply one_of_spec in X. contradiction. Qed.
Lemma stray_escape v : zone_stray v -> should_escape v InHost = true.
Proof.
  intros (U & N & _). unfold should_escape.
  assert (A : alnum v = false) by (unfold alnum, letter, is_digit; unfold unreserved in U; lia). rewrite A.
  rewrite (not_one_of _ v N). cbn [in_host andb].
  assert (M : one_of (bs "-_.~") v = false) by (apply not_one_of; intros I; apply U; right; right; right; cbn in *; lia). rewrite M.
  destruct (one_of (bs "$&+,/:;=?@") v); reflexivity.
Qed.
Lemma host_zone_stray a z x y u v t : v6_ok a -> zone_ok z -> hexit x u -> hexit y v -> zone_stray (u * 16 + v) -> forall p, ~ In 93 p ->
  parse_host (bs "[" ++ a ++ bs "%25" ++ z ++ (37 :: x :: y :: t) ++ bs "]" ++ p) = None.
Proof.
  intros H Z0 X Y V p N. unfold parse_host. assert (E : has_prefix (bs "[") (bs "[" ++ a ++ bs "%25" ++ z ++ (37 :: x :: y :: t) ++ bs "]" ++ p) = true) by (apply (has_prefix_app (bs "["))). rewrite E.
  replace (bs "[" ++ a ++ bs "%25" ++ z ++ (37 :: x :: y :: t) ++ bs "]" ++ p) with ((91 :: a ++ 37 :: 50 :: 53 :: z ++ 37 :: x :: y :: t) ++ 93 :: p) by (cbn [app bs]; rewrite <- !app_assoc; cbn [app]; rewrite <- !app_assoc; reflexivity).
  rewrite cut_last_app by exact N. destruct (negb (valid_port p)); [reflexivity|].
  change (91 :: a ++ 37 :: 50 :: 53 :: z ++ 37 :: x :: y :: t) with ((91 :: a) ++ 37 :: 50 :: 53 :: z ++ 37 :: x :: y :: t).
  rewrite find_zone_at.
  2:{ intros [W|I]; [discriminate|]. apply (v6_all a H) in I. unfold v6b, is_digit in I. lia. }
  assert (Q : forall w, unescape InZone (37 :: 50 :: 53 :: w) = match unescape InZone w with Some t => Some (37 :: t) | None => None end) by reflexivity.
  rewrite Q. assert (B : unescape InZone (z ++ 37 :: x :: y :: t) = None).
  { clear Q E. induction z as [|c z IH]; cbn [app].
    - cbn [unescape]. change (37 =? 37) with true. cbv iota. rewrite (hexit_unhex _ _ X), (hexit_unhex _ _ Y). cbv zeta. rewrite (stray_escape _ V).
      destruct V as (_ & _ & V1 & V2). replace (u * 16 + v =? 37) with false by lia. replace (u * 16 + v =? 32) with false by lia. reflexivity.
    - apply Forall_cons_iff in Z0 as (U & F). apply unres_facts in U as (R & E2). apply reg_facts in R.
      cbn [unescape]. destruct (c =? 37) eqn:W; [lia|]. rewrite E2, andb_false_r, (IH F). reflexivity. }
  rewrite B. destruct (unescape InHost (91 :: a)); reflexivity.
Qed.

(* a URL with a zone, dialled *)
Lemma zone_facts c : zone_ok [c] -> c <> 37 /\ c <> 58 /\ c <> 64 /\ c <> 91 /\ c <> 93 /\ 32 < c < 127 /\ c <> 47 /\ c <> 63 /\ c <> 35.
Proof. intros F. apply Forall_inv in F. unfold unreserved in F. cbn in F. lia. Qed.
Lemma zone_all z : zone_ok z -> forall c, In c z -> zone_ok [c].
Proof. intros F c I. constructor; [|constructor]. unfold zone_ok in F. rewrite Forall_forall in F. apply F, I. Qed.
Definition zhost (a z : bytes) : bytes := bs "[" ++ a ++ bs "%" ++ z ++ bs "]".
Lemma zhost_eq a z t : zhost a z ++ t = (91 :: a ++ 37 :: z) ++ 93 :: t.
Proof. unfold zhost. cbn [app bs map list_ascii_of_string]. rewrite <- !app_assoc. cbn [app]. rewrite <- !app_assoc. reflexivity. Qed.
Lemma zone_inner a z : v6_ok a -> zone_ok z -> ~ In 93 (91 :: a ++ 37 :: z) /\ ~ In 91 (a ++ 37 :: z).
Proof.
  intros H Z0. assert (G : forall c, In c (a ++ 37 :: z) -> c <> 91 /\ c <> 93).
  { intros c I. apply in_app_or in I as [I|[I|I]]; [|lia|].
    - apply (v6_all a H), v6_host in I. lia.
    - apply (zone_all z Z0), zone_facts in I. lia. }
  split; [intros [X|I]; [discriminate|]|intros I]; apply G in I; lia.
Qed.
Lemma split_zone a z p : v6_ok a -> zone_ok z -> rport_ok p -> split_host_port (zhost a z ++ 58 :: p) = Some (a ++ bs "%" ++ z, p).
Proof.
  intros H Z0 P. pose proof (port_digits p P) as D. assert (N58 : ~ In 58 p) by (eapply not_in_b; [exact D|reflexivity]). assert (N91 : ~ In 91 p) by (eapply not_in_b; [exact D|reflexivity]). assert (N93 : ~ In 93 p) by (eapply not_in_b; [exact D|reflexivity]).
  destruct (zone_inner a z H Z0) as (I93 & I91).
  unfold split_host_port. rewrite cut_last_app by exact N58. rewrite zhost_eq.
  assert (HP : has_prefix (bs "[") ((91 :: a ++ 37 :: z) ++ 93 :: 58 :: p) = true) by (apply (has_prefix_app (bs "["))). rewrite HP.
  rewrite cut_app by exact I93. assert (B : beq ((91 :: a ++ 37 :: z) ++ [93]) (zhost a z) = true).
  { rewrite <- (zhost_eq a z []). rewrite app_nil_r. apply beq_refl. }
  replace (91 :: a ++ 37 :: z) with (91 :: a ++ 37 :: z) in B by reflexivity. rewrite B. cbn [negb app skipn].
  rewrite !has_not; [reflexivity| |].
  - intros [X|I]; [discriminate X|contradiction].
  - intros I. apply in_app_or in I as [I|[X|[X|I]]]; try discriminate X; contradiction.
Qed.
Lemma split_zone_none a z : v6_ok a -> zone_ok z -> split_host_port (zhost a z) = None.
Proof.
  intros H Z0. destruct (zone_inner a z H Z0) as (I93 & I91). rewrite <- (app_nil_r (zhost a z)), zhost_eq. unfold split_host_port.
  assert (HP : has_prefix (bs "[") ((91 :: a ++ 37 :: z) ++ [93]) = true) by (apply (has_prefix_app (bs "["))). rewrite HP.
  destruct (cut_last 58 ((91 :: a ++ 37 :: z) ++ [93])) as [[b p]|]; [|reflexivity]. rewrite cut_app by exact I93. reflexivity.
Qed.
Lemma escape_app m a b : escape m (a ++ b) = escape m a ++ escape m b.
Proof. apply flat_map_app. Qed.
Lemma escape_zhost a z p : v6_ok a -> zone_ok z -> forallb hostb p = true -> escape InHost (zhost a z ++ p) = bs "[" ++ a ++ bs "%25" ++ z ++ bs "]" ++ p.
Proof.
  intros H Z0 P. unfold zhost. rewrite !escape_app. rewrite (escape_host a), (escape_host z), (escape_host p); [rewrite <- !app_assoc; reflexivity|exact P| |].
  - eapply Forall_b; [|exact Z0]. intros c U. apply unres_facts in U as (R & _). unfold hostb. rewrite R. reflexivity.
  - eapply forallb_imp; [|apply v6_b; exact H]. intros x X. apply v6_host. exact X.
Qed.

Lemma dial_zone sch u who a z port path q proto reach guid werr s :
  scheme_ok sch -> ruser_is u who -> v6_ok a -> zone_ok z -> match port with Some p => rport_ok p | None => True end -> path_ok path -> match q with Some q => query_ok q | None => True end ->
  rport_number port <= 65535 -> proto <> ProtoHTTP ->
  dial (located sch (ruser_text u ++ bs "[" ++ a ++ bs "%25" ++ z ++ bs "]" ++ rport_text port) path q) proto reach guid werr s =
  if reach (a ++ bs "%" ++ z) (rport_number port)
  then ([Connect (a ++ bs "%" ++ z) (rport_number port)], s,
        Some (dialled proto who (lowered sch ++ bs "://[" ++ a ++ bs "%25" ++ z ++ bs "]:" ++ (match port with Some p => p | None => bs "554" end) ++ path ++ query_text q)))
  else ([], s, None).
Proof.
  intros S U H Z0 P K Q N NH. set (ztext := bs "[" ++ a ++ bs "%25" ++ z ++ bs "]" ++ rport_text port).
  assert (ZC : Forall auth_char ztext).
  { apply Forall_forall. intros c I. unfold ztext in I.
    assert (G : In c a \/ In c z \/ In c (rport_text port) \/ In c (bs "[%25]")).
    { repeat (apply in_app_or in I as [I|I]); auto; do 3 right; cbn in I |- *; lia. }
    destruct G as [G|[G|[G|G]]].
    - apply (v6_all a H), v6_host in G as (G & _). apply host_facts in G. unfold auth_char. cbn. lia.
    - apply (zone_all z Z0), zone_facts in G. unfold auth_char. cbn. lia.
    - pose proof (rport_chars port P) as F. rewrite forallb_forall in F. apply F, host_facts in G. unfold auth_char. cbn. lia.
    - unfold auth_char. cbn in G |- *. lia. }
  assert (N64 : ~ In 64 ztext).
  { unfold ztext. intros I. assert (G : In 64 a \/ In 64 z \/ In 64 (rport_text port) \/ In 64 (bs "[%25]")).
    { repeat (apply in_app_or in I as [I|I]); auto; do 3 right; cbn in I |- *; lia. }
    destruct G as [G|[G|[G|G]]].
    - apply (v6_all a H), v6_host in G as (G & _). discriminate G.
    - apply (zone_all z Z0), zone_facts in G. lia.
    - pose proof (rport_chars port P) as F. rewrite forallb_forall in F. apply F in G. discriminate G.
    - cbn in G. lia. }
  assert (PA : parse_authority (ruser_text u ++ ztext) = Some (ruser_of u who, zhost a z ++ rport_text port)).
  { pose proof (parse_host_zone a z port H Z0 P) as PH. fold ztext in PH.
    replace (bs "[" ++ a ++ bs "%" ++ z ++ bs "]" ++ rport_text port) with (zhost a z ++ rport_text port) in PH by (unfold zhost; rewrite <- !app_assoc; reflexivity).
    unfold parse_authority. destruct u as [|n|n p]; cbn [ruser_text ruser_is] in *.
    - cbn [app]. rewrite cut_last_none by exact N64. rewrite PH. destruct who; [contradiction|reflexivity].
    - destruct who as [[name pass]|]; [|contradiction]. destruct U as (A & ->). apply user_text in A as (A & D). rewrite <- app_assoc. change (bs "@" ++ ztext) with (64 :: ztext).
      rewrite cut_last_app by exact N64. rewrite PH. assert (V : valid_userinfo n = true) by (unfold valid_userinfo; eapply forallb_imp; [|exact A]; intros x X; apply utext_ptext, ptext_facts in X; apply X). rewrite V. cbn [negb].
      rewrite cut_none by (intros I; rewrite forallb_forall in A; apply A, utext_colon in I; lia). rewrite D. reflexivity.
    - destruct who as [[name pass]|]; [|contradiction]. destruct U as (A & B). apply user_text in A as (A & D). apply pass_text in B as (B & E). change (bs ":" ++ p ++ bs "@") with (58 :: p ++ [64]).
      replace ((n ++ 58 :: p ++ [64]) ++ ztext) with ((n ++ 58 :: p) ++ 64 :: ztext) by (rewrite <- !app_assoc; cbn [app]; rewrite <- !app_assoc; reflexivity).
      rewrite cut_last_app by exact N64. rewrite PH. assert (V : valid_userinfo (n ++ 58 :: p) = true).
      { unfold valid_userinfo. rewrite forallb_app. cbn [forallb]. rewrite !andb_true_iff. splits; [|reflexivity|].
        - eapply forallb_imp; [|exact A]. intros x X. apply utext_ptext, ptext_facts in X. apply X.
        - eapply forallb_imp; [|exact B]. intros x X. apply ptext_facts in X. apply X. }
      rewrite V. cbn [negb]. rewrite cut_app by (intros I; rewrite forallb_forall in A; apply A, utext_colon in I; lia). rewrite D, E. reflexivity. }
  destruct (path_text path K) as (K1 & VE & PS & d & D & ND & _).
  assert (PC : Forall (fun c => 32 <= c /\ c <> 127 /\ c <> 35 /\ c <> 63) path).
  { apply Forall_forall. intros c I. rewrite forallb_forall in K1. apply K1, ktext_facts in I. lia. }
  unfold dial. rewrite parse_gen; [|exact S|apply Forall_app; split; [eapply ruser_auth; exact U|exact ZC]|exact PS|exact PC|exact Q].
  rewrite PA. unfold set_encoded. rewrite D.
  assert (DH : forall om fo qu, dial_host (mkUrl (lowered sch) [] (ruser_of u who) (zhost a z ++ rport_text port) d (if beq path (escape InPath d) then [] else path) om fo qu [] []) = zhost a z ++ 58 :: port_or port).
  { intros om fo qu. unfold dial_host. cbn [u_host]. destruct port as [p|]; cbn [rport_text port_or].
    - change (bs ":" ++ p) with (58 :: p). rewrite split_zone by assumption. reflexivity.
    - rewrite app_nil_r, split_zone_none by assumption. reflexivity. }
  rewrite DH. rewrite (split_zone a z (port_or port) H Z0 (port_or_ok port P)).
  assert (PN : port_number (port_or port) = rport_number port) by (destruct port; reflexivity). rewrite PN. cbv zeta.
  destruct (proto =? ProtoHTTP) eqn:PE; [lia|]. destruct (rport_number port >? 65535) eqn:G; [lia|]. cbn [orb].
  destruct (reach (a ++ bs "%" ++ z) (rport_number port)); [|reflexivity]. cbn [negb].
  assert (C : forall om fo qu, credentials (mkUrl (lowered sch) [] (ruser_of u who) (zhost a z ++ rport_text port) d (if beq path (escape InPath d) then [] else path) om fo qu [] []) = who).
  { intros. unfold credentials. cbn [u_user]. destruct u as [|n|n p], who as [[x y]|]; cbn [ruser_is ruser_of] in *; try contradiction; try reflexivity. destruct U as (_ & ->). reflexivity. }
  rewrite C. match goal with |- context [base_uri ?v] => assert (BU : base_uri v = lowered sch ++ bs "://[" ++ a ++ bs "%25" ++ z ++ bs "]:" ++ (match port with Some p => p | None => bs "554" end) ++ path ++ query_text q); [|rewrite BU; reflexivity] end.
  unfold base_uri. rewrite DH. unfold url_string. cbn [u_scheme u_opaque u_user u_host u_path u_rawpath u_omit u_force u_query u_fragment u_rawfragment].
  match goal with |- context [encoded InPath d ?r] => replace (encoded InPath d r) with path by (symmetry; exact (encoded_path path d VE D ND)) end.
  destruct (scheme_chars sch S) as (_ & _ & NS & _). assert (LS : beq (lowered sch) [] = false) by (destruct (lowered sch); [contradiction|reflexivity]). rewrite LS.
  assert (HN : beq (zhost a z ++ 58 :: port_or port) [] = false) by reflexivity. rewrite HN. cbn [beq negb andb orb].
  rewrite escape_zhost; [|exact H|exact Z0|].
  2:{ cbn [forallb andb]. change (hostb 58) with true. cbn [andb]. eapply forallb_imp; [|apply port_digits, port_or_ok; exact P]. intros c X. apply digitb_host. exact X. }
  assert (SL : (if negb (beq path []) && negb (has_prefix (bs "/") path) && true then bs "/" else []) = []) by (destruct PS as [->|(t & ->)]; [reflexivity|assert (HP : has_prefix (bs "/") (47 :: t) = true) by (apply (has_prefix_app (bs "/"))); rewrite HP; reflexivity]).
  rewrite SL.
  assert (NB : forall x y, beq ((lowered sch ++ bs ":") ++ x ++ y) [] = false) by (intros; destruct (lowered sch); reflexivity). rewrite NB. cbn [andb].
  destruct q as [[|c0 q0]|]; cbn [orb negb beq query_text]; rewrite ?app_nil_r, <- !app_assoc; cbn [app bs map list_ascii_of_string]; rewrite <- ?app_assoc; destruct port; reflexivity.
Qed.
