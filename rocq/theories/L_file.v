(* Bases of a playlist that name no host: scheme://user@/path, scheme:///path and scheme:/path. *)
From Coq Require Import String.
From Verif Require Import Base GoStrings M_url M_dial S_url S_badurl L_base L_strings L_url L_badurl L_playlist.
From Coq Require Import ZifyBool.

Lemma authority_alone u who : ruser_is u who -> parse_authority (ruser_text u) = Some (ruser_of u who, []).
Proof.
  intros U. assert (N : ~ In 64 ([] : bytes)) by (intros []). unfold parse_authority. destruct u as [|n|n q], who as [[name pass]|]; cbn [ruser_text ruser_is] in *; try contradiction.
  - reflexivity.
  - destruct U as (A & ->). apply user_text in A as (A & D). change (bs "@") with (64 :: []). rewrite cut_last_app by exact N. change (parse_host []) with (Some ([] : bytes)). cbv iota.
    assert (V : valid_userinfo n = true) by (unfold valid_userinfo; eapply forallb_imp; [|exact A]; intros x X; apply utext_ptext, ptext_facts in X; apply X). rewrite V. cbn [negb].
    rewrite cut_none by (intros I; rewrite forallb_forall in A; apply A, utext_colon in I; lia). rewrite D. reflexivity.
  - destruct U as (A & B). apply user_text in A as (A & D). apply pass_text in B as (B & E). change (bs ":" ++ q ++ bs "@") with (58 :: q ++ [64]).
    replace (n ++ 58 :: q ++ [64]) with ((n ++ 58 :: q) ++ 64 :: []) by (rewrite <- !app_assoc; reflexivity).
    rewrite cut_last_app by exact N. change (parse_host []) with (Some ([] : bytes)). cbv iota. assert (V : valid_userinfo (n ++ 58 :: q) = true).
    { unfold valid_userinfo. rewrite forallb_app. cbn [forallb]. rewrite !andb_true_iff. splits; [|reflexivity|].
      - eapply forallb_imp; [|exact A]. intros x X. apply utext_ptext, ptext_facts in X. apply X.
      - eapply forallb_imp; [|exact B]. intros x X. apply ptext_facts in X. apply X. }
    rewrite V. cbn [negb]. rewrite cut_app by (intros I; rewrite forallb_forall in A; apply A, utext_colon in I; lia). rewrite D, E. reflexivity.
Qed.

Lemma path_again path segs f : path_ok path -> path <> [] -> Forall seg_ok segs -> pct path_char path (slashed segs) -> name_ok f ->
  unescape InPath path = Some (slashed segs) /\
  exists p t, encoded InPath (path_join (slashed segs) f) (if beq path (escape InPath (slashed segs)) then [] else path) = p /\ p = 47 :: t /\
    pct path_char p (slashed (resolved segs ++ [f])) /\ path_join (slashed segs) f <> [].
Proof.
  intros K NP F PC N. assert (U : unescape InPath path = Some (slashed segs)).
  { eapply unescape_pct; [reflexivity| |exact PC]. intros c [X|[X|X]]; [|assert (R : regb c = true) by (apply reg_spec; right; exact X); apply reg_facts in R; tauto|cbn in X; lia]. assert (R : regb c = true) by (apply reg_spec; left; exact X). apply reg_facts in R. tauto. }
  split; [exact U|]. set (d := slashed segs) in *.
  assert (J : path_join d f = slashed (resolved segs ++ [f])).
  { unfold path_join. assert (NF : beq f [] = false) by (destruct N as (N & _); destruct f; [contradiction|reflexivity]). rewrite NF. destruct (beq d []) eqn:E.
    - apply beq_eq in E. rewrite E in U. apply unescape_nil in U. contradiction.
    - unfold d. apply clean_slashed; assumption. }
  rewrite J. match goal with |- context [encoded InPath _ ?r] => set (raw := r) end.
  assert (F2 : Forall seg_ok (resolved segs ++ [f])) by (apply Forall_app; split; [apply walk_forall; [constructor|exact F]|constructor; [split; apply N|constructor]]).
  destruct (resolved segs ++ [f]) as [|s l] eqn:NF; [destruct (resolved segs); discriminate NF|].
  destruct (encoded_raw (slashed (s :: l)) raw) as [E|[(E & UR)|(_ & E)]]; [| |discriminate E]; rewrite E.
  - do 2 eexists. split; [reflexivity|]. splits; [reflexivity|apply pct_escape, slashed_bytes; exact F2|discriminate].
  - unfold raw in *. destruct (beq path (escape InPath d)); [discriminate UR|]. rewrite U in UR. assert (UD : slashed (s :: l) = d) by congruence.
    destruct (path_text path K) as (_ & _ & [->|(t & ->)] & _); [contradiction|]. exists (47 :: t), t. splits; [reflexivity|reflexivity|rewrite UD; exact PC|discriminate].
Qed.

Lemma path_plain path : path_ok path -> Forall (fun c => 32 <= c /\ c <> 127 /\ c <> 35 /\ c <> 63) path.
Proof.
  intros K. destruct (path_text path K) as (T & _). apply Forall_forall. intros c I. rewrite forallb_forall in T. apply T, ktext_facts in I. lia.
Qed.

Lemma playlist_file sch u who path q segs dir f : scheme_ok sch -> ruser_is u who -> path_ok path -> path <> [] -> match q with Some q => query_ok q | None => True end ->
  Forall seg_ok segs -> pct path_char path (slashed segs) -> name_ok f -> (dir = [] \/ exists d, dir = d ++ [47]) ->
  exists u' p, playlist_uri (located sch (ruser_text u) path q) (dir ++ f) = Some (located (lowered sch) (ruser_text u') p q) /\ ruser_is u' who /\
    pct path_char p (slashed (resolved segs ++ [f])).
Proof.
  intros S W K NP Q F PC N D. destruct (path_again path segs f K NP F PC N) as (U & p & t & PE & Et & PP & PN).
  destruct (user_again u who W) as (u' & W' & UT). exists u', p. split; [|split; [exact W'|exact PP]].
  unfold playlist_uri. rewrite parse_gen; [|exact S|eapply ruser_auth; exact W|destruct (path_text path K) as (_ & _ & X & _); exact X|apply path_plain; exact K|exact Q].
  rewrite (authority_alone u who W). unfold set_encoded. rewrite U. rewrite (file_base_name dir f N D).
  unfold url_string. cbn [u_scheme u_opaque u_user u_host u_path u_rawpath u_omit u_force u_query u_fragment u_rawfragment]. match goal with |- context [encoded InPath ?x ?r] => change (encoded InPath x r) with (encoded InPath (path_join (slashed segs) f) (if beq path (escape InPath (slashed segs)) then [] else path)) end. rewrite PE, UT.
  destruct (scheme_chars sch S) as (_ & _ & NS & _). assert (LS : beq (lowered sch) [] = false) by (destruct (lowered sch); [contradiction|reflexivity]). rewrite LS.
  assert (PB : beq (path_join (slashed segs) f) [] = false) by (destruct (path_join (slashed segs) f); [contradiction|reflexivity]). rewrite PB.
  cbn [beq negb andb orb]. rewrite !andb_false_r. cbn [app].
  assert (NB : forall x, beq ((lowered sch ++ bs ":") ++ (bs "//" ++ ruser_text u' ++ escape InHost []) ++ x) [] = false) by (intros x; destruct (lowered sch); reflexivity). rewrite NB. cbn [andb app].
  change (escape InHost []) with ([] : bytes). rewrite !app_nil_r. f_equal. unfold located. destruct q as [[|c0 q0]|]; cbn [orb negb beq query_text]; rewrite ?app_nil_r, <- !app_assoc; reflexivity.
Qed.

(* scheme:/path *)
Lemma parse_short sch path q d : scheme_ok sch -> path_ok path -> path <> [] -> has_prefix (bs "//") path = false -> match q with Some q => query_ok q | None => True end ->
  unescape InPath path = Some d ->
  parse (sch ++ bs ":" ++ path ++ query_text q) = Some (mkUrl (lowered sch) [] None [] d (if beq path (escape InPath d) then [] else path) true
    (match q with Some [] => true | _ => false end) (match q with Some q => q | None => [] end) [] []).
Proof.
  intros S K NP DD Q U. pose proof (scheme_chars sch S) as (S1 & S2 & S3 & S4). pose proof (path_plain path K) as PC.
  assert (K1 : forallb (fun c => (32 <=? c) && negb (c =? 127) && negb (c =? 35) && negb (c =? 63)) path = true) by (eapply Forall_b; [|exact PC]; cbv beta; lia).
  change (bs ":" ++ path ++ query_text q) with (58 :: path ++ query_text q). set (raw := sch ++ 58 :: path ++ query_text q).
  assert (QT : forallb (fun c => (32 <=? c) && negb (c =? 127) && negb (c =? 35)) (query_text q) = true).
  { destruct q as [q|]; [|reflexivity]. cbn [query_text]. rewrite forallb_app, andb_true_iff. split; [reflexivity|]. eapply Forall_b; [|exact Q]. cbv beta. lia. }
  assert (R : forallb (fun c => (32 <=? c) && negb (c =? 127) && negb (c =? 35)) raw = true).
  { unfold raw. rewrite forallb_app. cbn [forallb]. rewrite !forallb_app. rewrite !andb_true_iff. splits; try reflexivity; try exact QT.
    - eapply forallb_imp; [|exact S1]. cbv beta. lia.
    - eapply forallb_imp; [|exact K1]. cbv beta. lia. }
  unfold parse. rewrite cut_none by (eapply not_in_b; [exact R|reflexivity]). unfold parse1.
  rewrite (existsb_not _ _ raw) with (2 := R) by (cbv beta; lia).
  assert (NS : beq raw (bs "*") = false).
  { destruct S as (c & r & -> & C & _). unfold raw. change (bs "*") with [42]. cbn [app beq]. destruct (c =? 42) eqn:X; [lia|reflexivity]. }
  rewrite NS. unfold raw at 1. rewrite S4. rewrite S2. cbv zeta.
  rewrite cut_query by (eapply not_in_b; [exact K1|reflexivity]).
  destruct (path_text path K) as (_ & _ & [->|(t & ->)] & _); [contradiction|].
  assert (HP : has_prefix (bs "/") (47 :: t) = true) by (apply (has_prefix_app (bs "/"))). rewrite HP, DD.
  assert (LS : beq (lowered sch) [] = false) by (destruct (lowered sch); [contradiction|reflexivity]). rewrite LS. cbn [negb orb andb]. unfold set_encoded. rewrite U. reflexivity.
Qed.
Lemma playlist_short sch path q segs dir f : scheme_ok sch -> path_ok path -> path <> [] -> has_prefix (bs "//") path = false -> match q with Some q => query_ok q | None => True end ->
  Forall seg_ok segs -> pct path_char path (slashed segs) -> name_ok f -> (dir = [] \/ exists d, dir = d ++ [47]) ->
  exists p, playlist_uri (sch ++ bs ":" ++ path ++ query_text q) (dir ++ f) = Some (lowered sch ++ bs ":" ++ p ++ query_text q) /\
    pct path_char p (slashed (resolved segs ++ [f])).
Proof.
  intros S K NP DD Q F PC N D. destruct (path_again path segs f K NP F PC N) as (U & p & t & PE & Et & PP & PN). exists p. split; [|exact PP].
  unfold playlist_uri. rewrite (parse_short sch path q _ S K NP DD Q U). rewrite (file_base_name dir f N D).
  unfold url_string. cbn [u_scheme u_opaque u_user u_host u_path u_rawpath u_omit u_force u_query u_fragment u_rawfragment]. match goal with |- context [encoded InPath ?x ?r] => change (encoded InPath x r) with (encoded InPath (path_join (slashed segs) f) (if beq path (escape InPath (slashed segs)) then [] else path)) end. rewrite PE.
  destruct (scheme_chars sch S) as (_ & _ & NS & _). assert (LS : beq (lowered sch) [] = false) by (destruct (lowered sch); [contradiction|reflexivity]). rewrite LS.
  cbn [beq negb andb orb]. rewrite !andb_false_r. cbn [app].
  assert (NB : forall x, beq ((lowered sch ++ bs ":") ++ x) [] = false) by (intros x; destruct (lowered sch); reflexivity). rewrite NB. cbn [andb app].
  f_equal. destruct q as [[|c0 q0]|]; cbn [orb negb beq query_text]; rewrite ?app_nil_r, <- !app_assoc; reflexivity.
Qed.

(* scheme:rest without a slash *)
Lemma parse_opaque sch rest q : scheme_ok sch -> rest <> [] -> has_prefix (bs "/") rest = false -> Forall (fun c => 32 <= c /\ c <> 127 /\ c <> 35 /\ c <> 63) rest ->
  match q with Some q => query_ok q | None => True end ->
  parse (sch ++ bs ":" ++ rest ++ query_text q) = Some (mkUrl (lowered sch) rest None [] [] [] false (match q with Some [] => true | _ => false end) (match q with Some q => q | None => [] end) [] []).
Proof.
  intros S NE HP K Q. pose proof (scheme_chars sch S) as (S1 & S2 & S3 & S4).
  assert (K1 : forallb (fun c => (32 <=? c) && negb (c =? 127) && negb (c =? 35) && negb (c =? 63)) rest = true) by (eapply Forall_b; [|exact K]; cbv beta; lia).
  change (bs ":" ++ rest ++ query_text q) with (58 :: rest ++ query_text q). set (raw := sch ++ 58 :: rest ++ query_text q).
  assert (QT : forallb (fun c => (32 <=? c) && negb (c =? 127) && negb (c =? 35)) (query_text q) = true).
  { destruct q as [q|]; [|reflexivity]. cbn [query_text]. rewrite forallb_app, andb_true_iff. split; [reflexivity|]. eapply Forall_b; [|exact Q]. cbv beta. lia. }
  assert (R : forallb (fun c => (32 <=? c) && negb (c =? 127) && negb (c =? 35)) raw = true).
  { unfold raw. rewrite forallb_app. cbn [forallb]. rewrite !forallb_app. rewrite !andb_true_iff. splits; try reflexivity; try exact QT.
    - eapply forallb_imp; [|exact S1]. cbv beta. lia.
    - eapply forallb_imp; [|exact K1]. cbv beta. lia. }
  unfold parse. rewrite cut_none by (eapply not_in_b; [exact R|reflexivity]). unfold parse1.
    rewrite (existsb_not _ _ raw) with (2 := R) by (cbv beta; lia).
    assert (NS : beq raw (bs "*") = false).
    { destruct S as (c & r & -> & C & _). unfold raw. change (bs "*") with [42]. cbn [app beq]. destruct (c =? 42) eqn:X; [lia|reflexivity]. }
    rewrite NS. unfold raw at 1. rewrite S4. rewrite S2. cbv zeta.
    rewrite cut_query by (eapply not_in_b; [exact K1|reflexivity]). rewrite HP. cbn [negb].
    assert (LS : beq (lowered sch) [] = false) by (destruct (lowered sch); [contradiction|reflexivity]). rewrite LS. reflexivity.
Qed.
Lemma playlist_opaque sch rest q name : scheme_ok sch -> rest <> [] -> has_prefix (bs "/") rest = false -> Forall (fun c => 32 <= c /\ c <> 127 /\ c <> 35 /\ c <> 63) rest ->
  match q with Some q => query_ok q | None => True end ->
  playlist_uri (sch ++ bs ":" ++ rest ++ query_text q) name = Some (lowered sch ++ bs ":" ++ rest ++ query_text q).
Proof.
  intros S NE HP K Q. pose proof (scheme_chars sch S) as (S1 & S2 & S3 & S4). unfold playlist_uri. rewrite (parse_opaque sch rest q S NE HP K Q). unfold url_string. cbn [u_scheme u_opaque u_user u_host u_path u_rawpath u_omit u_force u_query u_fragment u_rawfragment].
  assert (LS : beq (lowered sch) [] = false) by (destruct (lowered sch); [contradiction|reflexivity]). rewrite LS.
  assert (RS : beq rest [] = false) by (destruct rest; [contradiction|reflexivity]). rewrite RS. cbn [negb].
  f_equal. change (bs ":") with [58]. destruct q as [[|c0 q0]|]; cbn [orb negb beq query_text]; rewrite ?app_nil_r, <- !app_assoc; reflexivity.
Qed.
