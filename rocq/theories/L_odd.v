(* URLs with an empty port or without a host, and encoded slashes in the base of a playlist. *)
From Coq Require Import String.
From Verif Require Import Base GoStrings M_conn M_message M_transport M_sdp M_session M_url M_dial S_url S_badurl L_base L_strings L_url L_badurl L_playlist L_file L_relpath.
From Coq Require Import ZifyBool.

Lemma authority_gen u who hp h : ruser_is u who -> ~ In 64 hp -> parse_host hp = Some h -> parse_authority (ruser_text u ++ hp) = Some (ruser_of u who, h).
Proof.
  intros U N PH. unfold parse_authority. destruct u as [|n|n q], who as [[name pass]|]; cbn [ruser_text ruser_is] in *; try contradiction.
  - cbn [app]. rewrite cut_last_none by exact N. rewrite PH. reflexivity.
  - destruct U as (A & ->). apply user_text in A as (A & D). rewrite <- app_assoc. change (bs "@" ++ hp) with (64 :: hp). rewrite cut_last_app by exact N. rewrite PH.
    assert (V : valid_userinfo n = true) by (unfold valid_userinfo; eapply forallb_imp; [|exact A]; intros x X; apply utext_ptext, ptext_facts in X; exact (proj2 (proj2 X))). rewrite V. cbn [negb].
    rewrite cut_none by (intros I; rewrite forallb_forall in A; apply A, utext_colon in I; lia). rewrite D. reflexivity.
  - destruct U as (A & B). apply user_text in A as (A & D). apply pass_text in B as (B & E).
    replace ((n ++ bs ":" ++ q ++ bs "@") ++ hp) with ((n ++ 58 :: q) ++ 64 :: hp) by (change (bs ":") with [58]; change (bs "@") with [64]; repeat (rewrite <- !app_assoc; cbn [app]); reflexivity).
    rewrite cut_last_app by exact N. rewrite PH. assert (V : valid_userinfo (n ++ 58 :: q) = true).
    { unfold valid_userinfo. rewrite forallb_app. cbn [forallb]. rewrite !andb_true_iff. splits; [|reflexivity|].
      - eapply forallb_imp; [|exact A]. intros x X. apply utext_ptext, ptext_facts in X. exact (proj2 (proj2 X)).
      - eapply forallb_imp; [|exact B]. intros x X. apply ptext_facts in X. exact (proj2 (proj2 X)). }
    rewrite V. cbn [negb]. rewrite cut_app by (intros I; rewrite forallb_forall in A; apply A, utext_colon in I; lia). rewrite D, E. reflexivity.
Qed.
Lemma credentials_of u who v : ruser_is u who -> u_user v = ruser_of u who -> credentials v = who.
Proof.
  intros U E. unfold credentials. rewrite E. destruct u as [|n|n p], who as [[a b]|]; cbn [ruser_is ruser_of] in *; try contradiction; try reflexivity. destruct U as (_ & ->). reflexivity.
Qed.

(* an empty port *)
Lemma host_colon h : rhost_ok h -> parse_host (rhost_text h ++ [58]) = Some (rhost_text h ++ [58]) /\ split_host_port (rhost_text h ++ [58]) = Some (rhost_name h, []).
Proof.
  intros H. assert (C : forallb hostb (rhost_text h ++ [58]) = true) by (rewrite forallb_app, (rhost_chars h H); reflexivity).
  unfold parse_host, split_host_port. rewrite cut_last_app by (intros []). destruct h as [n|a]; cbn [rhost_text rhost_ok rhost_name] in *.
  - destruct H as (NE & F). assert (NB : forall c, In c n -> regb c = true) by (intros c I; apply reg_spec; rewrite Forall_forall in F; auto).
    assert (E : has_prefix (bs "[") (n ++ [58]) = false).
    { destruct n as [|c n]; [contradiction|]. specialize (NB c (or_introl eq_refl)). apply reg_facts in NB. change (bs "[") with [91]. unfold has_prefix. cbn [length firstn app beq]. destruct (c =? 91) eqn:X; [lia|reflexivity]. }
    rewrite E. change (valid_port [58]) with true. cbn [negb]. split; [apply unescape_host; exact C|].
    rewrite !has_not; [reflexivity| | |]; intros I; try (apply in_app_or in I as [I|[X|[]]]; try discriminate X); apply NB, reg_facts in I; lia.
  - change (bs "[" ++ a ++ bs "]") with (91 :: a ++ [93]) in *. assert (E : has_prefix (bs "[") ((91 :: a ++ [93]) ++ [58]) = true) by (apply (has_prefix_app (bs "["))). rewrite E.
    assert (V : forall c, In c a -> v6b c = true) by (intros c I; rewrite Forall_forall in H; specialize (H c I); unfold v6b, is_digit; lia).
    assert (S : (91 :: a ++ [93]) ++ [58] = (91 :: a) ++ 93 :: [58]) by (cbn [app]; rewrite <- app_assoc; reflexivity). rewrite S in *. split.
    + rewrite cut_last_app by (intros [X|[]]; discriminate X). change (valid_port [58]) with true. cbn [negb].
      rewrite find_zone_none; [apply unescape_host; exact C|]. intros [X|I]; [discriminate X|]. apply V in I. unfold v6b, is_digit in I. lia.
    + rewrite cut_app by (intros [X|I]; [discriminate X|]; apply V, v6_host in I; lia). change ((91 :: a) ++ [93]) with (91 :: a ++ [93]). rewrite beq_refl. cbn [negb app skipn].
      rewrite !has_not; [reflexivity| |].
      * intros [X|[]]. discriminate X.
      * intros I. apply in_app_or in I as [I|[X|[X|[]]]]; try discriminate X. apply V, v6_host in I. lia.
Qed.
Lemma host_auth h : rhost_ok h -> Forall auth_char (rhost_text h) /\ ~ In 64 (rhost_text h).
Proof.
  intros H. pose proof (rhost_chars h H) as C. rewrite forallb_forall in C. split.
  - apply Forall_forall. intros c I. apply C, host_facts in I. split; [lia|]. cbn. lia.
  - intros I. apply C, host_facts in I. lia.
Qed.
Lemma dial_empty_port sch u who h path q proto reach guid werr s :
  scheme_ok sch -> ruser_is u who -> rhost_ok h -> path_ok path -> match q with Some q => query_ok q | None => True end -> proto <> ProtoHTTP ->
  dial (sch ++ bs "://" ++ ruser_text u ++ rhost_text h ++ bs ":" ++ path ++ query_text q) proto reach guid werr s =
  if reach (rhost_name h) 0
  then ([Connect (rhost_name h) 0], s, Some (dialled proto who (lowered sch ++ bs "://" ++ rhost_text h ++ bs ":" ++ path ++ query_text q)))
  else ([], s, None).
Proof.
  intros S U H K Q NH. destruct (host_colon h H) as (PH & SH). destruct (host_auth h H) as (HA & H64). destruct (path_text path K) as (_ & VE & PS & d & D & ND & _).
  assert (L : sch ++ bs "://" ++ ruser_text u ++ rhost_text h ++ bs ":" ++ path ++ query_text q = located sch (ruser_text u ++ rhost_text h ++ [58]) path q) by (unfold located; change (bs ":") with [58]; rewrite <- !app_assoc; reflexivity).
  unfold dial. rewrite L. rewrite parse_gen; [|exact S| |exact PS|apply path_plain; exact K|exact Q].
  2:{ apply Forall_app. split; [eapply ruser_auth; exact U|]. apply Forall_app. split; [exact HA|]. constructor; [split; [lia|cbn; lia]|constructor]. }
  rewrite (authority_gen u who _ _ U) with (2 := PH) by (intros I; apply in_app_or in I as [I|[X|[]]]; [contradiction|discriminate X]).
  unfold set_encoded. rewrite D. unfold dial_host. cbn [u_host]. rewrite SH. cbn [u_host]. rewrite SH. change (port_number []) with 0. cbv zeta. change (0 >? 65535) with false. cbn [orb].
  destruct (proto =? ProtoHTTP) eqn:PE; [lia|]. destruct (reach (rhost_name h) 0); [|reflexivity]. cbn [negb]. do 3 f_equal. f_equal.
  - apply (credentials_of u who); [exact U|reflexivity].
  - unfold base_uri, dial_host. cbn [u_host]. rewrite SH. unfold url_string. cbn [u_scheme u_opaque u_user u_host u_path u_rawpath u_omit u_force u_query u_fragment u_rawfragment].
    match goal with |- context [encoded InPath ?x ?r] => change (encoded InPath x r) with (encoded InPath d (if beq path (escape InPath d) then [] else path)) end. rewrite (encoded_path path d VE D ND).
    destruct (scheme_chars sch S) as (_ & _ & NS & _). assert (LS : beq (lowered sch) [] = false) by (destruct (lowered sch); [contradiction|reflexivity]). rewrite LS.
    assert (HN : beq (rhost_text h ++ [58]) [] = false) by (destruct (rhost_text h); reflexivity). rewrite HN. cbn [beq negb andb orb].
    rewrite escape_host by (rewrite forallb_app, (rhost_chars h H); reflexivity).
    assert (SL : (if negb (beq path []) && negb (has_prefix (bs "/") path) && true then bs "/" else []) = []) by (destruct PS as [->|(t & ->)]; [reflexivity|assert (HP : has_prefix (bs "/") (47 :: t) = true) by (apply (has_prefix_app (bs "/"))); rewrite HP; reflexivity]).
    rewrite SL. assert (NB : forall x, beq ((lowered sch ++ bs ":") ++ x) [] = false) by (intros x; destruct (lowered sch); reflexivity). rewrite NB. cbn [andb].
    change (bs ":") with [58]. destruct q as [[|c0 q0]|]; cbn [orb negb beq query_text]; rewrite ?app_nil_r, <- !app_assoc; reflexivity.
Qed.

(* no host *)
Lemma dial_hostless uri v proto reach guid werr s : parse uri = Some v -> u_host v = [] -> proto <> ProtoHTTP ->
  dial uri proto reach guid werr s =
  if reach [] 554 then ([Connect [] 554], s, Some (dialled proto (credentials v) (base_uri v))) else ([], s, None).
Proof.
  intros P H NH. assert (SP : split_host_port (dial_host v) = Some (@nil Z, bs "554")) by (unfold dial_host; rewrite H; reflexivity).
  unfold dial. rewrite P, SP. change (port_number (bs "554")) with 554. cbv zeta. change (554 >? 65535) with false. cbn [orb].
  destruct (proto =? ProtoHTTP) eqn:PE; [lia|]. destruct (reach [] 554); reflexivity.
Qed.
Lemma dial_opaque sch rest q proto reach guid werr s : scheme_ok sch -> rest <> [] -> has_prefix (bs "/") rest = false -> Forall (fun c => 32 <= c /\ c <> 127 /\ c <> 35 /\ c <> 63) rest ->
  match q with Some q => query_ok q | None => True end -> proto <> ProtoHTTP ->
  dial (sch ++ bs ":" ++ rest ++ query_text q) proto reach guid werr s =
  if reach [] 554 then ([Connect [] 554], s, Some (dialled proto None (lowered sch ++ bs ":" ++ rest ++ query_text q))) else ([], s, None).
Proof.
  intros S NE HP K Q NH. rewrite (dial_hostless _ _ proto reach guid werr s (parse_opaque sch rest q S NE HP K Q) eq_refl NH). destruct (reach [] 554); [|reflexivity]. do 3 f_equal. f_equal.
  unfold base_uri, url_string. cbn [u_scheme u_opaque u_user u_host u_path u_rawpath u_omit u_force u_query u_fragment u_rawfragment].
  destruct (scheme_chars sch S) as (_ & _ & NS & _). assert (LS : beq (lowered sch) [] = false) by (destruct (lowered sch); [contradiction|reflexivity]). rewrite LS.
  assert (RS : beq rest [] = false) by (destruct rest; [contradiction|reflexivity]). rewrite RS. cbn [negb].
  change (bs ":") with [58]. destruct q as [[|c0 q0]|]; cbn [orb negb beq query_text]; rewrite ?app_nil_r, <- !app_assoc; reflexivity.
Qed.
Lemma dial_relative path v q proto (reach : bytes -> Z -> bool) guid werr s : pct path_char path v -> path <> [] -> has_prefix (bs "/") path = false -> ~ colon_first path ->
  match q with Some q => query_ok q | None => True end -> proto <> ProtoHTTP -> reach [] 554 = true ->
  exists p, pct path_char p v /\ dial (path ++ query_text q) proto reach guid werr s = ([Connect [] 554], s, Some (dialled proto None (bs "//:554" ++ (if has_prefix (bs "/") p then [] else bs "/") ++ p ++ query_text q))).
Proof.
  intros PC NE HP NC Q NH R.
  assert (U : unescape InPath path = Some v).
  { eapply unescape_pct; [reflexivity| |exact PC]. intros c [X|[X|X]]; [|assert (G : regb c = true) by (apply reg_spec; right; exact X); apply reg_facts in G; tauto|cbn in X; lia]. assert (G : regb c = true) by (apply reg_spec; left; exact X). apply reg_facts in G. tauto. }
  destruct (parse_relative path q v Q (ktext_pct _ _ PC) NE HP NC U) as (raw & RW & P).
  assert (VN : v <> []) by (intros ->; apply unescape_nil in U; contradiction).
  assert (VB : bytes_ok v).
  { eapply pct_bytes; [|exact PC]. intros c C. assert (G : path_char c -> byte_ok c) by (intros [X|[X|X]]; [apply unres_spec, unres_range in X; unfold byte_ok; lia|apply sub_spec, sub_range in X; unfold byte_ok; lia|cbn in X; unfold byte_ok; lia]). apply G, C. }
  assert (E : exists p, encoded InPath v raw = p /\ pct path_char p v /\ p <> []).
  { destruct (encoded_raw v raw) as [E|[(E & UR)|(E & EV)]]; rewrite E; eexists; (split; [reflexivity|]).
    - split; [apply pct_escape; exact VB|]. intros X. destruct v as [|c v]; [contradiction|]. unfold escape in X. cbn [flat_map] in X. destruct (should_escape c InPath); discriminate X.
    - destruct RW as [->| ->]; [injection UR as <-; contradiction|]. split; assumption.
    - subst v. split; [|discriminate]. apply pct_lit; [right; left; cbn; lia|constructor]. }
  destruct E as (p & E & PP & PN). exists p. split; [exact PP|].
  rewrite (dial_hostless _ _ proto reach guid werr s P eq_refl NH), R. do 3 f_equal. f_equal.
  unfold base_uri, url_string. cbn [u_scheme u_opaque u_user u_host u_path u_rawpath u_omit u_force u_query u_fragment u_rawfragment dial_host]. rewrite E.
  match goal with |- context [dial_host ?u] => change (dial_host u) with (bs ":554") end. cbn [beq andb negb]. change (beq (bs ":554") []) with false. change (escape InHost (bs ":554")) with (bs ":554"). cbn [andb negb].
  assert (PE : beq p [] = false) by (destruct p; [contradiction|reflexivity]). rewrite PE. cbn [negb andb]. rewrite andb_true_r.
  change (beq ([] ++ (bs "//" ++ [] ++ bs ":554") ++ (if negb (has_prefix (bs "/") p) then bs "/" else [])) []) with false. cbn [andb].
  change (bs "//:554") with (bs "//" ++ bs ":554"). destruct (has_prefix (bs "/") p); destruct q as [[|c0 q0]|]; cbn [orb negb beq query_text app]; rewrite ?app_nil_r, <- ?app_assoc; reflexivity.
Qed.

(* slashes that are part of a name *)
Definition proper (s : bytes) : Prop := beq s [] || beq s (bs ".") = false /\ beq s (bs "..") = false.
Lemma walk_proper l : forall here, Forall proper l -> fold_left walk l here = here ++ l.
Proof.
  induction l as [|s l IH]; intros here F; [rewrite app_nil_r; reflexivity|]. apply Forall_cons_iff in F as ((E1 & E2) & F). cbn [fold_left]. unfold walk at 2. rewrite E1, E2.
  rewrite IH by exact F. rewrite <- app_assoc. reflexivity.
Qed.
Lemma proper_walk l : forall here, Forall proper here -> Forall proper (fold_left walk l here).
Proof.
  induction l as [|s l IH]; intros here H; [exact H|]. cbn [fold_left]. apply IH. unfold walk. destruct (beq s [] || beq s (bs ".")) eqn:E1; [exact H|]. destruct (beq s (bs "..")) eqn:E2.
  - apply Forall_forall. intros x I. rewrite Forall_forall in H. apply H. destruct here as [|a here] using rev_ind; [destruct I|]. rewrite removelast_last in I. apply in_or_app. left. exact I.
  - apply Forall_app. split; [exact H|]. constructor; [split; assumption|constructor].
Qed.
Lemma resolved_less segs f : name_ok f -> segs <> resolved segs ++ [f].
Proof.
  intros N E. assert (P : Forall proper (resolved segs)) by (apply proper_walk; constructor).
  assert (R : resolved segs = resolved (resolved segs) ++ [f]) by (rewrite <- (walk_app (resolved segs) f N), <- E; reflexivity).
  assert (R2 : resolved (resolved segs) = resolved segs) by (unfold resolved at 1; rewrite walk_proper by exact P; reflexivity). rewrite R2 in R.
  apply (f_equal (@length bytes)) in R. rewrite app_length in R. cbn [length] in R. lia.
Qed.
Lemma slashed_inj a b : Forall seg_ok a -> Forall seg_ok b -> slashed a = slashed b -> a = b.
Proof.
  intros A B E. pose proof (split_slashed a [] (fun x => x) A) as X. pose proof (split_slashed b [] (fun x => x) B) as Y. cbn [app] in *. rewrite E, Y in X. injection X as X. auto.
Qed.
Lemma encoded_other p raw d : unescape InPath raw = Some d -> d <> p -> encoded InPath p raw = encoded InPath p [].
Proof.
  intros U N. unfold encoded. rewrite U. assert (E : beq d p = false) by (destruct (beq d p) eqn:E; [apply beq_eq in E; contradiction|reflexivity]). rewrite E, !andb_false_r. reflexivity.
Qed.
Lemma join_less segs f : Forall seg_ok segs -> name_ok f -> slashed segs <> path_join (slashed segs) f.
Proof.
  intros F N E. assert (NF : f <> []) by apply N. destruct segs as [|a segs].
  - cbn [slashed flat_map] in E. rewrite clean_name in E by exact N. auto.
  - unfold path_join in E. assert (NB : beq f [] = false) by (destruct f; [contradiction|reflexivity]). rewrite NB in E. change (beq (slashed (a :: segs)) []) with false in E. cbv iota in E.
    rewrite clean_slashed in E by assumption. apply slashed_inj in E; [eapply resolved_less; eassumption|exact F|].
    apply Forall_app. split; [apply walk_forall; [constructor|exact F]|constructor; [split; apply N|constructor]].
Qed.
Lemma playlist_same sch u who h port path path' q segs dir f : scheme_ok sch -> ruser_is u who -> rhost_ok h -> match port with Some p => rport_ok p | None => True end ->
  path_ok path -> path_ok path' -> match q with Some q => query_ok q | None => True end -> Forall seg_ok segs -> pct path_char path (slashed segs) -> pct path_char path' (slashed segs) ->
  name_ok f -> (dir = [] \/ exists d, dir = d ++ [47]) ->
  playlist_uri (url_text sch u h port path q) (dir ++ f) = playlist_uri (url_text sch u h port path' q) (dir ++ f).
Proof.
  intros S W H P K K' Q F PC PC' N D.
  assert (UP : forall t, pct path_char t (slashed segs) -> unescape InPath t = Some (slashed segs)).
  { intros t T. eapply unescape_pct; [reflexivity| |exact T]. intros c [X|[X|X]]; [|assert (R : regb c = true) by (apply reg_spec; right; exact X); apply reg_facts in R; tauto|cbn in X; lia]. assert (R : regb c = true) by (apply reg_spec; left; exact X). apply reg_facts in R. tauto. }
  assert (X : forall t, pct path_char t (slashed segs) -> encoded InPath (path_join (slashed segs) f) (if beq t (escape InPath (slashed segs)) then [] else t) = encoded InPath (path_join (slashed segs) f) []).
  { intros t T. destruct (beq t (escape InPath (slashed segs))); [reflexivity|]. eapply encoded_other; [apply UP; exact T|apply join_less; assumption]. }
  unfold playlist_uri. rewrite (parse_text sch u who h port path q _ S W H P K Q (UP _ PC)), (parse_text sch u who h port path' q _ S W H P K' Q (UP _ PC')).
  rewrite (file_base_name dir f N D). unfold url_string. cbn [u_scheme u_opaque u_user u_host u_path u_rawpath u_omit u_force u_query u_fragment u_rawfragment].
  rewrite (X path PC), (X path' PC'). reflexivity.
Qed.
