(* Lemmas: URIs of playlists. *)
From Coq Require Import String.
From Verif Require Import Base GoStrings M_url M_conn M_message M_transport M_sdp M_session M_dial S_url L_base L_strings L_url.
From Coq Require Import ZifyBool ZifyNat.

Lemma upperhex_hexit n : 0 <= n < 16 -> hexit (upperhex n) n.
Proof. intros H. unfold hexit, upperhex. destruct (n <? 10) eqn:E; lia. Qed.
Lemma unescaped_path c : byte_ok c -> should_escape c InPath = false -> path_char c.
Proof.
  intros B E. destruct (Z_lt_ge_dec c 128) as [L|G].
  - pose proof (ascii_all (fun c => implb (negb (should_escape c InPath)) (ktextb c && negb (c =? 37))) c ltac:(vm_compute; reflexivity)) as F. cbv beta in F. rewrite E in F. cbn [negb implb] in F.
    specialize (F ltac:(unfold byte_ok in B; lia)). rewrite andb_true_iff in F. destruct F as (F & N). unfold ktextb in F. rewrite orb_true_iff, one_of_spec in F. destruct F as [F|F].
    + apply reg_spec in F. unfold path_char. tauto.
    + right. right. cbn in *. lia.
  - exfalso. unfold should_escape in E. assert (A : alnum c = false) by (unfold alnum, letter, is_digit; lia). rewrite A in E. cbn [in_host andb] in E.
    assert (O : forall l, forallb (fun c => c <? 128) l = true -> one_of l c = false) by (intros l F; destruct (one_of l c) eqn:X; [|reflexivity]; apply one_of_spec in X; rewrite forallb_forall in F; apply F in X; lia).
    rewrite !O in E by reflexivity. discriminate E.
Qed.
Lemma pct_escape v : bytes_ok v -> pct path_char (escape InPath v) v.
Proof.
  intros B. induction B as [|c v C B IH]; [constructor|]. unfold escape in *. cbn [flat_map]. destruct (should_escape c InPath) eqn:E; cbn [app].
  - assert (S : c = (c / 16) * 16 + c mod 16) by (Z.div_mod_to_equations; lia). rewrite S at 3. unfold byte_ok in C. apply pct_hex; [apply upperhex_hexit; Z.div_mod_to_equations; lia|apply upperhex_hexit; Z.div_mod_to_equations; lia|exact IH].
  - apply pct_lit; [apply unescaped_path; assumption|exact IH].
Qed.

Lemma unescape_nil m s : unescape m s = Some [] -> s = [].
Proof.
  destruct s as [|c r]; [reflexivity|]. cbn [unescape]. destruct (c =? 37).
  - destruct r as [|a [|b r]]; try discriminate. destruct (unhex a); [|discriminate]. destruct (unhex b); [|discriminate]. cbv zeta. match goal with |- (if ?q then _ else _) = _ -> _ => destruct q; [discriminate|] end. destruct (unescape m r); discriminate.
  - destruct (in_host m && (c <? 128) && should_escape c m); [discriminate|]. destruct (unescape m r); discriminate.
Qed.
Lemma drop_byte_not c s : (match s with x :: _ => x <> c | [] => True end) -> drop_byte c s = s.
Proof. destruct s as [|x s]; [reflexivity|]. intros N. cbn [drop_byte]. destruct (x =? c) eqn:E; [lia|reflexivity]. Qed.
Lemma file_base_name dir f : name_ok f -> (dir = [] \/ exists d, dir = d ++ [47]) -> file_base (dir ++ f) = f.
Proof.
  intros (NE & _ & _ & N47 & _) D. unfold file_base. destruct (dir ++ f) as [|x y] eqn:E; [destruct dir, f; try discriminate; contradiction|]. rewrite <- E. clear E x y.
  assert (R : rev (drop_byte 47 (rev (dir ++ f))) = dir ++ f).
  { rewrite drop_byte_not; [apply rev_involutive|]. rewrite rev_app_distr. destruct (rev f) as [|x y] eqn:RF; [apply (f_equal (@rev Z)) in RF; rewrite rev_involutive in RF; contradiction|]. cbn [app]. intros ->. apply N47. apply in_rev. rewrite RF. left. reflexivity. }
  cbv zeta. rewrite R. assert (F : (match cut_last 47 (dir ++ f) with Some (_, b) => b | None => dir ++ f end) = f).
  { destruct D as [->|(d & ->)]; [cbn [app]; rewrite cut_last_none by exact N47; reflexivity|]. rewrite <- app_assoc. cbn [app]. rewrite cut_last_app by exact N47. reflexivity. }
  rewrite F. destruct f; [contradiction|reflexivity].
Qed.
Lemma clean_els_walk l : forall out, Forall (fun s => beq s (bs "..") = false) out -> clean_els true out l = fold_left walk l (rev out).
Proof.
  induction l as [|s l IH]; intros out F; [reflexivity|]. cbn [clean_els fold_left]. unfold walk at 2. destruct (beq s [] || beq s (bs ".")) eqn:E1; [apply IH; exact F|].
  destruct (beq s (bs "..")) eqn:E2.
  - destruct out as [|p out]; [apply IH; exact F|]. apply Forall_cons_iff in F as (Fp & F). rewrite Fp, IH by exact F. cbn [rev]. rewrite removelast_last. reflexivity.
  - rewrite IH by (constructor; assumption). reflexivity.
Qed.
Lemma walk_app segs f : name_ok f -> resolved (segs ++ [f]) = resolved segs ++ [f].
Proof.
  intros (NE & N1 & N2 & _). unfold resolved. rewrite fold_left_app. cbn [fold_left]. unfold walk at 1.
  assert (E0 : beq f [] = false) by (destruct (beq f []) eqn:E; [apply beq_eq in E; contradiction|reflexivity]).
  assert (E1 : beq f (bs ".") = false) by (destruct (beq f (bs ".")) eqn:E; [apply beq_eq in E; contradiction|reflexivity]).
  assert (E2 : beq f (bs "..") = false) by (destruct (beq f (bs "..")) eqn:E; [apply beq_eq in E; contradiction|reflexivity]).
  rewrite E0, E1, E2. reflexivity.
Qed.
Lemma walk_forall (P : bytes -> Prop) l : forall here, Forall P here -> Forall P l -> Forall P (fold_left walk l here).
Proof.
  induction l as [|s l IH]; intros here H F; [exact H|]. apply Forall_cons_iff in F as (Fs & F). cbn [fold_left]. apply IH; [|exact F]. unfold walk. destruct (_ || _); [exact H|].
  destruct (beq s (bs "..")); [|apply Forall_app; split; [exact H|constructor; [exact Fs|constructor]]].
  apply Forall_forall. intros x I. rewrite Forall_forall in H. apply H. destruct here as [|a here] using rev_ind; [destruct I|]. rewrite removelast_last in I. apply in_or_app. left. exact I.
Qed.
Lemma join_els_slashed names : names <> [] -> 47 :: join_els names = slashed names.
Proof.
  induction names as [|s [|t names] IH]; intros N; [contradiction| |].
  - cbn [join_els slashed flat_map]. rewrite app_nil_r. reflexivity.
  - change (join_els (s :: t :: names)) with (s ++ 47 :: join_els (t :: names)). rewrite IH by discriminate. reflexivity.
Qed.
Lemma split_slashed segs : forall s, ~ In 47 s -> Forall seg_ok segs -> split_on 47 (s ++ slashed segs) = s :: segs.
Proof.
  induction segs as [|t segs IH]; intros s N F.
  - cbn [slashed flat_map]. rewrite app_nil_r. apply split_on_none. exact N.
  - apply Forall_cons_iff in F as ((Ft & _) & F). cbn [slashed flat_map app]. rewrite split_on_app by exact N. f_equal. apply IH; assumption.
Qed.
Lemma slashed_app a b : slashed (a ++ b) = slashed a ++ slashed b.
Proof. apply flat_map_app. Qed.
Lemma clean_slashed segs f : Forall seg_ok segs -> name_ok f -> clean (slashed segs ++ 47 :: f) = slashed (resolved segs ++ [f]).
Proof.
  intros F N. assert (F2 : Forall seg_ok (segs ++ [f])) by (apply Forall_app; split; [exact F|constructor; [split; apply N|constructor]]).
  assert (X : slashed segs ++ 47 :: f = slashed (segs ++ [f])) by (rewrite slashed_app; cbn [slashed flat_map]; rewrite app_nil_r; reflexivity). rewrite X.
  assert (S : split_on 47 (slashed (segs ++ [f])) = [] :: segs ++ [f]) by (apply (split_slashed (segs ++ [f]) []); [intros []|exact F2]).
  unfold clean. destruct (slashed (segs ++ [f])) as [|c r] eqn:E; [destruct segs; discriminate E|].
  assert (C : c = 47) by (destruct segs as [|s segs]; cbn [slashed flat_map app] in E; injection E as E _; auto). subst c. change (47 =? 47) with true. cbv zeta iota.
  rewrite S. cbn [clean_els beq orb]. rewrite clean_els_walk by constructor. cbn [rev]. fold (resolved (segs ++ [f])). rewrite walk_app by exact N. apply join_els_slashed. destruct (resolved segs); discriminate.
Qed.
Lemma slashed_bytes segs : Forall seg_ok segs -> bytes_ok (slashed segs).
Proof. intros F. induction F as [|s segs (_ & B) F IH]; [constructor|]. cbn [slashed flat_map]. constructor; [unfold byte_ok; lia|]. apply bytes_ok_app. split; [exact B|exact IH]. Qed.

(* ---- credentials rendered again ---- *)
Lemma pct_more (ok ok' : Z -> Prop) t v : (forall c, ok c -> ok' c) -> pct ok t v -> pct ok' t v.
Proof. intros H P. induction P; [constructor|apply pct_lit; auto|apply pct_hex; auto]. Qed.
Lemma pct_bytes (ok : Z -> Prop) t v : (forall c, ok c -> byte_ok c) -> pct ok t v -> bytes_ok v.
Proof. intros H P. induction P as [|c t v C P IH|a b x y t v A B P IH]; [constructor|constructor; auto|]. constructor; [|exact IH]. unfold hexit, byte_ok in *. lia. Qed.
Lemma user_byte c : user_char c -> byte_ok c.
Proof. intros H. apply user_char_reg, reg_range in H. unfold byte_ok. lia. Qed.
Lemma pass_byte c : pass_char c -> byte_ok c.
Proof. intros [H| ->]; [apply user_byte; exact H|unfold byte_ok; lia]. Qed.
Lemma unescaped_user c : byte_ok c -> should_escape c InUser = false -> user_char c.
Proof.
  intros B E. destruct (Z_lt_ge_dec c 128) as [L|G].
  - pose proof (ascii_all (fun c => implb (negb (should_escape c InUser)) (regb c)) c ltac:(vm_compute; reflexivity)) as F. cbv beta in F. rewrite E in F. cbn [negb implb] in F.
    specialize (F ltac:(unfold byte_ok in B; lia)). apply reg_spec in F. exact F.
  - exfalso. unfold should_escape in E. assert (A : alnum c = false) by (unfold alnum, letter, is_digit; lia). rewrite A in E. cbn [in_host andb] in E.
    assert (O : forall l, forallb (fun c => c <? 128) l = true -> one_of l c = false) by (intros l F; destruct (one_of l c) eqn:X; [|reflexivity]; apply one_of_spec in X; rewrite forallb_forall in F; apply F in X; lia).
    rewrite !O in E by reflexivity. discriminate E.
Qed.
Lemma pct_escape_user v : bytes_ok v -> pct user_char (escape InUser v) v.
Proof.
  intros B. induction B as [|c v C B IH]; [constructor|]. unfold escape in *. cbn [flat_map]. destruct (should_escape c InUser) eqn:E; cbn [app].
  - assert (S : c = (c / 16) * 16 + c mod 16) by (Z.div_mod_to_equations; lia). rewrite S at 3. unfold byte_ok in C. apply pct_hex; [apply upperhex_hexit; Z.div_mod_to_equations; lia|apply upperhex_hexit; Z.div_mod_to_equations; lia|exact IH].
  - apply pct_lit; [apply unescaped_user; assumption|exact IH].
Qed.
Lemma user_again u who : ruser_is u who -> exists u', ruser_is u' who /\ (match ruser_of u who with Some x => userinfo x ++ bs "@" | None => [] end) = ruser_text u'.
Proof.
  destruct u as [|n|n p], who as [[a b]|]; cbn [ruser_is ruser_of]; try contradiction.
  - intros _. exists NoUser. split; [exact I|reflexivity].
  - intros (P & ->). exists (User (escape InUser a)). assert (B : bytes_ok a) by (eapply pct_bytes; [apply user_byte|exact P]). split; [split; [apply pct_escape_user; exact B|reflexivity]|].
    unfold userinfo. cbn [ruser_text]. destruct a; cbn [beq andb]; [reflexivity|]. rewrite app_nil_r. reflexivity.
  - intros (P & Q). assert (B : bytes_ok a) by (eapply pct_bytes; [apply user_byte|exact P]). assert (BP : bytes_ok b) by (eapply pct_bytes; [apply pass_byte|exact Q]).
    destruct (beq a [] && beq b []) eqn:E.
    + apply andb_prop in E as (Ea & Eb). apply beq_eq in Ea, Eb. subst a b. exists (User []). split; [split; [constructor|reflexivity]|reflexivity].
    + exists (UserPass (escape InUser a) (escape InUser b)). split; [split; [apply pct_escape_user; exact B|eapply pct_more; [|apply pct_escape_user; exact BP]; intros c C; left; exact C]|].
      unfold userinfo. rewrite E. cbn [ruser_text]. rewrite <- !app_assoc. reflexivity.
Qed.

Lemma encoded_raw p raw : encoded InPath p raw = escape InPath p \/ (encoded InPath p raw = raw /\ unescape InPath raw = Some p) \/ (encoded InPath p raw = bs "*" /\ p = bs "*").
Proof.
  unfold encoded. destruct (negb (beq raw []) && valid_encoded InPath raw && _) eqn:E.
  - right. left. split; [reflexivity|]. apply andb_prop in E as (_ & E). destruct (unescape InPath raw) as [d|]; [|discriminate]. apply beq_eq in E. subst. reflexivity.
  - destruct (beq p (bs "*")) eqn:S; [right; right; apply beq_eq in S; auto|left; reflexivity].
Qed.
Lemma playlist_text sch u who h port path q segs dir f : scheme_ok sch -> ruser_is u who -> rhost_ok h -> match port with Some p => rport_ok p | None => True end ->
  path_ok path -> match q with Some q => query_ok q | None => True end -> Forall seg_ok segs -> pct path_char path (slashed segs) ->
  name_ok f -> (dir = [] \/ exists d, dir = d ++ [47]) ->
  exists u' p, playlist_uri (url_text sch u h port path q) (dir ++ f) = Some (url_text (lowered sch) u' h port p q) /\ ruser_is u' who /\ pct path_char p (slashed (resolved segs ++ [f])).
Proof.
  intros S W H P K Q F PC N D. assert (U : unescape InPath path = Some (slashed segs)).
  { eapply unescape_pct; [reflexivity| |exact PC]. intros c [X|[X|X]]; [|assert (R : regb c = true) by (apply reg_spec; right; exact X); apply reg_facts in R; tauto|cbn in X; lia]. assert (R : regb c = true) by (apply reg_spec; left; exact X). apply reg_facts in R. tauto. }
  unfold playlist_uri. rewrite (parse_text sch u who h port path q _ S W H P K Q U). rewrite (file_base_name dir f N D). cbn [u_scheme u_opaque u_user u_host u_path u_rawpath u_omit u_force u_query u_fragment u_rawfragment].
  set (d := slashed segs) in *.
  assert (J : path_join d f = slashed (resolved segs ++ [f]) \/ (d = [] /\ segs = [] /\ path_join d f = f)).
  { unfold path_join. assert (NF : beq f [] = false) by (destruct N as (N & _); destruct f; [contradiction|reflexivity]). rewrite NF. destruct (beq d []) eqn:E.
    - apply beq_eq in E. right. assert (segs = []) by (unfold d in E; destruct segs; [reflexivity|discriminate E]). subst segs. splits; try reflexivity.
      unfold clean. destruct f as [|c r] eqn:EF; [discriminate NF|]. rewrite <- EF in *. assert (C : (c =? 47) = false) by (destruct (c =? 47) eqn:X; [|reflexivity]; exfalso; apply (proj1 (proj2 (proj2 (proj2 N)))); rewrite EF; left; lia).
      rewrite C. cbv zeta iota. rewrite split_on_none by apply N. cbn [clean_els]. destruct N as (NE & N1 & N2 & _).
      assert (E1 : beq f (bs ".") = false) by (destruct (beq f (bs ".")) eqn:X; [apply beq_eq in X; contradiction|reflexivity]).
      assert (E2 : beq f (bs "..") = false) by (destruct (beq f (bs "..")) eqn:X; [apply beq_eq in X; contradiction|reflexivity]).
      rewrite NF, E1, E2. cbn [orb rev app join_els]. rewrite NF. reflexivity.
    - left. unfold d. apply clean_slashed; assumption. }
  set (raw := if beq path (escape InPath d) then [] else path).
  destruct (user_again u who W) as (u' & W' & UT).
  unfold url_string. cbn [u_scheme u_opaque u_user u_host u_path u_rawpath u_omit u_force u_query u_fragment u_rawfragment]. rewrite UT.
  destruct (scheme_chars sch S) as (_ & _ & NS & _). assert (LS : beq (lowered sch) [] = false) by (destruct (lowered sch); [contradiction|reflexivity]). rewrite LS.
  assert (HN : beq (rhost_text h ++ rport_text port) [] = false).
  { destruct h as [n|a]; cbn [rhost_text rhost_ok] in *; [|reflexivity]. destruct H as (H & _). destruct n; [contradiction|reflexivity]. }
  rewrite HN. cbn [beq negb andb orb].
  rewrite escape_host by (rewrite forallb_app, (rhost_chars h H), (rport_chars port P); reflexivity).
  assert (F2 : Forall seg_ok (resolved segs ++ [f])) by (apply Forall_app; split; [apply walk_forall; [constructor|exact F]|constructor; [split; apply N|constructor]]).
  assert (PB : pct path_char (escape InPath (slashed (resolved segs ++ [f]))) (slashed (resolved segs ++ [f]))) by (apply pct_escape, slashed_bytes; exact F2).
  assert (PE : exists p, (if negb (beq (encoded InPath (path_join d f) raw) []) && negb (has_prefix (bs "/") (encoded InPath (path_join d f) raw)) && true then bs "/" else []) ++ encoded InPath (path_join d f) raw = p /\ pct path_char p (slashed (resolved segs ++ [f]))).
  { destruct J as [J|(D0 & N0 & J)]; rewrite J.
    - destruct (resolved segs ++ [f]) as [|s l] eqn:NF; [destruct (resolved segs); discriminate NF|]. destruct (encoded_raw (slashed (s :: l)) raw) as [E|[(E & UR)|(_ & E)]]; [| |discriminate E]; rewrite E.
      + exists (escape InPath (slashed (s :: l))). split; [|exact PB]. cbn [slashed flat_map app]. change (escape InPath (47 :: s ++ flat_map (fun s0 => 47 :: s0) l)) with (47 :: escape InPath (s ++ flat_map (fun s0 => 47 :: s0) l)).
        match goal with |- context [has_prefix (bs "/") (47 :: ?t)] => assert (HP : has_prefix (bs "/") (47 :: t) = true) by (apply (has_prefix_app (bs "/"))) end. rewrite HP. cbn [beq negb andb app]. reflexivity.
      + exists path. unfold raw in *. destruct (beq path (escape InPath d)); [discriminate UR|]. rewrite U in UR. assert (UD : slashed (s :: l) = d) by congruence. destruct (path_text path K) as (_ & _ & [->|(t & ->)] & _); [injection U as U; rewrite <- U in UD; discriminate UD|].
        assert (HP : has_prefix (bs "/") (47 :: t) = true) by (apply (has_prefix_app (bs "/"))). rewrite HP. split; [reflexivity|]. rewrite UD. exact PC.
    - assert (R0 : raw = []) by (unfold raw; rewrite D0 in *; apply unescape_nil in U; rewrite U; reflexivity). rewrite R0. subst segs. cbn [resolved fold_left app] in *. unfold encoded. cbn [beq negb andb].
      destruct (beq f (bs "*")) eqn:ST.
      { apply beq_eq in ST. subst f. exists (bs "/*"). split; [reflexivity|]. change (slashed [bs "*"]) with [47; 42]. change (bs "/*") with [47; 42]. apply pct_lit; [right; right; cbn; lia|]. apply pct_lit; [right; left; cbn; lia|constructor]. }
      exists (escape InPath (slashed [f])). split; [|exact PB]. cbn [slashed flat_map]. rewrite app_nil_r. change (escape InPath (47 :: f)) with (47 :: escape InPath f).
      assert (HP : has_prefix (bs "/") (escape InPath f) = false /\ beq (escape InPath f) [] = false).
      { destruct f as [|c r]; [destruct N; contradiction|]. unfold escape. cbn [flat_map]. assert (C : c <> 47) by (intros ->; apply (proj1 (proj2 (proj2 (proj2 N)))); left; reflexivity).
        change (bs "/") with [47]. unfold has_prefix. destruct (should_escape c InPath); cbn [app length firstn beq]; (split; [|reflexivity]); [reflexivity|]. destruct (c =? 47) eqn:X; [lia|reflexivity]. }
      destruct HP as (-> & ->). reflexivity. }
  destruct PE as (p & PE & PP). exists u', p. split; [|split; [exact W'|exact PP]].
  assert (NB : forall x, beq ((lowered sch ++ bs ":") ++ (bs "//" ++ ruser_text u' ++ rhost_text h ++ rport_text port) ++ x) [] = false) by (intros x; destruct (lowered sch); reflexivity). rewrite NB. cbn [andb].
  unfold url_text. f_equal. rewrite <- PE. destruct q as [[|c0 q0]|]; cbn [orb negb beq query_text]; rewrite ?app_nil_r, <- !app_assoc; reflexivity.
Qed.

(* ---- a base without a host ---- *)
Lemma query_calm q : match q with Some q => query_ok q | None => True end -> existsb (fun c => (c <? 32) || (c =? 127)) (query_text q) = false /\ ~ In 35 (query_text q).
Proof.
  intros Q. assert (F : Forall (fun c => 32 <= c /\ c <> 127 /\ c <> 35) (query_text q)) by (destruct q as [q|]; [change (query_text (Some q)) with (63 :: q); apply Forall_cons_iff; split; [lia|exact Q]|constructor]).
  split; [|intros I; rewrite Forall_forall in F; apply F in I; lia].
  destruct (existsb _ _) eqn:E; [|reflexivity]. apply existsb_exists in E as (c & I & C). rewrite Forall_forall in F. apply F in I. lia.
Qed.
Lemma cut_query path q : ~ In 63 path ->
  match cut 63 (path ++ query_text q) with None => (path ++ query_text q, false, []) | Some (a, []) => (a, true, []) | Some (a, q) => (a, false, q) end =
  (path, match q with Some [] => true | _ => false end, match q with Some q => q | None => [] end).
Proof.
  intros N. destruct q as [q|]; unfold query_text.
  - change (bs "?" ++ q) with (63 :: q). rewrite cut_app by exact N. destruct q; reflexivity.
  - rewrite app_nil_r, cut_none by exact N. reflexivity.
Qed.
Lemma clean_name f : name_ok f -> path_join [] f = f.
Proof.
  intros N. unfold path_join. assert (NF : beq f [] = false) by (destruct N as (N & _); destruct f; [contradiction|reflexivity]). rewrite NF. cbn [beq].
  unfold clean. destruct f as [|c r] eqn:EF; [discriminate NF|]. rewrite <- EF in *. assert (C : (c =? 47) = false) by (destruct (c =? 47) eqn:X; [|reflexivity]; exfalso; apply (proj1 (proj2 (proj2 (proj2 N)))); rewrite EF; left; lia).
  rewrite C. cbv zeta iota. rewrite split_on_none by apply N. cbn [clean_els]. destruct N as (NE & N1 & N2 & _).
  assert (E1 : beq f (bs ".") = false) by (destruct (beq f (bs ".")) eqn:X; [apply beq_eq in X; contradiction|reflexivity]).
  assert (E2 : beq f (bs "..") = false) by (destruct (beq f (bs "..")) eqn:X; [apply beq_eq in X; contradiction|reflexivity]).
  rewrite NF, E1, E2. cbn [orb rev app join_els]. rewrite NF. reflexivity.
Qed.
Lemma parse_local path q d : match q with Some q => query_ok q | None => True end ->
  path = [] \/ (path_ok path /\ path <> [] /\ has_prefix (bs "//") path = false) -> unescape InPath path = Some d ->
  parse (path ++ query_text q) = Some (mkUrl [] [] None [] d (if beq path (escape InPath d) then [] else path) false
    (match q with Some [] => true | _ => false end) (match q with Some q => q | None => [] end) [] []).
Proof.
  intros Q P U. destruct (query_calm q Q) as (QC & Q35).
  assert (PF : existsb (fun c => (c <? 32) || (c =? 127)) path = false /\ ~ In 35 path /\ ~ In 63 path /\ (path = [] \/ exists t, path = 47 :: t)).
  { destruct P as [->|(K & _)]; [splits; try reflexivity; [intros []|intros []|left; reflexivity]|]. destruct (path_text path K) as (KC & _ & S & _). splits.
    - apply (existsb_not _ ktextb); [intros c C; apply ktext_facts in C; lia|exact KC].
    - eapply not_in_b; [exact KC|reflexivity].
    - eapply not_in_b; [exact KC|reflexivity].
    - exact S. }
  destruct PF as (PC & P35 & P63 & S). unfold parse. rewrite cut_none by (rewrite in_app_iff; tauto). unfold parse1. rewrite existsb_app, PC, QC. cbn [orb].
  assert (NS : beq (path ++ query_text q) (bs "*") = false) by (destruct S as [->|(t & ->)]; [destruct q; reflexivity|reflexivity]). rewrite NS.
  assert (GS : get_scheme [] (path ++ query_text q) (path ++ query_text q) = Some ([], path ++ query_text q)) by (destruct S as [->|(t & ->)]; [destruct q; reflexivity|reflexivity]). rewrite GS.
  change (to_lower []) with (@nil Z). cbv zeta. rewrite cut_query by exact P63. unfold set_encoded. rewrite U. destruct P as [->|(K & N & D)].
  - reflexivity.
  - destruct S as [->|(t & ->)]; [contradiction|]. assert (HP : has_prefix (bs "/") (47 :: t) = true) by (apply (has_prefix_app (bs "/"))). rewrite HP, D, andb_false_r. reflexivity.
Qed.
Lemma escape_58 f : In 58 (escape InPath f) <-> In 58 f.
Proof.
  unfold escape. rewrite in_flat_map. split.
  - intros (c & I & J). destruct (should_escape c InPath) eqn:E; [|destruct J as [J|[]]; subst c; exact I]. exfalso. cbn [In] in J. unfold upperhex in J.
    destruct J as [J|[J|[J|[]]]]; [discriminate J| |].
    + destruct (c / 16 <? 10) eqn:L; lia.
    + destruct (c mod 16 <? 10) eqn:L; lia.
  - intros I. exists 58. split; [exact I|left; reflexivity].
Qed.
Lemma escape_47 f : bytes_ok f -> ~ In 47 f -> ~ In 47 (escape InPath f).
Proof.
  intros B N I. unfold escape in I. apply in_flat_map in I as (c & I & J). assert (BC : byte_ok c) by (unfold bytes_ok in B; rewrite Forall_forall in B; apply B; exact I). unfold byte_ok in BC. destruct (should_escape c InPath) eqn:E; [|destruct J as [J|[]]; subst c; contradiction]. cbn [In] in J. unfold upperhex in J.
  destruct J as [J|[J|[J|[]]]]; [discriminate J| |].
  - destruct (c / 16 <? 10) eqn:L; Z.div_mod_to_equations; lia.
  - destruct (c mod 16 <? 10) eqn:L; Z.div_mod_to_equations; lia.
Qed.
Lemma has_58 s : has 58 s = true <-> In 58 s.
Proof. unfold has. rewrite existsb_exists. split; [intros (x & I & E); replace 58 with x by lia; exact I|]. intros I. exists 58. split; [exact I|reflexivity]. Qed.
Lemma playlist_bare q dir f : match q with Some q => query_ok q | None => True end -> name_ok f -> (dir = [] \/ exists d, dir = d ++ [47]) ->
  exists dot p, playlist_uri (query_text q) (dir ++ f) = Some (dot ++ p ++ query_text q) /\ pct path_char p f /\ (In 58 f -> dot = bs "./") /\ (~ In 58 f -> dot = []).
Proof.
  intros Q N D. unfold playlist_uri. pose proof (parse_local [] q [] Q (or_introl eq_refl) eq_refl) as PL. cbn [app] in PL. rewrite PL. rewrite (file_base_name dir f N D). cbn [u_scheme u_opaque u_user u_host u_path u_rawpath u_omit u_force u_query u_fragment u_rawfragment].
  rewrite clean_name by exact N. change (beq [] (escape InPath [])) with true. cbv iota.
  unfold url_string. cbn [u_scheme u_opaque u_user u_host u_path u_rawpath u_omit u_force u_query u_fragment u_rawfragment]. cbn [beq negb andb]. rewrite andb_false_r. cbn [app beq andb].
  assert (E : exists p, encoded InPath f [] = p /\ pct path_char p f /\ has 58 (match cut 47 p with Some (a, _) => a | None => p end) = has 58 f).
  { unfold encoded. cbn [beq negb andb]. destruct (beq f (bs "*")) eqn:ST.
    - apply beq_eq in ST. subst f. exists (bs "*"). splits; try reflexivity. apply pct_lit; [right; left; cbn; lia|constructor].
    - exists (escape InPath f). split; [reflexivity|]. split; [apply pct_escape, N|]. rewrite cut_none by (apply escape_47; apply N).
      apply eq_true_iff_eq. rewrite !has_58. apply escape_58. }
  destruct E as (p & E & P & C). rewrite E, C. exists (if has 58 f then bs "./" else []), p. splits.
  - f_equal. rewrite <- !app_assoc. do 2 f_equal. rewrite app_nil_r. destruct q as [[|c q]|]; reflexivity.
  - exact P.
  - intros I. apply has_58 in I. rewrite I. reflexivity.
  - intros I. destruct (has 58 f) eqn:H; [apply has_58 in H; contradiction|reflexivity].
Qed.
Lemma playlist_rooted path q segs dir f : path_ok path -> path <> [] -> has_prefix (bs "//") path = false -> match q with Some q => query_ok q | None => True end ->
  Forall seg_ok segs -> pct path_char path (slashed segs) -> name_ok f -> (dir = [] \/ exists d, dir = d ++ [47]) ->
  exists p, playlist_uri (path ++ query_text q) (dir ++ f) = Some (p ++ query_text q) /\ pct path_char p (slashed (resolved segs ++ [f])).
Proof.
  intros K NP DD Q F PC N D. assert (U : unescape InPath path = Some (slashed segs)).
  { eapply unescape_pct; [reflexivity| |exact PC]. intros c [X|[X|X]]; [|assert (R : regb c = true) by (apply reg_spec; right; exact X); apply reg_facts in R; tauto|cbn in X; lia]. assert (R : regb c = true) by (apply reg_spec; left; exact X). apply reg_facts in R. tauto. }
  unfold playlist_uri. rewrite (parse_local path q _ Q (or_intror (conj K (conj NP DD))) U). rewrite (file_base_name dir f N D). cbn [u_scheme u_opaque u_user u_host u_path u_rawpath u_omit u_force u_query u_fragment u_rawfragment].
  set (d := slashed segs) in *.
  assert (J : path_join d f = slashed (resolved segs ++ [f])).
  { unfold path_join. assert (NF : beq f [] = false) by (destruct N as (N & _); destruct f; [contradiction|reflexivity]). rewrite NF. destruct (beq d []) eqn:E.
    - apply beq_eq in E. rewrite E in U. apply unescape_nil in U. contradiction.
    - unfold d. apply clean_slashed; assumption. }
  rewrite J. set (raw := if beq path (escape InPath d) then [] else path).
  assert (F2 : Forall seg_ok (resolved segs ++ [f])) by (apply Forall_app; split; [apply walk_forall; [constructor|exact F]|constructor; [split; apply N|constructor]]).
  assert (PE : exists p, encoded InPath (slashed (resolved segs ++ [f])) raw = p /\ pct path_char p (slashed (resolved segs ++ [f])) /\ exists t, p = 47 :: t).
  { destruct (resolved segs ++ [f]) as [|s l] eqn:NF; [destruct (resolved segs); discriminate NF|].
    destruct (encoded_raw (slashed (s :: l)) raw) as [E|[(E & UR)|(_ & E)]]; [| |discriminate E]; rewrite E.
    - eexists. split; [reflexivity|]. split; [apply pct_escape, slashed_bytes; exact F2|]. eexists. reflexivity.
    - exists path. unfold raw in *. destruct (beq path (escape InPath d)); [discriminate UR|]. rewrite U in UR. assert (UD : slashed (s :: l) = d) by congruence.
      destruct (path_text path K) as (_ & _ & [->|(t & ->)] & _); [contradiction|]. splits; [reflexivity|rewrite UD; exact PC|exists t; reflexivity]. }
  destruct PE as (p & PE & PP & (t & Et)). exists p. split; [|exact PP].
  unfold url_string. cbn [u_scheme u_opaque u_user u_host u_path u_rawpath u_omit u_force u_query u_fragment u_rawfragment]. match goal with |- context [encoded InPath _ ?r] => change r with raw end. rewrite PE. cbn [beq negb andb]. rewrite andb_false_r. cbn [app beq andb].
  assert (NC : has 58 (match cut 47 p with Some (a, _) => a | None => p end) = false) by (rewrite Et; change (47 :: t) with ([] ++ 47 :: t); rewrite (cut_app 47 [] t) by (intros []); reflexivity). rewrite NC. cbn [app].
  rewrite app_nil_r. do 2 f_equal. destruct q as [[|c q]|]; reflexivity.
Qed.
