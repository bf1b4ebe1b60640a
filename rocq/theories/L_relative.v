From Coq Require Import String.
From Verif Require Import Base GoStrings M_url M_conn M_message M_transport M_sdp M_session M_dial S_url S_badurl L_base L_strings L_url L_badurl L_playlist.
From Coq Require Import ZifyBool ZifyNat.

Lemma ups_chars k c : In c (ups k) -> c = 46 \/ c = 47.
Proof. induction k as [|k IH]; cbn [ups]; intros I; [destruct I|]. apply in_app_or in I as [I|I]; [cbn in I; lia|auto]. Qed.
Lemma ups_unescape k m : in_host m = false -> unescape m (ups k) = Some (ups k).
Proof.
  intros M. induction k as [|k IH]; [reflexivity|]. change (ups (S k)) with (46 :: 46 :: 47 :: ups k). cbn [unescape].
  change (46 =? 37) with false. change (47 =? 37) with false. cbv iota. rewrite M. cbn [andb]. rewrite IH. reflexivity.
Qed.
Lemma ups_escape k : escape InPath (ups k) = ups k.
Proof. induction k as [|k IH]; [reflexivity|]. change (ups (S k)) with (46 :: 46 :: 47 :: ups k). unfold escape in *. cbn [flat_map]. rewrite IH. reflexivity. Qed.
Lemma ups_split k t : split_on 47 (ups k ++ t) = repeat (bs "..") k ++ split_on 47 t.
Proof. induction k as [|k IH]; [reflexivity|]. change (ups (S k) ++ t) with (bs ".." ++ 47 :: ups k ++ t). rewrite split_on_app by (cbn; lia). rewrite IH. reflexivity. Qed.
Lemma clean_ups f k : forall j r, name_ok f -> r = [f] -> clean_els false (repeat (bs "..") j) (repeat (bs "..") k ++ [] :: r) = repeat (bs "..") (j + k) ++ r.
Proof.
  induction k as [|k IH]; intros j r N ->; cbn [repeat app clean_els].
  - change (beq [] [] || beq [] (bs ".")) with true. cbv iota. destruct N as (NE & N1 & N2 & _).
    assert (E0 : beq f [] = false) by (destruct (beq f []) eqn:E; [apply beq_eq in E; contradiction|reflexivity]).
    assert (E1 : beq f (bs ".") = false) by (destruct (beq f (bs ".")) eqn:E; [apply beq_eq in E; contradiction|reflexivity]).
    assert (E2 : beq f (bs "..") = false) by (destruct (beq f (bs "..")) eqn:E; [apply beq_eq in E; contradiction|reflexivity]).
    rewrite E0, E1, E2. cbn [orb clean_els rev]. rewrite Nat.add_0_r. f_equal. clear. induction j as [|j IH]; [reflexivity|]. cbn [repeat rev]. rewrite IH. clear. induction j as [|j IH]; [reflexivity|]. cbn [repeat app]. rewrite IH. reflexivity.
  - change (beq (bs "..") [] || beq (bs "..") (bs ".")) with false. change (beq (bs "..") (bs "..")) with true. cbv iota.
    specialize (IH (S j) [f] N eq_refl). cbn [repeat] in IH. replace (j + S k)%nat with (S j + k)%nat by lia. destruct j as [|j]; cbn [repeat] in *; [exact IH|].
    change (beq (bs "..") (bs "..")) with true. cbv iota. exact IH.
Qed.
Lemma join_ups k f : join_els (repeat (bs "..") k ++ [f]) = ups k ++ f.
Proof.
  induction k as [|k IH]; [reflexivity|]. cbn [repeat app]. destruct (repeat (bs "..") k ++ [f]) as [|x l] eqn:E; [destruct k; discriminate E|].
  change (join_els (bs ".." :: x :: l)) with (bs ".." ++ 47 :: join_els (x :: l)). rewrite IH. reflexivity.
Qed.
Lemma playlist_ups k q dir f : (0 < k)%nat -> match q with Some q => query_ok q | None => True end -> name_ok f -> (dir = [] \/ exists d, dir = d ++ [47]) ->
  exists p, playlist_uri (ups k ++ query_text q) (dir ++ f) = Some (ups k ++ p ++ query_text q) /\ pct path_char p f.
Proof.
  intros K Q N D. destruct k as [|k]; [lia|]. clear K.
  assert (R : forallb (fun c => (32 <=? c) && negb (c =? 127) && negb (c =? 35)) (ups (S k) ++ query_text q) = true).
  { rewrite forallb_app, andb_true_iff. split.
    - apply forallb_forall. intros c I. apply ups_chars in I. lia.
    - destruct q as [q|]; [|reflexivity]. cbn [query_text]. rewrite forallb_app, andb_true_iff. split; [reflexivity|]. eapply Forall_b; [|exact Q]. cbv beta. lia. }
  assert (PL : parse (ups (S k) ++ query_text q) = Some (mkUrl [] [] None [] (ups (S k)) [] false (match q with Some [] => true | _ => false end) (match q with Some q => q | None => [] end) [] [])).
  { unfold parse. rewrite cut_none by (eapply not_in_b; [exact R|reflexivity]). unfold parse1. rewrite (existsb_not _ _ _) with (2 := R) by (cbv beta; lia).
    assert (E1 : beq (ups (S k) ++ query_text q) (bs "*") = false) by reflexivity. rewrite E1.
    assert (E2 : forall raw, get_scheme [] (ups (S k) ++ query_text q) raw = Some ([], raw)) by reflexivity. rewrite E2. change (to_lower []) with ([] : bytes). cbv zeta.
    assert (C63 : cut 63 (ups (S k) ++ query_text q) = match q with Some q => Some (ups (S k), q) | None => None end).
    { assert (X : ~ In 63 (ups (S k))) by (intros I; apply ups_chars in I; lia). destruct q as [q|]; cbn [query_text]; [apply cut_app; exact X|rewrite app_nil_r; apply cut_none; exact X]. }
    rewrite C63. assert (NIL : ups (S k) ++ query_text None = ups (S k)) by (cbn [query_text]; rewrite app_nil_r; reflexivity).
    assert (HP : has_prefix (bs "/") (ups (S k)) = false) by reflexivity.
    assert (C47 : cut 47 (ups (S k)) = Some (bs "..", ups k)) by (apply (cut_app 47 (bs "..") (ups k)); cbn; lia).
    assert (SE : set_encoded InPath (ups (S k)) = Some (ups (S k), [])) by (unfold set_encoded; rewrite ups_unescape by reflexivity; rewrite ups_escape, beq_refl; reflexivity).
    destruct q as [[|c0 q0]|]; cbv iota; rewrite ?NIL, HP; cbn [negb beq]; rewrite C47; change (has 58 (bs "..")) with false; cbv iota; rewrite SE; reflexivity. }
  unfold playlist_uri. rewrite PL. rewrite (file_base_name dir f N D). cbn [u_scheme u_opaque u_user u_host u_path u_rawpath u_omit u_force u_query u_fragment u_rawfragment].
  assert (J : path_join (ups (S k)) f = ups (S k) ++ f).
  { unfold path_join. assert (E1 : beq (ups (S k)) [] = false) by reflexivity. assert (E2 : beq f [] = false) by (destruct f; [destruct N as (NE & _); contradiction|reflexivity]). rewrite E1, E2.
    assert (CL : clean (ups (S k) ++ 47 :: f) = (let b := join_els (clean_els false [] (split_on 47 (ups (S k) ++ 47 :: f))) in if beq b [] then bs "." else b)) by reflexivity.
    rewrite CL. rewrite ups_split. assert (SP : split_on 47 (47 :: f) = [] :: [f]) by (pose proof (split_on_app 47 [] f) as X; cbn [app] in X; rewrite X by (intros []); rewrite split_on_none by apply N; reflexivity).
    rewrite SP. pose proof (clean_ups f (S k) 0 [f] N eq_refl) as CU. cbn [repeat] in CU. change (bs ".." :: repeat (bs "..") k) with (repeat (bs "..") (S k)) in CU. rewrite CU. cbn [Nat.add]. rewrite join_ups. reflexivity. }
  rewrite J. exists (escape InPath f). split; [|apply pct_escape, N].
  assert (EN : encoded InPath (ups (S k) ++ f) [] = ups (S k) ++ escape InPath f).
  { unfold encoded. cbn [beq negb andb]. assert (X : beq (ups (S k) ++ f) (bs "*") = false) by reflexivity. rewrite X. rewrite escape_app, ups_escape. reflexivity. }
  unfold url_string. cbn [u_scheme u_opaque u_user u_host u_path u_rawpath u_omit u_force u_query u_fragment u_rawfragment]. cbn [beq negb andb]. rewrite EN.
  assert (C47 : cut 47 (ups (S k) ++ escape InPath f) = Some (bs "..", ups k ++ escape InPath f)) by (apply (cut_app 47 (bs "..") (ups k ++ escape InPath f)); cbn; lia). rewrite C47. change (has 58 (bs "..")) with false. rewrite !andb_false_r. cbv iota. cbn [app]. f_equal. rewrite <- !app_assoc. do 2 f_equal. rewrite app_nil_r. destruct q as [[|c q]|]; reflexivity.
Qed.
