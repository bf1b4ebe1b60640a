(* A base URI without a scheme that names a host, //host/path (RFC 3986 4.2, a network-path reference): the same as with a scheme. *)
From Coq Require Import String.
From Verif Require Import Base GoStrings M_dial M_url S_url S_badurl L_base L_strings L_url L_badurl L_file L_playlist.
From Coq Require Import ZifyBool ZifyNat.

Lemma parse_net auth path q : auth <> [] -> Forall auth_char auth -> (path = [] \/ exists t, path = 47 :: t) ->
  Forall (fun c => 32 <= c /\ c <> 127 /\ c <> 35 /\ c <> 63) path -> match q with Some q => query_ok q | None => True end ->
  parse (bs "//" ++ auth ++ path ++ query_text q) =
  match parse_authority auth with
  | Some (user, host) => match set_encoded InPath path with
      | Some (d, r) => Some (mkUrl [] [] user host d r false (match q with Some [] => true | _ => false end) (match q with Some q => q | None => [] end) [] [])
      | None => None end
  | None => None
  end.
Proof.
  intros NA AC K3 PC Q. pose proof (auth_chars auth AC) as A. unfold authb in A.
  assert (K1 : forallb (fun c => (32 <=? c) && negb (c =? 127) && negb (c =? 35) && negb (c =? 63)) path = true) by (eapply Forall_b; [|exact PC]; cbv beta; lia).
  change (bs "//" ++ auth ++ path ++ query_text q) with (47 :: 47 :: auth ++ path ++ query_text q). set (raw := 47 :: 47 :: auth ++ path ++ query_text q).
  assert (QT : forallb (fun c => (32 <=? c) && negb (c =? 127) && negb (c =? 35)) (query_text q) = true).
  { destruct q as [q|]; [|reflexivity]. cbn [query_text]. rewrite forallb_app, andb_true_iff. split; [reflexivity|]. eapply Forall_b; [|exact Q]. cbv beta. lia. }
  assert (R : forallb (fun c => (32 <=? c) && negb (c =? 127) && negb (c =? 35)) raw = true).
  { unfold raw. cbn [forallb]. rewrite !forallb_app. rewrite !andb_true_iff. splits; try reflexivity; try exact QT.
    - eapply forallb_imp; [|exact A]. cbv beta. lia.
    - eapply forallb_imp; [|exact K1]. cbv beta. lia. }
  unfold parse. rewrite cut_none by (eapply not_in_b; [exact R|reflexivity]). unfold parse1.
  rewrite (existsb_not _ _ raw) with (2 := R) by (cbv beta; lia).
  assert (NS : beq raw (bs "*") = false) by reflexivity.
  rewrite NS. change (get_scheme [] raw raw) with (Some ([] : bytes, raw)). cbv iota. change (to_lower []) with ([] : bytes). cbv zeta. unfold raw.
  assert (C63 : cut 63 (47 :: 47 :: auth ++ path ++ query_text q) = match q with Some q => Some (47 :: 47 :: auth ++ path, q) | None => None end).
  { assert (N : ~ In 63 (47 :: 47 :: auth ++ path)).
    { intros [X|[X|I]]; try discriminate X. apply in_app_or in I as [I|I]; [revert I; eapply not_in_b; [exact A|reflexivity]|revert I; eapply not_in_b; [exact K1|reflexivity]]. }
    destruct q as [q|]; cbn [query_text].
    - change (bs "?" ++ q) with (63 :: q). rewrite app_assoc. change (47 :: 47 :: (auth ++ path) ++ 63 :: q) with ((47 :: 47 :: auth ++ path) ++ 63 :: q). apply cut_app. exact N.
    - rewrite app_nil_r. apply cut_none. exact N. }
  rewrite C63. clear C63 R QT NS. assert (NIL : auth ++ path ++ query_text None = auth ++ path) by (cbn [query_text]; rewrite app_nil_r; reflexivity).
  assert (HP : has_prefix (bs "/") (47 :: 47 :: auth ++ path) = true) by (apply (has_prefix_app (bs "/"))).
  assert (HP2 : has_prefix (bs "//") (47 :: 47 :: auth ++ path) = true) by (apply (has_prefix_app (bs "//"))).
  assert (N47 : ~ In 47 auth) by (eapply not_in_b; [exact A|reflexivity]).
  assert (HP3 : has_prefix (bs "///") (47 :: 47 :: auth ++ path) = false).
  { destruct auth as [|c a]; [contradiction|]. destruct (has_prefix (bs "///") (47 :: 47 :: (c :: a) ++ path)) eqn:X; [|reflexivity]. apply has_prefix_inv in X. exfalso. apply N47. left.
    cbn [app] in X. change (bs "///" ++ ?x) with (47 :: 47 :: 47 :: x) in X. congruence. }
  assert (C47 : (match cut 47 (auth ++ path) with Some (a, b) => (a, 47 :: b) | None => (auth ++ path, []) end) = (auth, path)).
  { destruct K3 as [->|(t & ->)]; [rewrite app_nil_r, cut_none by exact N47; reflexivity|rewrite cut_app by exact N47; reflexivity]. }
  destruct q as [[|c0 q0]|]; cbv iota; rewrite ?NIL, HP, HP2, HP3; cbn [negb orb andb skipn beq]; rewrite C47; destruct (parse_authority auth) as [[user host]|]; try reflexivity; destruct (set_encoded InPath path) as [[d r]|]; reflexivity.
Qed.

(* with a user or a host, what is written without a scheme is what is written with one, less the scheme *)
Lemma string_net sch user host path raw force query : sch <> [] -> user <> None \/ host <> [] ->
  url_string (mkUrl sch [] user host path raw false force query [] []) = sch ++ bs ":" ++ url_string (mkUrl [] [] user host path raw false force query [] []).
Proof.
  intros NS UH. unfold url_string. cbn [u_scheme u_opaque u_user u_host u_path u_rawpath u_omit u_force u_query u_fragment u_rawfragment].
  assert (LS : beq sch [] = false) by (destruct sch; [contradiction|reflexivity]). rewrite LS. change (beq [] []) with true. cbn [negb andb].
  assert (X : beq host [] && (match user with None => true | Some _ => false end) = false).
  { destruct user; [apply andb_false_r|]. destruct UH as [U|H]; [contradiction|]. destruct host; [contradiction|reflexivity]. }
  assert (Y : beq host [] && beq path [] && (match user with None => true | Some _ => false end) = false).
  { rewrite <- andb_assoc, (andb_comm (beq path [])), andb_assoc, X. reflexivity. }
  rewrite X, Y. cbn [app]. match goal with |- context [beq ((sch ++ bs ":") ++ ?x) []] => assert (NB : beq ((sch ++ bs ":") ++ x) [] = false) by (destruct sch; reflexivity) end.
  rewrite NB. match goal with |- context [beq ((bs "//" ++ ?x) ++ ?y) []] => change (beq ((bs "//" ++ x) ++ y) []) with false end. cbn [andb app]. rewrite <- !app_assoc. reflexivity.
Qed.

Lemma playlist_net sch auth path q name t : scheme_ok sch -> Forall auth_char auth -> (path = [] \/ exists t, path = 47 :: t) ->
  Forall (fun c => 32 <= c /\ c <> 127 /\ c <> 35 /\ c <> 63) path -> match q with Some q => query_ok q | None => True end ->
  (exists user host, parse_authority auth = Some (user, host) /\ (user <> None \/ host <> [])) ->
  playlist_uri (located sch auth path q) name = Some (lowered sch ++ bs ":" ++ t) -> playlist_uri (bs "//" ++ auth ++ path ++ query_text q) name = Some t.
Proof.
  intros S AC K3 PC Q (user & host & PA & UH) E. destruct (scheme_chars sch S) as (_ & _ & NS & _).
  assert (NA : auth <> []) by (intros ->; vm_compute in PA; injection PA as <- <-; destruct UH; contradiction).
  unfold playlist_uri in *. rewrite parse_gen in E by assumption. rewrite parse_net by assumption. rewrite PA in *.
  destruct (set_encoded InPath path) as [[d r]|]; [|discriminate]. cbn [u_scheme u_opaque u_user u_host u_path u_rawpath u_omit u_force u_query u_fragment u_rawfragment] in *.
  rewrite string_net in E by assumption. injection E as E. f_equal. apply app_inv_head in E. injection E as E. exact E.
Qed.

Lemma hostport_auth h port : rhost_ok h -> match port with Some p => rport_ok p | None => True end -> Forall auth_char (rhost_text h ++ rport_text port).
Proof.
  intros H P. apply Forall_forall. intros c I.
  assert (C : forallb hostb (rhost_text h ++ rport_text port) = true) by (rewrite forallb_app, (rhost_chars h H), (rport_chars port P); reflexivity).
  rewrite forallb_forall in C. apply C in I. apply host_facts in I. unfold auth_char. cbn. lia.
Qed.

Lemma playlist_net_host u who h port path q segs dir f :
  ruser_is u who -> rhost_ok h -> match port with Some p => rport_ok p | None => True end -> path_ok path -> match q with Some q => query_ok q | None => True end ->
  Forall seg_ok segs -> pct path_char path (slashed segs) -> name_ok f -> (dir = [] \/ exists d, dir = d ++ [47]) ->
  exists u' p, playlist_uri (bs "//" ++ ruser_text u ++ rhost_text h ++ rport_text port ++ path ++ query_text q) (dir ++ f) =
    Some (bs "//" ++ ruser_text u' ++ rhost_text h ++ rport_text port ++ p ++ query_text q) /\ ruser_is u' who /\
    pct path_char p (slashed (resolved segs ++ [f])).
Proof.
  intros W H P K Q F PC N D. assert (S : scheme_ok (bs "http")) by (exists 104, (bs "ttp"); splits; [reflexivity|cbn; lia|repeat (constructor; [cbn; lia|]); constructor]).
  destruct (playlist_text (bs "http") u who h port path q segs dir f S W H P K Q F PC N D) as (u' & p & E & W' & PP). exists u', p. split; [|split; assumption].
  assert (A : Forall auth_char (ruser_text u ++ rhost_text h ++ rport_text port)).
  { apply Forall_app. split; [eapply ruser_auth; exact W|]. apply hostport_auth; assumption. }
  replace (bs "//" ++ ruser_text u ++ rhost_text h ++ rport_text port ++ path ++ query_text q) with (bs "//" ++ (ruser_text u ++ rhost_text h ++ rport_text port) ++ path ++ query_text q) by (rewrite <- !app_assoc; reflexivity).
  eapply (playlist_net (bs "http")); [exact S|exact A|destruct (path_text path K) as (_ & _ & X & _); exact X|apply path_plain; exact K|exact Q| |].
  - do 2 eexists. split; [apply parse_authority_ok; eassumption|]. right. destruct h as [n|a]; cbn [rhost_text rhost_ok] in *; [|discriminate]. destruct H as (H & _). destruct n; [contradiction|discriminate].
  - unfold located. replace (_ ++ path ++ query_text q) with (ruser_text u ++ rhost_text h ++ rport_text port ++ path ++ query_text q) by (rewrite <- !app_assoc; reflexivity). exact E.
Qed.
Lemma playlist_net_user u who path q segs dir f :
  ruser_is u who -> who <> None -> path_ok path -> path <> [] -> match q with Some q => query_ok q | None => True end ->
  Forall seg_ok segs -> pct path_char path (slashed segs) -> name_ok f -> (dir = [] \/ exists d, dir = d ++ [47]) ->
  exists u' p, playlist_uri (bs "//" ++ ruser_text u ++ path ++ query_text q) (dir ++ f) = Some (bs "//" ++ ruser_text u' ++ p ++ query_text q) /\ ruser_is u' who /\
    pct path_char p (slashed (resolved segs ++ [f])).
Proof.
  intros W NW K NP Q F PC N D. assert (S : scheme_ok (bs "http")) by (exists 104, (bs "ttp"); splits; [reflexivity|cbn; lia|repeat (constructor; [cbn; lia|]); constructor]).
  destruct (playlist_file (bs "http") u who path q segs dir f S W K NP Q F PC N D) as (u' & p & E & W' & PP). exists u', p. split; [|split; assumption].
  eapply (playlist_net (bs "http")); [exact S|eapply ruser_auth; exact W|destruct (path_text path K) as (_ & _ & X & _); exact X|apply path_plain; exact K|exact Q| |exact E].
  do 2 eexists. split; [apply authority_alone; eassumption|]. left. destruct u, who as [[? ?]|]; cbn in *; try contradiction; discriminate.
Qed.
