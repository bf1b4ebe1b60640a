(* Lemmas: brackets inside brackets. *)
From Coq Require Import String ZifyBool.
From Verif Require Import Base GoStrings M_conn M_message M_transport M_sdp M_session M_url M_dial S_message S_url S_badurl L_base L_strings L_message L_url L_badurl L_hostesc.

Lemma unescape_same m h : forall v, ~ In 37 h -> unescape m h = Some v -> v = h.
Proof.
  induction h as [|c r IH]; intros v N E; cbn [unescape] in E; [injection E as <-; reflexivity|].
  destruct (c =? 37) eqn:C; [exfalso; apply N; left; lia|].
  destruct (in_host m && (c <? 128) && should_escape c m); [discriminate E|].
  destruct (unescape m r) as [t|] eqn:T; [|destruct m; discriminate E].
  injection E as <-. f_equal. apply IH; [intros X; apply N; now right|reflexivity].
Qed.

Lemma no_zone s : ~ In 37 s -> find_zone s = None.
Proof.
  induction s as [|c r IH]; intros N; [reflexivity|]. cbn [find_zone]. assert (P : has_prefix (bs "%25") (c :: r) = false).
  { change (bs "%25") with [37; 50; 53]. unfold has_prefix. cbn [length firstn beq]. destruct (c =? 37) eqn:C; [exfalso; apply N; left; lia|reflexivity]. }
  rewrite P, IH; [reflexivity|]. intros X. apply N. now right.
Qed.

Lemma split_inner a p : In 91 a \/ (exists x y, a = x ++ 93 :: y /\ In 93 y) -> split_host_port (91 :: a ++ p) = None.
Proof.
  intros I. unfold split_host_port. destruct (cut_last 58 (91 :: a ++ p)) as [[b port]|]; [|reflexivity].
  assert (HP : has_prefix (bs "[") (91 :: a ++ p) = true) by (apply (has_prefix_app (bs "["))). rewrite HP. cbn [skipn].
  destruct (cut 93 (91 :: a ++ p)) as [[inner rest]|] eqn:C; [|reflexivity]. destruct rest as [|r0 rest0]; [reflexivity|].
  destruct (negb (beq (inner ++ [93]) b)); [reflexivity|].
  assert (H : forall c l, In c l -> has c l = true).
  { intros c l J. unfold has. apply existsb_exists. exists c. split; [exact J|apply Z.eqb_refl]. }
  destruct I as [I|(x & y & -> & I)].
  - rewrite (H 91 (a ++ p)); [reflexivity|]. apply in_or_app. now left.
  - rewrite (H 93 (r0 :: rest0)); [now rewrite orb_true_r|]. apply cut_some in C. destruct C as (C & NC).
    rewrite <- app_assoc in C. cbn [app] in C. rewrite app_comm_cons in C.
    assert (G : forall (u v s t : bytes), u ++ 93 :: v = s ++ 93 :: t -> ~ In 93 s -> In 93 v -> In 93 t).
    { clear. induction u as [|k u IH]; intros v s t E N J; destruct s as [|z s]; cbn [app] in E; [injection E as E2|injection E as E1 E2|injection E as E1 E2|injection E as E1 E2].
      - subst. exact J.
      - exfalso. apply N. left. lia.
      - subst t. apply in_or_app. right. left. reflexivity.
      - eapply IH; [exact E2| |exact J]. intros X. apply N. now right. }
    eapply G; [exact C|exact NC|]. apply in_or_app. now left.
Qed.

Lemma dial_inner sch u who a path q proto reach guid werr s : scheme_ok sch -> ruser_is u who -> Forall auth_char (91 :: a) -> ~ In 64 a -> ~ In 37 a ->
  In 91 a \/ (exists x y, a = x ++ 93 :: y /\ In 93 y) ->
  (path = [] \/ exists t, path = 47 :: t) -> Forall (fun c => 32 <= c /\ c <> 127 /\ c <> 35 /\ c <> 63) path -> match q with Some q => query_ok q | None => True end ->
  dial (located sch (ruser_text u ++ 91 :: a) path q) proto reach guid werr s = ([], s, None).
Proof.
  intros S U A N0 N37 I K C Q. destruct (parse_host (91 :: a)) as [v|] eqn:P; [|apply (bad_authority sch u who); try assumption; intros [X|X]; [discriminate|contradiction]].
  assert (N : ~ In 64 (91 :: a)) by (intros [X|X]; [discriminate|contradiction]).
  assert (M37 : ~ In 37 (91 :: a)) by (intros [X|X]; [discriminate|contradiction]).
  assert (UH : v = 91 :: a).
  { unfold parse_host in P. assert (HP : has_prefix (bs "[") (91 :: a) = true) by (apply (has_prefix_app (bs "["))). rewrite HP in P.
    destruct (cut_last 93 (91 :: a)) as [[b port]|] eqn:CL; [|discriminate P]. destruct (negb (valid_port port)); [discriminate P|].
    apply cut_last_some in CL. rewrite no_zone in P; [eapply unescape_same; [exact M37|exact P]|].
    intros X. apply M37. rewrite CL. apply in_or_app. now left. }
  subst v.
  assert (PA : forall x y, parse_authority (ruser_text u ++ 91 :: a) = Some (x, y) -> y = 91 :: a).
  { intros x y. unfold parse_authority. assert (CL : cut_last 64 (ruser_text u ++ 91 :: a) = match u with NoUser => None | User n => Some (n, 91 :: a) | UserPass n p => Some (n ++ 58 :: p, 91 :: a) end).
    { destruct u as [|n|n p]; cbn [ruser_text].
      - apply cut_last_none. exact N.
      - rewrite <- app_assoc. apply (cut_last_app 64 n (91 :: a) N).
      - replace ((n ++ bs ":" ++ p ++ bs "@") ++ 91 :: a) with ((n ++ 58 :: p) ++ 64 :: 91 :: a) by (cbn [app bs]; rewrite <- !app_assoc; cbn [app]; rewrite <- !app_assoc; reflexivity). apply cut_last_app. exact N. }
    rewrite CL. destruct u as [|n|n p]; cbn [ruser_text app]; rewrite P.
    - intros E. injection E as _ <-. reflexivity.
    - destruct (negb (valid_userinfo n)); [discriminate|]. destruct (cut 58 n) as [[b c]|]; repeat match goal with |- context [unescape InUser ?w] => destruct (unescape InUser w) end; intros E; try discriminate E; injection E as _ <-; reflexivity.
    - destruct (negb (valid_userinfo (n ++ 58 :: p))); [discriminate|]. destruct (cut 58 (n ++ 58 :: p)) as [[b c]|]; repeat match goal with |- context [unescape InUser ?w] => destruct (unescape InUser w) end; intros E; try discriminate E; injection E as _ <-; reflexivity. }
  unfold dial. rewrite parse_gen; [|exact S|apply Forall_app; split; [eapply ruser_auth; exact U|exact A]|exact K|exact C|exact Q].
  destruct (parse_authority (ruser_text u ++ 91 :: a)) as [[x y]|]; [|reflexivity]. specialize (PA x y eq_refl). subst y. destruct (set_encoded InPath path) as [[d r]|]; [|reflexivity].
  unfold dial_host. cbn [u_host]. pose proof (split_inner a [] I) as S0. rewrite app_nil_r in S0. rewrite S0. change ((91 :: a) ++ bs ":554") with (91 :: a ++ bs ":554"). rewrite (split_inner a (bs ":554") I). reflexivity.
Qed.
