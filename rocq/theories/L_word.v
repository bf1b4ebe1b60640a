(* Lemmas: which words are taken for the status of an HTTP response. *)
From Coq Require Import String.
From Verif Require Import Base GoStrings M_conn M_message S_message L_base L_strings L_digest L_message.
From Coq Require Import ZifyBool ZifyNat.

Lemma trim_front w r : w <> [] -> Forall (fun c => 33 <= c <= 126) w -> exists r', trim_space (w ++ r) = w ++ r' /\ exists p, r = r' ++ p.
Proof.
  intros N F. destruct w as [|a w]; [congruence|]. apply Forall_cons_iff in F as [A F]. destruct (list_last_dec w) as [->|(m & z & ->)].
  - unfold trim_space. cbn [app]. rewrite trim_left_ink by exact A. cbn [rev].
    destruct (trim_rev_app_ink (rev r) a [] A) as (s' & E & p & Ep). rewrite E. exists (rev s'). split.
    + rewrite rev_app_distr. reflexivity.
    + exists (rev p). rewrite <- rev_app_distr, <- Ep, rev_involutive. reflexivity.
  - apply Forall_app in F as [_ F]. apply Forall_cons_iff in F as [Z0 _]. destruct (trim_space_front a m z r A Z0) as (r' & E & p & Ep).
    exists r'. split; [|exists p; exact Ep]. cbn [app]. rewrite <- !app_assoc. exact E.
Qed.

Lemma status_word proto st reason : ~ In 32 proto -> st <> [] -> Forall (fun c => 33 <= c <= 126) st ->
  status_line proto (proto ++ 32 :: st ++ 32 :: reason ++ [13; 10]) =
  (if negb (zlen st =? 3) then Err ErrInvalidStatus
   else match atoi st with (n, None) => if n <? 0 then Err ErrInvalidStatus else Ok (trim_space (st ++ 32 :: reason), n) | (_, Some _) => Err ErrInvalidStatus end).
Proof.
  intros N E F. unfold status_line. rewrite cut_app by exact N. rewrite beq_refl. cbn [negb].
  replace (st ++ 32 :: reason ++ [13; 10]) with ((st ++ 32 :: reason) ++ [13; 10]) by (rewrite <- app_assoc; reflexivity).
  rewrite trim_right_crlf. cbv zeta. destruct (trim_front st (32 :: reason) E F) as (r' & -> & p & Ep).
  assert (B : ~ In 32 st) by (intros I; rewrite Forall_forall in F; apply F in I; lia).
  assert (X : match cut 32 (st ++ r') with Some (x, _) => x | None => st ++ r' end = st).
  { destruct r' as [|x r'].
    - rewrite app_nil_r, cut_none by exact B. reflexivity.
    - assert (x = 32) by (cbn [app] in Ep; congruence). subst x. rewrite cut_app by exact B. reflexivity. }
  rewrite X. reflexivity.
Qed.

Definition digit (c : Z) : Prop := 48 <= c <= 57.
Lemma atoi_three a b c : 33 <= a <= 126 -> 33 <= b <= 126 -> 33 <= c <= 126 ->
  (exists n, atoi [a; b; c] = (n, None) /\ 0 <= n) <-> ((digit a /\ digit b /\ digit c) \/ (a = 43 /\ digit b /\ digit c) \/ (a = 45 /\ b = 48 /\ c = 48)).
Proof.
  intros A B C. unfold atoi, digit. destruct (a =? 45) eqn:E1; [|destruct (a =? 43) eqn:E2]; cbn [parse_uint parse_digits]; unfold is_digit.
  - destruct ((48 <=? b) && (b <=? 57)) eqn:Eb; [|split; [intros (n & X & _); discriminate X|lia]].
    destruct (0 * 10 + (b - 48) >? 2 ^ 64 - 1) eqn:?; [lia|].
    destruct ((48 <=? c) && (c <=? 57)) eqn:Ec; [|split; [intros (n & X & _); discriminate X|lia]].
    destruct ((0 * 10 + (b - 48)) * 10 + (c - 48) >? 2 ^ 64 - 1) eqn:?; [lia|].
    match goal with |- context [?x >? 2 ^ 63] => destruct (x >? 2 ^ 63) eqn:?; [lia|] end.
    split; [intros (n & X & Y); injection X as <-; lia|]. intros H. eexists. split; [reflexivity|lia].
  - destruct ((48 <=? b) && (b <=? 57)) eqn:Eb; [|split; [intros (n & X & _); discriminate X|lia]].
    destruct (0 * 10 + (b - 48) >? 2 ^ 64 - 1) eqn:?; [lia|].
    destruct ((48 <=? c) && (c <=? 57)) eqn:Ec; [|split; [intros (n & X & _); discriminate X|lia]].
    destruct ((0 * 10 + (b - 48)) * 10 + (c - 48) >? 2 ^ 64 - 1) eqn:?; [lia|].
    match goal with |- context [?x >=? 2 ^ 63] => destruct (x >=? 2 ^ 63) eqn:?; [lia|] end.
    split; [lia|]. intros H. eexists. split; [reflexivity|lia].
  - destruct ((48 <=? a) && (a <=? 57)) eqn:Ea; [|split; [intros (n & X & _); discriminate X|lia]].
    destruct (0 * 10 + (a - 48) >? 2 ^ 64 - 1) eqn:?; [lia|].
    destruct ((48 <=? b) && (b <=? 57)) eqn:Eb; [|split; [intros (n & X & _); discriminate X|lia]].
    destruct ((0 * 10 + (a - 48)) * 10 + (b - 48) >? 2 ^ 64 - 1) eqn:?; [lia|].
    destruct ((48 <=? c) && (c <=? 57)) eqn:Ec; [|split; [intros (n & X & _); discriminate X|lia]].
    match goal with |- context [?x >? 2 ^ 64 - 1] => destruct (x >? 2 ^ 64 - 1) eqn:?; [lia|] end.
    match goal with |- context [?x >=? 2 ^ 63] => destruct (x >=? 2 ^ 63) eqn:?; [lia|] end.
    split; [lia|]. intros H. eexists. split; [reflexivity|lia].
Qed.

Lemma word_line proto st reason s : ~ In 10 proto -> Forall (fun c => 33 <= c <= 126) st -> line_text reason ->
  read_line (sent (proto ++ 32 :: st ++ 32 :: reason ++ [13; 10]) ++ s) = (s, Ok (proto ++ 32 :: st ++ 32 :: reason ++ [13; 10])).
Proof.
  intros P F [_ R]. replace (proto ++ 32 :: st ++ 32 :: reason ++ [13; 10]) with ((proto ++ 32 :: st ++ 32 :: reason ++ [13]) ++ [10])
    by (rewrite <- app_assoc; cbn [app]; rewrite <- app_assoc; cbn [app]; rewrite <- app_assoc; reflexivity).
  apply read_line_sent. intros I. apply in_app_or in I as [I|I]; [contradiction|]. destruct I as [I|I]; [lia|].
  apply in_app_or in I as [I|I]; [rewrite Forall_forall in F; apply F in I; lia|]. destruct I as [I|I]; [lia|].
  apply in_app_or in I as [I|[I|[]]]; [contradiction|lia].
Qed.

(* exactly which words *)
Lemma http_word st reason fs rest : st <> [] -> Forall (fun c => 33 <= c <= 126) st -> line_text reason -> Forall sfield_ok fs ->
  (receive_http (map Some (bs "HTTP/1.0 " ++ st ++ 32 :: reason ++ [13; 10] ++ flat_map sfield_text fs ++ [13; 10]) ++ rest) = (rest, Ok tt) <->
   exists a b c, st = [a; b; c] /\ ((digit a /\ digit b /\ digit c) \/ (a = 43 /\ digit b /\ digit c) \/ (a = 45 /\ b = 48 /\ c = 48))).
Proof.
  intros E F R FS.
  replace (map Some (bs "HTTP/1.0 " ++ st ++ 32 :: reason ++ [13; 10] ++ flat_map sfield_text fs ++ [13; 10]) ++ rest)
    with (sent (bs "HTTP/1.0" ++ 32 :: st ++ 32 :: reason ++ [13; 10]) ++ (sent (flat_map sfield_text fs ++ [13; 10]) ++ rest)).
  2: { change (bs "HTTP/1.0 ") with (bs "HTTP/1.0" ++ [32]). generalize (bs "HTTP/1.0"); intros pr. unfold sent. rewrite app_assoc, <- map_app. f_equal. f_equal.
       repeat (rewrite <- !app_assoc; cbn [app]). reflexivity. }
  unfold receive_http. rewrite word_line; [|vm_compute; intuition discriminate|exact F|exact R].
  rewrite status_word; [|vm_compute; intuition discriminate|exact E|exact F].
  destruct st as [|a [|b [|c [|d st]]]]; try congruence; [| |
    |replace (zlen (a :: b :: c :: d :: st) =? 3) with false by (rewrite !zlen_cons; pose proof (zlen_nonneg st); lia); cbn [negb]; split; [intros X; inversion X|intros (x & y & z & X & _); discriminate X]].
  - cbn [zlen length Z.of_nat]. change (zlen [a] =? 3) with false. cbn [negb]. split; [intros X; inversion X|intros (x & y & z & X & _); discriminate X].
  - change (zlen [a; b] =? 3) with false. cbn [negb]. split; [intros X; inversion X|intros (x & y & z & X & _); discriminate X].
  - change (zlen [a; b; c] =? 3) with true. cbn [negb].
    apply Forall_cons_iff in F as [A F]. apply Forall_cons_iff in F as [B F]. apply Forall_cons_iff in F as [C _].
    pose proof (atoi_three a b c A B C) as T. split.
    + intros X. exists a, b, c. split; [reflexivity|]. apply T. destruct (atoi [a; b; c]) as [n [e|]]; [inversion X|]. destruct (n <? 0) eqn:Q; [inversion X|]. exists n. split; [reflexivity|lia].
    + intros (x & y & z & X & D). injection X as <- <- <-. apply T in D as (n & -> & Q). destruct (n <? 0) eqn:?; [lia|].
      apply http_lines_ok; [exact FS|]. unfold sent. rewrite app_length, map_length, app_length. pose proof (fields_length fs). lia.
Qed.
