(* Lemmas: the session PLAY names. *)
From Coq Require Import String Permutation.
From Verif Require Import Base GoStrings M_conn M_message M_transport M_sdp M_session S_session S_message S_handshake S_onesession
  L_base L_strings L_message L_handshake P_handshake.
From Coq Require Import ZifyBool ZifyNat.

Lemma last_session ropt rdesc rsets : rsets <> [] -> Forall (fun r => field_of_item r (bs "Session") <> []) rsets ->
  exists a r, rsets = a ++ [r] /\ fold_left next_id (ropt :: rdesc :: rsets) [] = session_of r.
Proof.
  intros N F. destruct (exists_last N) as (a & r & ->). exists a, r. split; [reflexivity|].
  change (ropt :: rdesc :: a ++ [r]) with ((ropt :: rdesc :: a) ++ [r]). rewrite fold_left_app. cbn [fold_left]. unfold next_id at 1.
  apply Forall_app in F as (_ & F). apply Forall_inv in F. unfold session_of. destruct (field_of_item r (bs "Session")); [contradiction|reflexivity].
Qed.
Lemma same_len {A B} (R : A -> B -> Prop) l l' : Forall2 R l l' -> length l = length l'.
Proof. induction 1; cbn [length]; congruence. Qed.
Lemma setups_len u i l : forall n, length (setups u i n l) = length l.
Proof. induction l as [|m l IH]; intros n; cbn [setups length]; [reflexivity|rewrite IH; reflexivity]. Qed.

Lemma play_session user uri rnd ms ropt rdesc rsets items clocks first rounds rest :
  opening_ok ms ropt rdesc rsets -> with_noise (ropt :: rdesc :: rsets) items -> Forall item_ok items -> length clocks = length items ->
  rounds_ok (3 + zlen ms) (first :: rounds) -> zlen (first :: rounds) < 2 ^ 62 -> r_order first = Play ->
  Forall (fun r => field_of_item r (bs "Session") <> []) rsets ->
  exists w' rq a r0, M_session.run (mkW (dialled ProtoTCP user uri) (flat_map item_stream (items ++ flat_map r_items (first :: rounds)) ++ rest) [] [] rnd [], Live)
                 ((App COptions :: turns_at clocks) ++ flat_map round_events (first :: rounds)) = (w', Live) /\
    nth_error (sent_requests (w_log w')) (2 + length ms) = Some rq /\ q_verb rq = bs "PLAY" /\
    rsets = a ++ [r0] /\ length rsets = length ms /\ q_session rq = session_of r0.
Proof.
  intros O W K L R B P F.
  destruct (C79_conversation user uri rnd ms ropt rdesc rsets items clocks (first :: rounds) rest O W K L R B) as (w' & E & _ & Q & _).
  assert (LR : length rsets = length ms).
  { destruct O as [_ _ _ _ _ _ (ns & PN & F2) _]. apply same_len in F2. apply Permutation_length in PN. rewrite map_length, seq_length in PN. lia. }
  assert (NE : rsets <> []) by (destruct O as [_ _ _ _ S0 _ _ _]; destruct rsets; [destruct ms; [contradiction|discriminate LR]|discriminate]).
  destruct (last_session ropt rdesc rsets NE F) as (a & r0 & ER & FL).
  exists w', (mkReq (order_verb (r_order first)) (3 + zlen ms) uri [] (session_of r0) []), a, r0. splits; [exact E| | |exact ER|exact LR|reflexivity].
  - rewrite Q, FL. cbn [round_requests]. rewrite nth_error_app2 by (unfold opening; cbn [length]; rewrite setups_len; lia).
    unfold opening. cbn [length]. rewrite setups_len. replace (2 + length ms - S (S (length ms)))%nat with 0%nat by lia. reflexivity.
  - rewrite P. reflexivity.
Qed.
Lemma nodup_last a r0 i r : NoDup (map session_of (a ++ [r0])) -> nth_error (a ++ [r0]) i = Some r ->
  (session_of r0 = session_of r <-> S i = length (a ++ [r0])).
Proof.
  intros N I. rewrite app_length. cbn [length].
  assert (IL : nth_error (map session_of (a ++ [r0])) i = Some (session_of r)) by (apply map_nth_error; exact I).
  assert (JL : nth_error (map session_of (a ++ [r0])) (length a) = Some (session_of r0)) by (apply map_nth_error; rewrite nth_error_app2 by lia; replace (length a - length a)%nat with 0%nat by lia; reflexivity).
  split.
  - intros X. rewrite NoDup_nth_error in N. assert (i = length a); [|lia]. apply N; [apply nth_error_Some; rewrite IL; discriminate|]. rewrite IL, JL, X. reflexivity.
  - intros X. assert (i = length a) by lia. subst i. rewrite IL in JL. injection JL as ->. reflexivity.
Qed.
