(* Lemmas on the UDP listeners. *)
From Verif Require Import Base M_udp S_udp L_base.
From Coq Require Import ZifyBool ZifyNat Permutation.

Lemma upd_split {A} (l : list A) : forall i x, nth_error l i = Some x ->
  exists a b, l = a ++ x :: b /\ length a = i /\ forall y, upd l i y = a ++ y :: b.
Proof.
  induction l as [|z l IH]; intros [|i] x E; cbn in E; try discriminate.
  - injection E as ->. exists [], l. splits; reflexivity.
  - destruct (IH _ _ E) as (a & b & -> & <- & H). exists (z :: a), b. splits; [reflexivity|reflexivity|]. intros y. cbn. rewrite H. reflexivity.
Qed.

Definition busy (r : reader) : bool := match r with Reading | Sending _ => true | _ => false end.
Definition busyn (l : listener) : nat := length (filter busy (l_readers l)).
Definition busyall (ls : list listener) : nat := list_sum (map busyn ls).

Lemma busyall_upd ls i l l' : nth_error ls i = Some l -> (busyall (upd ls i l') + busyn l = busyall ls + busyn l')%nat.
Proof.
  intros E. destruct (upd_split ls i l E) as (a & b & -> & _ & H). rewrite H. unfold busyall. rewrite !map_app, !list_sum_app. cbn [map list_sum fold_right]. lia.
Qed.
Lemma busyn_upd l j r r' : nth_error (l_readers l) j = Some r ->
  (busyn (put_reader l j r') + (if busy r then 1 else 0) = busyn l + (if busy r' then 1 else 0))%nat.
Proof.
  intros E. destruct (upd_split _ j r E) as (a & b & H1 & _ & H). unfold busyn, put_reader. cbn [l_readers]. rewrite H, H1, !filter_app. cbn [filter]. rewrite !app_length.
  destruct (busy r), (busy r'); cbn [length]; lia.
Qed.
Lemma start_busy is : forall ls, busyall (fold_left start_one is ls) = busyall ls.
Proof.
  induction is as [|i is IH]; intros ls; [reflexivity|]. cbn [fold_left]. rewrite IH. unfold start_one. destruct (nth_error ls i) as [l|] eqn:E; [|reflexivity].
  pose proof (busyall_upd ls i l (mkL (l_ch l) (l_socket l) (l_open l) (l_readers l ++ [Waiting])) E) as B.
  assert (busyn (mkL (l_ch l) (l_socket l) (l_open l) (l_readers l ++ [Waiting])) = busyn l) as Q; [|lia].
  unfold busyn. cbn [l_readers]. rewrite filter_app. cbn. rewrite app_nil_r. reflexivity.
Qed.

Ltac enabled H := repeat match type of H with
  | match ?x with _ => _ end = Some _ => let E := fresh "E" in destruct x eqn:E; try discriminate H
  | (if ?x then _ else _) = Some _ => let E := fresh "E" in destruct x eqn:E; try discriminate H
  end; try (injection H as <-).

Lemma step_told u e u' : ustep u e = Some u' ->
  (length (delivered u') + busyall (u_all u') <= length (delivered u) + busyall (u_all u) + told [e])%nat.
Proof.
  intros H. destruct e; cbn [ustep] in H; enabled H; unfold delivered, told; cbn [put_all u_taken u_data u_all filter length app]; rewrite ?app_length; cbn [length].
  - unfold busyall. rewrite map_app, list_sum_app. cbn. lia.
  - rewrite start_busy. lia.
  - lia.
  - pose proof (busyall_upd (u_all u) _ _ (put_reader l1 j Reading) E1). pose proof (busyn_upd l1 j _ Reading E2). cbn [busy] in *. lia.
  - lia.
  - pose proof (busyall_upd (u_all u) _ _ (mkL (l_ch l) (l_socket l ++ [p]) true (l_readers l)) E). unfold busyn in *. cbn [l_readers] in *. lia.
  - pose proof (busyall_upd (u_all u) _ _ (put_reader (mkL (l_ch l) l0 true (l_readers l)) j (Sending (into_buffer b))) E).
    pose proof (busyn_upd (mkL (l_ch l) l0 true (l_readers l)) j Reading (Sending (into_buffer b)) E0). change (busyn (mkL (l_ch l) l0 true (l_readers l))) with (busyn l) in *. cbn [busy] in *. lia.
  - pose proof (busyall_upd (u_all u) _ _ (put_reader l j Waiting) E). pose proof (busyn_upd l j Reading Waiting E0). cbn [busy] in *. lia.
  - pose proof (busyall_upd (u_all u) _ _ (put_reader (mkL (l_ch l) (l_socket l) false (l_readers l)) j Gone) E).
    pose proof (busyn_upd (mkL (l_ch l) (l_socket l) false (l_readers l)) j Reading Gone E0). change (busyn (mkL (l_ch l) (l_socket l) false (l_readers l))) with (busyn l) in *. cbn [busy] in *. lia.
  - pose proof (busyall_upd (u_all u) _ _ (put_reader l j Waiting) E). pose proof (busyn_upd l j _ Waiting E0). cbn [busy] in *. lia.
  - rewrite E. cbn [length]. lia.
Qed.
Lemma run_told es : forall u u', urun u es = Some u' ->
  (length (delivered u') + busyall (u_all u') <= length (delivered u) + busyall (u_all u) + told es)%nat.
Proof.
  induction es as [|e es IH]; intros u u' H; cbn [urun] in H; [injection H as <-; lia|]. destruct (ustep u e) as [u1|] eqn:E; [|discriminate].
  apply IH in H. apply step_told in E. change (told (e :: es)) with (told ([e] ++ es)). unfold told in *. rewrite filter_app, app_length. lia.
Qed.

(* without a Stop nobody is told *)
Lemma no_stop_untold es : forall u u', urun u es = Some u' -> u_stop u = None -> existsb is_stop es = false -> told es = 0%nat /\ u_stop u' = None.
Proof.
  induction es as [|e es IH]; intros u u' H S X; cbn [urun] in H; [injection H as <-; auto|]. destruct (ustep u e) as [u1|] eqn:E; [|discriminate].
  cbn [existsb] in X. apply Bool.orb_false_iff in X as [X1 X2].
  assert (u_stop u1 = None /\ told [e] = 0%nat) as [S1 T1].
  { destruct e; cbn [ustep] in E; try discriminate X1; rewrite ?S in E; try discriminate E; enabled E; (split; [first [exact S|reflexivity]|reflexivity]). }
  destruct (IH _ _ H S1 X2) as [T2 S2]. split; [|exact S2]. change (told (e :: es)) with (told ([e] ++ es)). unfold told in *. rewrite filter_app, app_length. lia.
Qed.

(* ---- closing ---- *)
Lemma forall_upd {A} (P : A -> Prop) l i x : Forall P l -> P x -> Forall P (upd l i x).
Proof. revert i. induction l as [|y l IH]; intros [|i] F H; cbn [upd]; auto; inversion F; subst; constructor; auto. Qed.
Lemma start_open is : forall ls, Forall (fun l => l_open l = true) ls -> Forall (fun l => l_open l = true) (fold_left start_one is ls).
Proof.
  induction is as [|i is IH]; intros ls F; [exact F|]. cbn [fold_left]. apply IH. unfold start_one. destruct (nth_error ls i) as [l|] eqn:E; [|exact F].
  apply forall_upd; [exact F|]. cbn. rewrite Forall_forall in F. apply F. eapply nth_error_In, E.
Qed.
Lemma run_open es : forall u u', urun u es = Some u' -> existsb is_failure es = false ->
  Forall (fun l => l_open l = true) (u_all u) -> Forall (fun l => l_open l = true) (u_all u').
Proof.
  induction es as [|e es IH]; intros u u' H X F; cbn [urun] in H; [injection H as <-; exact F|]. destruct (ustep u e) as [u1|] eqn:E; [|discriminate].
  cbn [existsb] in X. apply Bool.orb_false_iff in X as [X1 X2]. apply (IH _ _ H X2). clear IH H.
  assert (G : forall i l, nth_error (u_all u) i = Some l -> l_open l = true) by (intros i l N; rewrite Forall_forall in F; apply F; eapply nth_error_In, N).
  destruct e; cbn [ustep] in E; try discriminate X1; enabled E; cbn [put_all u_all]; try exact F; try (apply forall_upd; [exact F|]); try reflexivity; try (cbn; eauto; fail).
  - apply Forall_app. split; [exact F|]. repeat constructor.
  - apply start_open. exact F.
Qed.

(* ---- a Stop before Start ---- *)
Lemma run_stuck es : forall u u' i rest l, urun u es = Some u' -> existsb is_start es = false -> u_stop u = Some (i :: rest) ->
  nth_error (u_all u) i = Some l -> l_readers l = [] ->
  u_stop u' = Some (i :: rest) /\ exists l', nth_error (u_all u') i = Some l' /\ l_readers l' = [].
Proof.
  induction es as [|e es IH]; intros u u' i rest l H X S N R; cbn [urun] in H; [injection H as <-; eauto|]. destruct (ustep u e) as [u1|] eqn:E; [|discriminate].
  cbn [existsb] in X. apply Bool.orb_false_iff in X as [X1 X2].
  assert (G : u_stop u1 = Some (i :: rest) /\ exists l', nth_error (u_all u1) i = Some l' /\ l_readers l' = []).
  { assert (O : forall k l1 l2, nth_error (u_all u) k = Some l1 -> l_readers l2 = [] \/ k <> i -> exists l', nth_error (upd (u_all u) k l2) i = Some l' /\ l_readers l' = []).
    { intros k l1 l2 K [Z|Z].
      - destruct (Nat.eq_dec k i) as [->|D]; [|rewrite upd_nth_other by exact D; eauto]. rewrite upd_nth_same; [eauto|]. apply nth_error_Some. congruence.
      - rewrite upd_nth_other by exact Z. eauto. }
    assert (Q : forall k l1 j r, nth_error (u_all u) k = Some l1 -> nth_error (l_readers l1) j = Some r -> k <> i).
    { intros k l1 j r K J ->. rewrite N in K. injection K as <-. rewrite R in J. destruct j; discriminate. }
    destruct e; cbn [ustep] in E; try discriminate X1; rewrite ?S in E; try discriminate E.
    - enabled E. cbn [u_stop u_all]. split; [first [exact S|reflexivity]|]. exists l. split; [rewrite nth_error_app1; [exact N|apply nth_error_Some; congruence]|exact R].
    - rewrite N in E. rewrite R in E. destruct j; discriminate E.
    - enabled E. cbn [put_all u_stop u_all]. split; [first [exact S|reflexivity]|]. destruct (Nat.eq_dec i0 i) as [->|D].
      + eapply O; [exact E0|]. left. cbn. congruence.
      + eapply O; eauto.
    - enabled E; cbn [put_all u_stop u_all]; (split; [first [exact S|reflexivity]|]); eapply O; eauto.
    - enabled E; cbn [put_all u_stop u_all]; (split; [first [exact S|reflexivity]|]); eapply O; eauto.
    - enabled E; cbn [put_all u_stop u_all]; (split; [first [exact S|reflexivity]|]); eapply O; eauto.
    - enabled E; cbn [put_all u_stop u_all]; (split; [first [exact S|reflexivity]|]); eauto. }
  destruct G as (S1 & l1 & N1 & R1). eapply IH; eauto.
Qed.

(* ---- accounting ---- *)
Definition heldall (ls : list listener) : list (Z * bytes) := flat_map held ls.
Lemma heldall_upd ls i l l' x y : nth_error ls i = Some l -> Permutation (x ++ held l') (y ++ held l) -> Permutation (x ++ heldall (upd ls i l')) (y ++ heldall ls).
Proof.
  intros E P. destruct (upd_split ls i l E) as (a & b & -> & _ & H). rewrite H. unfold heldall. rewrite !flat_map_app. cbn [flat_map].
  rewrite (Permutation_app_swap_app x), (Permutation_app_swap_app y). apply Permutation_app_head. rewrite !app_assoc. apply Permutation_app_tail. exact P.
Qed.
Lemma start_held is : forall ls, heldall (fold_left start_one is ls) = heldall ls /\ map l_ch (fold_left start_one is ls) = map l_ch ls.
Proof.
  induction is as [|i is IH]; intros ls; [auto|]. cbn [fold_left]. destruct (IH (start_one ls i)) as [-> ->]. unfold start_one. destruct (nth_error ls i) as [l|] eqn:E; [|auto].
  destruct (upd_split ls i l E) as (a & b & -> & _ & H). rewrite H. unfold heldall. rewrite !flat_map_app, !map_app. cbn [flat_map map l_ch]. split; [|reflexivity].
  do 2 f_equal. unfold held, in_hand. cbn [l_ch l_socket l_readers]. rewrite flat_map_app. cbn. rewrite app_nil_r. reflexivity.
Qed.
Lemma upd_ch ls i l l' : nth_error ls i = Some l -> l_ch l' = l_ch l -> map l_ch (upd ls i l') = map l_ch ls.
Proof. intros E H. destruct (upd_split ls i l E) as (a & b & -> & _ & U). rewrite U, !map_app. cbn [map]. congruence. Qed.
Lemma step_channels u e u' : ustep u e = Some u' -> map l_ch (u_all u') = map l_ch (u_all u) ++ channels [e].
Proof.
  intros H. destruct e; cbn [ustep] in H; enabled H; cbn [put_all u_all channels flat_map app]; rewrite ?app_nil_r; try reflexivity; try (eapply upd_ch; [eassumption|reflexivity]).
  - rewrite map_app. reflexivity.
  - apply start_held.
Qed.
Lemma run_channels es : forall u u', urun u es = Some u' -> map l_ch (u_all u') = map l_ch (u_all u) ++ channels es.
Proof.
  induction es as [|e es IH]; intros u u' H; cbn [urun] in H; [injection H as <-; rewrite app_nil_r; reflexivity|]. destruct (ustep u e) as [u1|] eqn:E; [|discriminate].
  rewrite (IH _ _ H), (step_channels _ _ _ E), <- app_assoc. change (channels (e :: es)) with (channels ([e] ++ es)). unfold channels. rewrite flat_map_app. reflexivity.
Qed.

Lemma in_hand_upd l j r r' : nth_error (l_readers l) j = Some r ->
  Permutation (in_hand (mkL 0 [] false [r]) ++ in_hand (put_reader l j r')) (in_hand (mkL 0 [] false [r']) ++ in_hand l).
Proof.
  intros E. destruct (upd_split _ j r E) as (a & b & H1 & _ & H). unfold in_hand, put_reader. cbn [l_readers]. rewrite H, H1, !flat_map_app. cbn [flat_map]. rewrite !app_nil_r.
  destruct r, r'; cbn [app]; try reflexivity.
  all: try apply Permutation_middle; try (symmetry; apply Permutation_middle).
  rewrite <- (Permutation_middle _ _ p0). rewrite <- (Permutation_middle _ _ p). apply perm_swap.
Qed.

Lemma step_account C u e u' : ustep u e = Some u' -> (exists t, C = map l_ch (u_all u) ++ t) ->
  Permutation (delivered u' ++ heldall (u_all u')) (delivered u ++ offered C [e] ++ heldall (u_all u)).
Proof.
  intros H (t & PC). unfold delivered. destruct e; cbn [ustep] in H; enabled H; cbn [put_all u_taken u_data u_all offered flat_map app].
  - unfold heldall. rewrite flat_map_app. cbn. rewrite app_nil_r. reflexivity.
  - destruct (start_held (u_sinks u) (u_all u)) as [-> _]. reflexivity.
  - reflexivity.
  - apply heldall_upd with (l := l1); [exact E1|]. apply Permutation_app_head. unfold held. cbn [put_reader l_ch l_socket]. apply Permutation_map, Permutation_app_tail.
    apply (in_hand_upd l1 j Waiting Reading E2).
  - reflexivity.
  - change ((nth i C 0, first_2048 p) :: heldall (u_all u)) with ([(nth i C 0, first_2048 p)] ++ heldall (u_all u)).
    rewrite (app_assoc (u_taken u ++ u_data u)). apply heldall_upd with (l := l); [exact E|]. rewrite <- (app_assoc (u_taken u ++ u_data u) [_]). apply Permutation_app_head. unfold held. cbn [l_ch l_socket].
    replace (nth i C 0) with (l_ch l).
    2: { subst C. rewrite app_nth1 by (rewrite map_length; apply nth_error_Some; congruence). symmetry. apply nth_error_nth. rewrite nth_error_map, E. reflexivity. }
    change ([(l_ch l, first_2048 p)]) with (map (pair (l_ch l)) [first_2048 p]). rewrite <- map_app. apply Permutation_map.
    unfold in_hand. cbn [l_readers]. rewrite map_app, app_assoc. cbn [map]. symmetry. apply Permutation_cons_append.
  - apply heldall_upd with (l := l); [exact E|]. apply Permutation_app_head. unfold held. rewrite E2. cbn [put_reader l_ch l_socket map]. apply Permutation_map.
    pose proof (in_hand_upd (mkL (l_ch l) l0 true (l_readers l)) j Reading (Sending (into_buffer b)) E0) as P. cbn [in_hand l_readers flat_map app] in P.
    change (in_hand (mkL (l_ch l) l0 true (upd (l_readers l) j (Sending (into_buffer b))))) with (flat_map (fun r => match r with Sending p => [p] | _ => [] end) (l_readers (put_reader (mkL (l_ch l) l0 true (l_readers l)) j (Sending (into_buffer b))))).
    rewrite P. change (into_buffer b) with (first_2048 b). cbn [app]. apply Permutation_middle.
  - apply heldall_upd with (l := l); [exact E|]. apply Permutation_app_head. unfold held. cbn [put_reader l_ch l_socket]. apply Permutation_map, Permutation_app_tail.
    apply (in_hand_upd l j Reading Waiting E0).
  - apply heldall_upd with (l := l); [exact E|]. apply Permutation_app_head. unfold held. cbn [put_reader l_ch l_socket]. apply Permutation_map, Permutation_app_tail.
    apply (in_hand_upd (mkL (l_ch l) (l_socket l) false (l_readers l)) j Reading Gone E0).
  - apply heldall_upd with (l := l); [exact E|]. rewrite <- !app_assoc. do 2 apply Permutation_app_head. unfold held. cbn [put_reader l_ch l_socket].
    change ([(l_ch l, p)]) with (map (pair (l_ch l)) [p]). rewrite <- map_app. apply Permutation_map. rewrite app_assoc. apply Permutation_app_tail.
    apply (in_hand_upd l j (Sending p) Waiting E0).
  - rewrite <- !app_assoc. reflexivity.
Qed.
Lemma run_account es : forall C u u', urun u es = Some u' -> (exists t, C = map l_ch (u_all u') ++ t) ->
  Permutation (delivered u' ++ heldall (u_all u')) (delivered u ++ offered C es ++ heldall (u_all u)).
Proof.
  induction es as [|e es IH]; intros C u u' H (t & P); cbn [urun] in H; [injection H as <-; reflexivity|]. destruct (ustep u e) as [u1|] eqn:E; [|discriminate].
  rewrite (IH C u1 u' H) by eauto. pose proof (run_channels _ _ _ H) as R. pose proof (step_channels _ _ _ E) as R1.
  change (offered C (e :: es)) with (offered C ([e] ++ es)). unfold offered at 2. rewrite flat_map_app. fold (offered C es). fold (offered C [e]).
  rewrite Permutation_app_swap_app, (step_account C u e u1 E) by (exists (channels [e] ++ channels es ++ t); rewrite P, R, R1, <- !app_assoc; reflexivity).
  rewrite Permutation_app_swap_app, <- app_assoc. apply Permutation_app_head. apply Permutation_app_swap_app.
Qed.

(* ---- a listener is told once ---- *)
Definition untold (u : udp) : nat := length (match u_stop u with None => u_sinks u | Some rest => rest end).
Lemma upd_length {A} (l : list A) : forall i x, length (upd l i x) = length l.
Proof. induction l as [|y l IH]; intros [|i] x; cbn [upd length]; auto. Qed.
Lemma start_length is : forall ls, length (fold_left start_one is ls) = length ls.
Proof. induction is as [|i is IH]; intros ls; [reflexivity|]. cbn [fold_left]. rewrite IH. unfold start_one. destruct (nth_error ls i); [apply upd_length|reflexivity]. Qed.
Lemma step_once u e u' : ustep u e = Some u' -> (told [e] + untold u' + length (u_all u) <= untold u + length (u_all u'))%nat.
Proof.
  intros E. unfold untold, told. destruct e; cbn [ustep] in E; cbn [filter length].
  - injection E as <-. cbn [u_all u_sinks u_stop]. rewrite app_length. cbn [length]. destruct (u_stop u); rewrite ?app_length; cbn [length]; lia.
  - injection E as <-. cbn [u_all u_sinks u_stop]. rewrite start_length. lia.
  - destruct (u_stop u); [discriminate|]. injection E as <-. cbn [u_all u_sinks u_stop]. lia.
  - destruct (u_stop u) as [[|i rest]|]; try discriminate. destruct (nth_error (u_all u) i) as [l|]; [|discriminate]. destruct (nth_error (l_readers l) j) as [[]|]; try discriminate.
    injection E as <-. cbn [u_all u_sinks u_stop length]. rewrite upd_length. lia.
  - destruct (u_stop u) as [[|]|]; try discriminate. injection E as <-. cbn [u_all u_sinks u_stop length]. lia.
  - destruct (nth_error (u_all u) i) as [l|]; [|discriminate]. destruct (l_open l); [|discriminate]. injection E as <-. cbn [put_all u_all u_sinks u_stop]. rewrite upd_length. lia.
  - destruct (nth_error (u_all u) i) as [l|]; [|discriminate]. destruct (nth_error (l_readers l) j) as [[]|]; try discriminate. destruct (l_socket l); [discriminate|]. destruct (l_open l); [|discriminate].
    injection E as <-. cbn [put_all u_all u_sinks u_stop]. rewrite upd_length. lia.
  - destruct (nth_error (u_all u) i) as [l|]; [|discriminate]. destruct (nth_error (l_readers l) j) as [[]|]; try discriminate. destruct temp; [destruct (l_open l); [|discriminate]|];
    injection E as <-; cbn [put_all u_all u_sinks u_stop]; rewrite upd_length; lia.
  - destruct (nth_error (u_all u) i) as [l|]; [|discriminate]. destruct (nth_error (l_readers l) j) as [[]|]; try discriminate. destruct (zlen (u_data u) <? 20); [|discriminate].
    injection E as <-. cbn [u_all u_sinks u_stop]. rewrite upd_length. lia.
  - destruct (u_data u); [discriminate|]. injection E as <-. cbn [u_all u_sinks u_stop]. lia.
Qed.
Lemma run_once es : forall u u', urun u es = Some u' -> (told es + untold u' + length (u_all u) <= untold u + length (u_all u'))%nat.
Proof.
  induction es as [|e es IH]; intros u u' H; cbn [urun] in H; [injection H as <-; cbn; lia|]. destruct (ustep u e) as [u1|] eqn:E; [|discriminate].
  apply IH in H. apply step_once in E. change (told (e :: es)) with (told ([e] ++ es)). unfold told in *. rewrite filter_app, app_length. lia.
Qed.
