(* Lemmas: the standard output of the client, line by line. *)
From Coq Require Import String.
From Verif Require Import Base GoStrings M_rtp S_nal M_nal M_conn M_message M_transport M_session S_session M_main M_log S_record S_stdout M_stdout L_base L_strings L_frames L_main L_held L_record.
From Coq Require Import ZifyBool ZifyNat.

(* ---- entries end with a newline ---- *)
Definition ends (l : bytes) : Prop := last l 0 = 10.
Lemma entry_ends m : ends (entry m).
Proof. unfold ends. destruct (entry_text m) as [->|[_ H]]; [apply last_last|exact H]. Qed.
Lemma println_ends m : ends (println m).
Proof. apply entry_ends. Qed.
Lemma session_ends ord es : Forall ends (session_prints ord es).
Proof.
  unfold session_prints. induction es as [|e es IH]; [constructor|]. cbn [flat_map]. apply Forall_app. split; [|exact IH].
  destruct e; try constructor; try constructor; apply println_ends.
Qed.
Lemma must_ends ord txt w r : Forall ends (must_prints ord txt w r).
Proof.
  unfold must_prints. apply Forall_app. split; [apply session_ends|]. destruct (snd r); constructor; [apply entry_ends|constructor].
Qed.
Lemma receive_ends txt w : Forall ends (match receive w with (_, Err e) => if is_timeout e then [] else [println (txt e)] | _ => [] end).
Proof. destruct (receive w) as [w1 [u|e| |]]; try constructor. destruct (is_timeout e); constructor; [apply println_ends|constructor]. Qed.
Lemma yprints_ends ord txt y e : Forall ends (yprints ord txt y e).
Proof.
  destruct e as [t1 t2| | | |]; cbn [yprints].
  - apply Forall_app. split; [apply session_ends|]. unfold end_prints. cbv zeta.
    destruct (keepalive (y_w y) t1 t2) as [w1 [u|e| |]]; [apply receive_ends| |constructor|constructor]. destruct (s_stage (w_s w1) =? StageDone); [constructor|apply receive_ends].
  - destruct (y_stage y) as [n|]; [|constructor]. unfold stage_prints.
    destruct (n =? StageReady); [constructor; [apply println_ends|apply must_ends]|].
    destruct (n =? StagePlay); [constructor; [apply println_ends|constructor]|]. destruct (n =? StagePause); [constructor; [apply println_ends|constructor]|].
    destruct (n =? StageDone); constructor; try apply println_ends; try apply entry_ends; constructor.
  - destruct (y_data y) as [|[ch p] rest]; [constructor|]. unfold packet_prints. destruct (ch mod 2 =? 0).
    + destruct (rtp_unpack p) as [k|e| |]; [constructor; [apply entry_ends|]|constructor; [apply println_ends|constructor]|constructor|constructor].
      destruct (push (c_sink (y_c y)) (rtp_pl k) (rtp_ts k)) as [s [u|e| |]]; [|constructor; [apply println_ends|constructor]|constructor|constructor].
      rewrite Forall_map. apply Forall_forall. intros u0 _. apply entry_ends.
    + destruct (rtcp_unpack p) as [k|e| |]; [constructor; [apply entry_ends|constructor]|constructor; [apply println_ends|constructor]|constructor|constructor].
  - unfold tick_prints. constructor; [apply entry_ends|]. destruct (c_state (y_c y) =? StagePlay); [apply must_ends|].
    destruct (c_state (y_c y) =? StagePause); [constructor; [apply println_ends|apply must_ends]|constructor].
  - constructor.
Qed.
Lemma youtput_ends ord txt es : forall y, Forall (fun x => ends (snd x)) (youtput ord txt y es).
Proof.
  induction es as [|e es IH]; intros y; cbn [youtput]; [constructor|]. destruct (ystep y e) as [y1|]; [|constructor]. apply Forall_app. split; [|apply IH].
  rewrite Forall_map. cbn [snd]. apply yprints_ends.
Qed.

(* ---- listeners ---- *)
Lemma conn_held w verb uri hs : held w -> held (fst (with_conn w (fun s => command w verb (uri s) hs))).
Proof.
  intros H. destruct (with_conn w _) as [w' o] eqn:E. cbn [fst]. apply (with_conn_held _ _ _ _ H) in E; [exact E|]. intros _ w1 o1 E1. exact (command_held _ _ _ _ _ _ H E1).
Qed.
Lemma step_held y e y' : held (y_w y) -> ystep y e = Some y' -> held (y_w y').
Proof.
  intros H. unfold ystep. destruct (y_fate y); try discriminate. destruct e as [t1 t2| | | |].
  - destruct (y_loop y); try discriminate. destruct (y_stage y); try discriminate. destruct (zlen (y_data y) <=? 20); [|discriminate].
    destruct (turn (y_w y) t1 t2) as [w en] eqn:T. intros E. injection E as <-. exact (turn_held _ _ _ _ _ H T).
  - destruct (y_stage y) as [n|]; [|discriminate]. unfold on_stage. cbv zeta. destruct (n =? StageReady).
    + destruct (must (play (y_w y)) _) as [[w c] f] eqn:M. apply (f_equal (fun x => fst (fst x))) in M. rewrite must_world in M. cbn [fst] in M. intros E. injection E as <-. cbn [y_w]. subst w.
      apply conn_held. exact H.
    + destruct ((n =? StagePlay) || (n =? StagePause) || (n =? StageDone)); intros E; injection E as <-; exact H.
  - destruct (y_data y) as [|[ch p] rest]; [discriminate|]. destruct (on_packet (y_c y) ch p) as [c f]. intros E. injection E as <-. exact H.
  - destruct (c_ticked (y_c y)); [|discriminate]. cbv zeta. unfold on_tick. cbn [c_state].
    destruct (c_state (y_c y) =? StagePlay); [|destruct (c_state (y_c y) =? StagePause)].
    + destruct (must (pause (y_w y)) _) as [[w c] f] eqn:M. apply (f_equal (fun x => fst (fst x))) in M. rewrite must_world in M. cbn [fst] in M. intros E. injection E as <-. cbn [y_w]. subst w.
      apply conn_held. exact H.
    + destruct (must (teardown (y_w y)) _) as [[w c] f] eqn:M. apply (f_equal (fun x => fst (fst x))) in M. rewrite must_world in M. cbn [fst] in M. intros E. injection E as <-. cbn [y_w]. subst w.
      apply conn_held. exact H.
    + destruct (c_state (y_c y) =? StageDone); intros E; injection E as <-; exact H.
  - destruct (c_running (y_c y)); [|discriminate]. intros E. injection E as <-. exact H.
Qed.
Lemma listenings_none l : (forall ch port, ~ In (Listening ch port) l) -> listenings l = [].
Proof.
  induction l as [|e l IH]; intros N; [reflexivity|]. cbn [listenings flat_map]. change (flat_map _ l) with (listenings l).
  rewrite IH by (intros ch port I; apply (N ch port); right; exact I). destruct e; try reflexivity. exfalso. apply (N ch port). left. reflexivity.
Qed.
Lemma run_extends y es y' : yrun y es = Some y' -> extends (y_w y) (y_w y').
Proof. intros R. exact (proj1 (output_split (fun h => h) (fun _ => []) es y y' R)). Qed.
Lemma no_texts es : forall y y', held (y_w y) -> yrun y es = Some y' -> (forall ch port, ~ In (Listening ch port) (w_log (y_w y'))) -> ybare y es = [].
Proof.
  induction es as [|e es IH]; intros y y' H R N; [reflexivity|]. cbn [yrun ybare] in *. destruct (ystep y e) as [y1|] eqn:S; [|discriminate].
  pose proof (step_held y e y1 H S) as H1. rewrite (IH y1 y' H1 R N), app_nil_r. destruct e; try reflexivity. unfold turn_texts.
  destruct (run_extends y1 es y' R) as (new & L). unfold start_texts. unfold held in H1. rewrite H1, listenings_none; [destruct (existsb _ _); reflexivity|].
  intros ch port I. apply (N ch port). rewrite L. apply in_or_app. left. exact I.
Qed.

(* ---- lines ---- *)
Lemma out_app a b : out_text (a ++ b) = out_text a ++ out_text b.
Proof. apply flat_map_app. Qed.
Lemma last_app_ne {A} (a b : list A) d : b <> [] -> last (a ++ b) d = last b d.
Proof.
  intros N. destruct (exists_last N) as (b0 & x & ->). rewrite app_assoc, !last_last. reflexivity.
Qed.
Lemma merged_none {A} (a c : list A) : merged a [] c -> c = a.
Proof. remember (@nil A) as b eqn:B. induction 1; [reflexivity|rewrite IHmerged by exact B; reflexivity|discriminate]. Qed.
Lemma logged_lines (ms : list bytes) : Forall ends ms -> on_own_lines (map Logged ms).
Proof.
  intros F pre m post E. destruct (rev pre) as [|p t] eqn:R.
  - left. rewrite <- (rev_involutive pre), R. reflexivity.
  - assert (P : pre = rev t ++ [p]) by (rewrite <- (rev_involutive pre), R; reflexivity). right. subst pre. rewrite out_app.
    assert (I : In p (map Logged ms)) by (rewrite E; apply in_or_app; left; apply in_or_app; right; left; reflexivity).
    apply in_map_iff in I. destruct I as (m0 & <- & I). rewrite Forall_forall in F. specialize (F m0 I). unfold out_text at 2. cbn [flat_map piece_text]. rewrite app_nil_r.
    rewrite last_app_ne; [exact F|]. intros ->. unfold ends in F. cbn in F. discriminate.
Qed.

(* a text of Start ends with a digit *)
Definition bare_ok (m : bytes) : Prop := m <> [] /\ last m 0 <> 10.
Lemma digits_no_nl f : forall n acc, (forall x, In x acc -> x <> 10) -> forall x, In x (dec_digits f n acc) -> x <> 10.
Proof.
  induction f as [|f IH]; intros n acc A x; [apply A|]. cbn [dec_digits]. assert (B : forall x, In x (48 + n mod 10 :: acc) -> x <> 10).
  { intros z [<-|I]; [pose proof (Z.mod_pos_bound n 10 ltac:(lia)); lia|apply A; exact I]. }
  destruct (n / 10 =? 0); [apply B|apply IH; exact B].
Qed.
Lemma itoa_no_nl n x : In x (itoa n) -> x <> 10.
Proof.
  unfold itoa, digits. destruct (n <? 0); [intros [<-|I]; [discriminate|]|intros I]; (eapply digits_no_nl; [|exact I]); intros z [].
Qed.
Lemma last_in {A} (l : list A) d : l <> [] -> In (last l d) l.
Proof. intros N. destruct (exists_last N) as (l0 & x & ->). rewrite last_last. apply in_or_app. right. left. reflexivity. Qed.
Lemma texts_bare s : Forall bare_ok (start_texts s).
Proof.
  unfold start_texts. rewrite Forall_map. apply Forall_forall. intros l _. split; [discriminate|].
  assert (N : bs "Reading from UDP sink " ++ itoa (fst l) <> []) by discriminate. pose proof (last_in _ 0 N) as I. apply in_app_or in I. destruct I as [I|I]; [|exact (itoa_no_nl _ _ I)].
  intros E. rewrite E in I. cbn in I. repeat (destruct I as [I|I]; [discriminate|]). exact I.
Qed.
Lemma ybare_ok es : forall y, Forall bare_ok (ybare y es).
Proof.
  induction es as [|e es IH]; intros y; cbn [ybare]; [constructor|]. destruct (ystep y e) as [y1|]; [|constructor]. apply Forall_app. split; [|apply IH].
  destruct e; try constructor. unfold turn_texts. destruct (existsb _ _); [apply texts_bare|constructor].
Qed.
Lemma merged_in {A} (a b c : list A) x : merged a b c -> (In x c <-> In x a \/ In x b).
Proof. induction 1; cbn [In]; [tauto| |]; rewrite IHmerged; tauto. Qed.

(* after the last text of Start, the next entry begins inside its line *)
Lemma bare_breaks ps m : (forall t, In (Bare t) ps -> bare_ok t) -> (exists t, In (Bare t) ps) -> ~ on_own_lines (ps ++ [Logged m]).
Proof.
  revert m. induction ps as [|p ps IH] using rev_ind; intros m F (t & I); [destruct I|]. destruct p as [m0|t0].
  - intros O. apply (IH m0).
    + intros t1 I1. apply F. apply in_or_app. left. exact I1.
    + exists t. apply in_app_or in I. destruct I as [I|[I|[]]]; [exact I|discriminate].
    + intros pre m1 post E. apply (O pre m1 (post ++ [Logged m])). rewrite E, <- app_assoc. reflexivity.
  - intros O. destruct (F t0) as [N L]; [apply in_or_app; right; left; reflexivity|]. destruct (O (ps ++ [Bare t0]) m [] eq_refl) as [E|E]; rewrite out_app in E; unfold out_text at 2 in E; cbn [flat_map piece_text] in E; rewrite app_nil_r in E.
    + apply app_eq_nil in E. destruct E as [_ E]. contradiction.
    + rewrite last_app_ne in E by exact N. contradiction.
Qed.
Lemma output_lines ord txt y es y' ps : held (y_w y) -> yrun y es = Some y' -> (forall ch port, ~ In (Listening ch port) (w_log (y_w y'))) ->
  standard_output ord txt y es ps -> ps = map Logged (map snd (youtput ord txt y es)) /\ on_own_lines ps.
Proof.
  intros H R N O. unfold standard_output in O. rewrite (no_texts es y y' H R N) in O. apply merged_none in O. rewrite map_map. split; [exact O|]. subst ps.
  rewrite <- (map_map snd Logged). apply logged_lines. rewrite Forall_map. apply youtput_ends.
Qed.
Lemma output_broken ord txt y es ps m : ybare y es <> [] -> standard_output ord txt y es (ps ++ [Logged m]) -> ~ on_own_lines (ps ++ [Logged m]).
Proof.
  intros B O. unfold standard_output in O. assert (P : forall t, In (Bare t) (ps ++ [Logged m]) <-> In t (ybare y es)).
  { intros t. rewrite (merged_in _ _ _ _ O). split.
    - intros [I|I]; apply in_map_iff in I; destruct I as (x & E & I); [discriminate|]. injection E as <-. exact I.
    - intros I. right. apply in_map. exact I. }
  apply bare_breaks.
  - intros t I. pose proof (ybare_ok es y) as F. rewrite Forall_forall in F. apply F, P. apply in_or_app. left. exact I.
  - destruct (ybare y es) as [|t r] eqn:E; [contradiction|]. exists t. assert (I : In (Bare t) (ps ++ [Logged m])) by (apply P; left; reflexivity).
    apply in_app_or in I. destruct I as [I|[I|[]]]; [exact I|discriminate].
Qed.
