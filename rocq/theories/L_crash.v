(* Lemmas: what makes a session crash. *)
From Coq Require Import String.
From Verif Require Import Base GoStrings S_bits S_sps L_sps S_sdp M_conn S_message M_message M_transport M_sdp M_digest M_sps M_session S_session S_crash
  L_base L_strings L_sdp L_message L_session L_frames.
From Coq Require Import ZifyBool ZifyNat.

Local Opaque digest_response.

(* ---- reading ends: fuel is never used up ---- *)
Definition safe {A} (o : res A) : Prop := o <> Panic /\ o <> Fuel.

Lemma read_line_safe s : forall s' o, read_line s = (s', o) -> safe o /\ (length s' <= length s)%nat /\ ((exists l, o = Ok l) -> (length s' < length s)%nat).
Proof.
  induction s as [|[b|] s IH]; cbn [read_line]; intros s' o E.
  - inversion E; subst. splits; [split; discriminate|cbn; lia|intros [l X]; discriminate].
  - destruct (b =? 10); [inversion E; subst; splits; [split; discriminate|cbn; lia|cbn; lia]|].
    destruct (read_line s) as [s1 o1]. destruct (IH _ _ eq_refl) as (Sa & L & _). destruct o1 as [l|e| |]; inversion E; subst;
      (splits; [first [split; discriminate|exfalso; destruct Sa; congruence]|cbn; lia|cbn; lia]).
  - inversion E; subst. splits; [split; discriminate|cbn; lia|intros [l X]; discriminate].
Qed.
Lemma take_bytes_safe n : forall s s' o, take_bytes n s = (s', o) -> safe o /\ (forall l, o = Ok l -> length l = n).
Proof.
  induction n as [|n IH]; cbn [take_bytes]; intros s s' o E; [inversion E; subst; split; [split; discriminate|intros l X; inversion X; reflexivity]|].
  destruct s as [|[b|] s].
  - inversion E; subst. split; [split; discriminate|discriminate].
  - destruct (take_bytes n s) as [s1 o1] eqn:T. destruct (IH _ _ _ T) as (Sa & L). destruct o1 as [l|e| |]; inversion E; subst; (split; [first [split; discriminate|exfalso; destruct Sa; congruence]|try discriminate]).
    intros l0 X. inversion X; subst. cbn [length]. rewrite (L l eq_refl). reflexivity.
  - inversion E; subst. split; [split; discriminate|discriminate].
Qed.
Lemma read_bytes_safe n s s' o : read_bytes n s = (s', o) -> safe o /\ (forall l, o = Ok l -> zlen l <= 2048).
Proof.
  unfold read_bytes, peek, bufio_size. destruct (n >? 2048) eqn:C; [intros E; inversion E; subst; split; [split; discriminate|discriminate]|].
  destruct (take_bytes (Z.to_nat n) s) as [s1 o1] eqn:T. destruct (take_bytes_safe _ _ _ _ T) as (Sa & L). destruct o1 as [l|e| |]; intros E; inversion E; subst; (split; [first [split; discriminate|exfalso; destruct Sa; congruence]|try discriminate]).
  intros l0 X. inversion X; subst. unfold zlen. rewrite (L _ eq_refl). lia.
Qed.
Lemma read_byte_safe s s' o : read_byte s = (s', o) -> safe o.
Proof. unfold read_byte. destruct s as [|[b|] s]; intros E; inversion E; subst; split; discriminate. Qed.
Lemma read_uint16_safe s s' o : read_uint16 s = (s', o) -> safe o.
Proof.
  unfold read_uint16. destruct (read_byte s) as [r1 o1] eqn:E1. pose proof (read_byte_safe _ _ _ E1) as S1. destruct o1 as [a|e| |]; try (destruct S1; congruence).
  - destruct (read_byte r1) as [r2 o2] eqn:E2. pose proof (read_byte_safe _ _ _ E2) as S2. destruct o2 as [b|e| |]; intros E; inversion E; subst; try exact S2; split; discriminate.
  - intros E; inversion E; subst; split; discriminate.
Qed.
Lemma header_lines_safe fuel : forall h s s' o, (length s < fuel)%nat -> header_lines fuel h s = (s', o) -> safe o.
Proof.
  induction fuel as [|fuel IH]; intros h s s' o L E; [lia|]. cbn [header_lines] in E.
  destruct (read_line s) as [s1 o1] eqn:R. destruct (read_line_safe _ _ _ R) as (Sa & _ & Lt). destruct o1 as [l|e| |]; try (inversion E; subst; split; discriminate); try (destruct Sa; congruence).
  cbv zeta in E. destruct (beq (trim_space l) []); [inversion E; subst; split; discriminate|].
  destruct (split2 58 (trim_space l)) as [|k [|v [|x y]]]; try (inversion E; subst; split; discriminate).
  eapply IH; [|exact E]. specialize (Lt (ex_intro _ l eq_refl)). lia.
Qed.
Lemma http_lines_safe fuel : forall s s' o, (length s < fuel)%nat -> http_lines fuel s = (s', o) -> safe o.
Proof.
  induction fuel as [|fuel IH]; intros s s' o L E; [lia|]. cbn [http_lines] in E.
  destruct (read_line s) as [s1 o1] eqn:R. destruct (read_line_safe _ _ _ R) as (Sa & _ & Lt). destruct o1 as [l|e| |]; try (inversion E; subst; split; discriminate); try (destruct Sa; congruence).
  cbv zeta in E. destruct (beq (trim_space l) []); [inversion E; subst; split; discriminate|].
  destruct (split2 58 (trim_space l)) as [|k [|v [|x y]]]; try (inversion E; subst; split; discriminate).
  eapply IH; [|exact E]. specialize (Lt (ex_intro _ l eq_refl)). lia.
Qed.
Lemma status_line_safe p l : safe (status_line p l).
Proof.
  unfold status_line. destruct (cut 32 l) as [[a b]|]; [|split; discriminate]. destruct (negb (beq a p)); [split; discriminate|]. cbv zeta.
  match goal with |- safe (if ?c then _ else _) => destruct c end; [split; discriminate|].
  match goal with |- safe (match ?c with _ => _ end) => destruct c as [n [e|]] end; [split; discriminate|]. destruct (n <? 0); split; discriminate.
Qed.
Lemma unpack_no_fuel s s' o : unpack_response s = (s', o) -> safe o /\ forall r b, o = Ok r -> p_body r = Some b -> zlen b <= 2048.
Proof.
  unfold unpack_response. destruct (read_line s) as [s1 o1] eqn:R. destruct (read_line_safe _ _ _ R) as (Sa & _). destruct o1 as [l|e| |]; try (intros E; inversion E; subst; split; [split; discriminate|discriminate]); try (destruct Sa; congruence).
  pose proof (status_line_safe (bs "RTSP/1.0") l) as St. destruct (status_line (bs "RTSP/1.0") l) as [[st code]|e| |]; try (intros E; inversion E; subst; split; [first [exact St|split; discriminate]|discriminate]); try (destruct St; congruence).
  destruct (header_lines (S (length s1)) [] s1) as [s2 o2] eqn:H. pose proof (header_lines_safe _ _ _ _ _ (Nat.lt_succ_diag_r _) H) as Sh. destruct o2 as [h|e| |]; try (intros E; inversion E; subst; split; [split; discriminate|discriminate]); try (destruct Sh; congruence).
  cbv zeta. match goal with |- context [if ?c then _ else _] => destruct c end.
  2: { intros E; inversion E; subst. split; [split; discriminate|]. intros r b X. inversion X; subst. discriminate. }
  destruct (read_bytes _ s2) as [s3 o3] eqn:B. destruct (read_bytes_safe _ _ _ _ B) as (Sb & Lb). destruct o3 as [b|e| |]; intros E; inversion E; subst; (split; [first [split; discriminate|exfalso; destruct Sb; congruence]|]); intros r0 b0 X; inversion X; subst.
  cbn [p_body]. intros Y. inversion Y; subst. apply Lb. reflexivity.
Qed.
Lemma receive_http_safe s s' o : receive_http s = (s', o) -> safe o.
Proof.
  unfold receive_http. destruct (read_line s) as [s1 o1] eqn:R. destruct (read_line_safe _ _ _ R) as (Sa & _). destruct o1 as [l|e| |]; try (intros E; inversion E; subst; split; discriminate); try (destruct Sa; congruence).
  pose proof (status_line_safe (bs "HTTP/1.0") l) as St. destruct (status_line (bs "HTTP/1.0") l) as [x|e| |]; try (intros E; inversion E; subst; split; discriminate); try (destruct St; congruence).
  apply http_lines_safe. lia.
Qed.

(* ---- parameter sets of a description ---- *)
Lemma b64_val_range c x : b64_val c = Some x -> 0 <= x < 64.
Proof. unfold b64_val. repeat match goal with |- context [if ?b then _ else _] => destruct b eqn:? end; intros E; inversion E; subst; lia. Qed.
Lemma list_ind4 (P : bytes -> Prop) : (forall l, (length l < 4)%nat -> P l) -> (forall a b c d r, P r -> P (a :: b :: c :: d :: r)) -> forall l, P l.
Proof.
  intros H0 H1 l. assert (G : forall n l, (length l < n)%nat -> P l); [|apply (G (S (length l))); lia].
  induction n as [|n IH]; intros m L; [lia|]. destruct m as [|a [|b [|c [|d r]]]]; try (apply H0; cbn; lia). apply H1. apply IH. cbn in L. lia.
Qed.
Lemma b64_quanta_ok s : bytes_ok (fst (b64_quanta s)) /\ (length (fst (b64_quanta s)) <= length s)%nat.
Proof.
  induction s as [l L|a b c d r IH] using list_ind4.
  { destruct l as [|a [|b [|c [|d r]]]]; cbn in *; try lia; split; try constructor; lia. }
  cbn [b64_quanta]. destruct (b64_val a) as [x|] eqn:Ea; [|split; [constructor|cbn; lia]]. destruct (b64_val b) as [y|] eqn:Eb; [|split; [constructor|cbn; lia]].
  apply b64_val_range in Ea, Eb. destruct (b64_val c) as [z|] eqn:Ec.
  - apply b64_val_range in Ec. destruct (b64_val d) as [w|] eqn:Ed.
    + apply b64_val_range in Ed. destruct (b64_quanta r) as [t ok]. cbn [fst] in *. destruct IH as [B L]. split; [|cbn [length]; lia].
      repeat constructor; try exact B; unfold byte_ok; Z.div_mod_to_equations; lia.
    + destruct (d =? 61); (split; [|cbn; lia]); [|constructor]. repeat constructor; unfold byte_ok; Z.div_mod_to_equations; lia.
  - destruct ((c =? 61) && (d =? 61)); (split; [|cbn; lia]); [|constructor]. repeat constructor; unfold byte_ok; Z.div_mod_to_equations; lia.
Qed.
Lemma filter_length {A} (f : A -> bool) l : (length (filter f l) <= length l)%nat.
Proof. induction l as [|x l IH]; cbn; [lia|]. destruct (f x); cbn; lia. Qed.
Lemma b64_decode_ok s : bytes_ok (fst (b64_decode s)) /\ (length (fst (b64_decode s)) <= length s)%nat.
Proof. unfold b64_decode. destruct (b64_quanta_ok (filter (fun c => negb ((c =? 10) || (c =? 13))) s)) as [B L]. split; [exact B|]. pose proof (filter_length (fun c => negb ((c =? 10) || (c =? 13))) s). lia. Qed.

Lemma split_on_len c s : Forall (fun p => (length p <= length s)%nat) (split_on c s).
Proof.
  enough (G : forall ps, Forall (fun p => (length p <= length (join c ps))%nat) ps) by (specialize (G (split_on c s)); rewrite join_split in G; exact G).
  induction ps as [|p ps IH]; [constructor|]. constructor.
  - destruct ps; cbn [join]; [lia|]. rewrite app_length. lia.
  - destruct ps as [|q ps]; [constructor|]. eapply Forall_impl; [|exact IH]. intros a L. cbn [join] in *. rewrite app_length. cbn [length]. cbv beta in L. lia.
Qed.
Lemma cut_len c s a b : cut c s = Some (a, b) -> (length a <= length s)%nat /\ (length b <= length s)%nat.
Proof. intros E. apply cut_some in E as [-> _]. rewrite app_length. cbn [length]. lia. Qed.
Lemma split2_len c s : Forall (fun p => (length p <= length s)%nat) (split2 c s).
Proof. unfold split2. destruct (cut c s) as [[a b]|] eqn:E; [|constructor; [lia|constructor]]. apply cut_len in E as [? ?]. repeat constructor; assumption. Qed.
Lemma trim_space_len s : (length (trim_space s) <= length s)%nat.
Proof.
  unfold trim_space. rewrite rev_length. pose proof (trim_rev_len (rev (trim_left s))) as H. rewrite rev_length in H.
  destruct (trim_left_suffix s) as [p E]. apply (f_equal (@length Z)) in E. rewrite app_length in E. lia.
Qed.

Definition sets_ok (n : nat) (m : media) : Prop := Forall (fun b => bytes_ok b /\ (length b <= n)%nat) (m_sprops m).
Lemma attr_param_sets n m f : (length f <= n)%nat -> sets_ok n m -> sets_ok n (attr_param m f).
Proof.
  intros L S. unfold attr_param. pose proof (split2_len 61 f) as F. destruct (split2 61 f) as [|k [|v [|x y]]]; try exact S. cbv zeta.
  destruct (beq (trim_space k) (bs "config")); [exact S|]. destruct (beq (trim_space k) (bs "sizelength")); [exact S|]. destruct (beq (trim_space k) (bs "indexlength")); [exact S|].
  destruct (beq (trim_space k) (bs "sprop-parameter-sets")); [|exact S]. unfold sets_ok. cbn [with_sprops m_sprops]. apply Forall_app. split; [exact S|].
  apply Forall_forall. intros b I. apply in_map_iff in I as (x & <- & I). destruct (b64_decode_ok x) as [B LB]. split; [exact B|].
  pose proof (split_on_len 44 v) as G. rewrite Forall_forall in G. specialize (G _ I). apply Forall_inv_tail in F. apply Forall_inv in F. cbv beta in *. lia.
Qed.
Lemma attr_field_sets n m f : (length f <= n)%nat -> sets_ok n m -> sets_ok n (attr_field m f).
Proof.
  intros L S. unfold attr_field.
  assert (S1 : sets_ok n (attr_colon m f)).
  { unfold attr_colon. destruct (split2 58 f) as [|k [|v [|x y]]]; try exact S. destruct (beq k (bs "control")); [exact S|]. destruct (beq k (bs "rtpmap")); exact S. }
  assert (S2 : sets_ok n (attr_slash (attr_colon m f) f)).
  { unfold attr_slash. destruct (split_on 47 f) as [|k [|v y]]; try exact S1. cbv zeta. destruct (beq (to_upper k) (bs "MPEG4-GENERIC")); [|destruct (beq (to_upper k) (bs "H264"))]; destruct (atoi v) as [i [e|]]; exact S1. }
  unfold attr_semi. pose proof (split_on_len 59 f) as F. destruct (split_on 59 f) as [|a [|b r]]; try exact S2.
  revert S2 F. generalize (attr_slash (attr_colon m f) f). generalize (a :: b :: r). clear - L. induction l as [|x l IH]; intros m S F; [exact S|]. cbn [fold_left].
  apply Forall_cons_iff in F as [Fx F]. apply IH; [|exact F]. apply attr_param_sets; [lia|exact S].
Qed.
Lemma sdp_line_sets n s l s' : (length l <= n)%nat -> Forall (sets_ok n) (all_feeds s) -> sdp_line s l = Ok s' -> Forall (sets_ok n) (all_feeds s').
Proof.
  intros L S E. unfold sdp_line in E. pose proof (split2_len 61 (trim_space l)) as F. destruct (split2 61 (trim_space l)) as [|k [|v [|x y]]]; try (inversion E; subst; exact S).
  cbv zeta in E. destruct (beq k (bs "m")).
  - destruct (beq (hd [] (split2 32 v)) (bs "video")); [|inversion E; subst; cbn [all_feeds]; exact S].
    destruct (split2 32 v) as [|a [|b [|c d]]]; try discriminate. inversion E; subst. cbn [all_feeds]. apply Forall_app. split; [exact S|]. constructor; [|constructor].
    destruct (split_on 32 b) as [|? [|? [|? ?]]]; constructor.
  - destruct (beq k (bs "a")); [|inversion E; subst; exact S]. destruct s as [done [m|]]; [|inversion E; subst; exact S]. inversion E; subst. cbn [all_feeds] in *.
    apply Forall_app in S as [S1 S2]. apply Forall_app. split; [exact S1|]. constructor; [|constructor]. apply Forall_inv in S2.
    pose proof (split2_len 32 v) as G. apply Forall_inv_tail in F. apply Forall_inv in F. cbv beta in F. pose proof (trim_space_len l) as T.
    assert (G' : Forall (fun p => (length p <= n)%nat) (split2 32 v)) by (eapply Forall_impl; [|exact G]; cbv beta; intros; lia). clear - S2 G'. revert m S2 G'. generalize (split2 32 v).
    induction l as [|x l IH]; intros m S F; [exact S|]. cbn [fold_left]. apply Forall_cons_iff in F as [Fx F]. apply IH; [|exact F]. apply attr_field_sets; assumption.
Qed.
Lemma sdp_sets body ms : sdp_parse body = Ok ms -> Forall (sets_ok (length body)) ms.
Proof.
  unfold sdp_parse. pose proof (split_on_len 10 body) as F. assert (S : Forall (sets_ok (length body)) (all_feeds ([], None))) by constructor. revert S F. generalize (@nil media, @None media). generalize (split_on 10 body).
  induction l as [|x l IH]; intros s S F; cbn [sdp_lines]; [intros E; inversion E; subst; exact S|]. apply Forall_cons_iff in F as [Fx F].
  destruct (sdp_line s x) as [s'|e| |] eqn:E; cbn [bind]; try discriminate. apply IH; [|exact F]. eapply sdp_line_sets; eassumption.
Qed.

(* ---- the session ---- *)
Definition keeps (w w' : world) : Prop :=
  s_conn (w_s w') = s_conn (w_s w) /\ s_proto (w_s w') = s_proto (w_s w) /\ map fd_media (s_feeds (w_s w')) = map fd_media (s_feeds (w_s w)).
Definition up (w : world) : Prop := s_conn (w_s w) = true /\ s_proto (w_s w) <> ProtoHTTP.
Lemma keeps_refl w : keeps w w.
Proof. split; [|split]; reflexivity. Qed.
Lemma keeps_trans a b c : keeps a b -> keeps b c -> keeps a c.
Proof. intros (A & B & C) (D & E & F). split; [|split]; congruence. Qed.
Lemma keeps_up w w' : keeps w w' -> up w -> up w'.
Proof. intros (A & B & _) (C & D). split; congruence. Qed.

Lemma write_keeps w a r w' o : up w -> write w a r = (w', o) -> keeps w w' /\ safe o.
Proof.
  intros (_ & P) E. unfold write in E. destruct (s_proto (w_s w) =? ProtoHTTP) eqn:Q; [lia|]. cbv zeta in E.
  destruct (w_writes w) as [|[e|] ?]; inversion E; subst; (split; [split; [|split]; reflexivity|split; discriminate]).
Qed.
Lemma command_keeps w verb uri hs w' o : up w -> command w verb uri hs = (w', o) -> keeps w w' /\ safe o.
Proof.
  intros U. unfold command. rewrite (proj1 U). cbv zeta. cbn [negb].
  destruct (call_auth (w_s w) verb) as [s1 auth] eqn:CA. apply call_auth_frame in CA as (a & -> & _). unfold enqueue. cbv zeta beta iota. intros E. apply write_keeps in E; [|exact U]. exact E.
Qed.
Lemma with_conn_keeps w k w' o : up w -> (forall w' o, k (w_s w) = (w', o) -> keeps w w' /\ safe o) -> with_conn w k = (w', o) -> keeps w w' /\ safe o.
Proof. intros U K. unfold with_conn. rewrite (proj1 U). apply K. Qed.

Lemma upd_map {A B} (f : A -> B) (l : list A) : forall i x, (forall y, nth_error l i = Some y -> f y = f x) -> map f (upd l i x) = map f l.
Proof.
  induction l as [|y l IH]; intros [|i] x H; cbn [upd map]; try reflexivity.
  - rewrite (H y eq_refl). reflexivity.
  - f_equal. apply IH. intros z N. apply H. exact N.
Qed.
Lemma mark_keeps w i : keeps w (upd_s w (mark_feed i)).
Proof.
  unfold mark_feed, keeps. cbn [upd_s w_s]. destruct (nth_error (s_feeds (w_s w)) i) as [f|] eqn:N; [|splits; reflexivity]. splits; try reflexivity. cbn [set_feeds s_feeds].
  apply upd_map. intros y Y. rewrite N in Y. inversion Y; subst. reflexivity.
Qed.
Lemma setup_from_keeps todo : forall w i w' o, up w -> setup_from w i todo = (w', o) -> keeps w w' /\ safe o.
Proof.
  induction todo as [|f todo IH]; intros w i w' o U E; cbn [setup_from] in E; [inversion E; subst; split; [apply keeps_refl|split; discriminate]|].
  unfold setup_uri in E. rewrite (proj1 U) in E.
  assert (X : exists uri, (if has_prefix (bs "rtsp://") (m_control (fd_media f)) then Ok (m_control (fd_media f)) else Ok (s_uri (w_s w) ++ bs "/" ++ m_control (fd_media f))) = Ok uri) by (destruct (has_prefix _ _); eexists; reflexivity).
  destruct X as [uri X]. rewrite X in E.
  destruct (command w (bs "SETUP") uri [(bs "Transport", transport_string (fd_transp f))]) as [w1 o1] eqn:EC. apply command_keeps in EC as [K Sa]; [|exact U].
  destruct o1 as [u|e| |]; try (inversion E; subst; split; [exact K|exact Sa]).
  assert (K2 : keeps w (upd_s w1 (mark_feed i))) by (eapply keeps_trans; [exact K|apply mark_keeps]).
  apply IH in E; [|eapply keeps_up; [exact K2|exact U]]. destruct E as [K3 S3]. split; [eapply keeps_trans; [exact K2|exact K3]|exact S3].
Qed.
Lemma keepalive_keeps w t1 t2 w' o : up w -> keepalive w t1 t2 = (w', o) -> keeps w w' /\ safe o.
Proof.
  intros U. apply with_conn_keeps; [exact U|]. clear w' o. intros w' o. destruct (_ && _); [|intros X; inversion X; subst; split; [apply keeps_refl|split; discriminate]].
  destruct (match s_last (w_s w) with None => true | Some l => t1 - l >=? keepAliveTimeout end); [|intros X; inversion X; subst; split; [apply keeps_refl|split; discriminate]].
  intros X. apply command_keeps in X; [exact X|exact U].
Qed.
Lemma do_cmd_keeps w c w' o : up w -> do_cmd w c = (w', o) -> keeps w w' /\ safe o.
Proof.
  intros U. destruct c; cbn [do_cmd]; try (apply with_conn_keeps; [exact U|]; intros ? ?; apply command_keeps; exact U).
  - apply setup_from_keeps. exact U.
  - apply keepalive_keeps. exact U.
Qed.

Lemma sprops_crash l : forall st st' o n, Forall (fun b => bytes_ok b /\ (length b <= n)%nat) l -> Z.of_nat n < 2 ^ 60 -> parse_sprops st l = (st', o) ->
  o <> Fuel /\ (o = Panic -> exists b, In b l /\ bad_pps b).
Proof.
  induction l as [|b l IH]; intros st st' o n F N E; cbn [parse_sprops] in E; [inversion E; subst; split; discriminate|]. apply Forall_cons_iff in F as [(B & L) F].
  assert (X : forall st1 o1, parse_sprop st b = (st1, o1) -> o1 <> Fuel /\ (o1 = Panic -> bad_pps b)).
  { intros st1 o1 P. unfold parse_sprop in P. destruct b as [|h t]; [inversion P; subst; split; discriminate|]. cbv zeta in P.
    assert (BT : buf_ok t) by (split; [inversion B; assumption|unfold zlen; cbn in L; lia]).
    destruct (Z.land h 31 =? 7).
    - unfold parse_sps in P. destruct (sps_outcome t BT) as [(r & i & O)|(r & O)]; rewrite O in P; inversion P; subst; split; discriminate.
    - destruct (Z.land h 31 =? 8) eqn:H8; [|inversion P; subst; split; discriminate]. unfold parse_pps in P.
      destruct (pps_outcome (st_sps st) t BT) as (r & o2 & O & K & C). rewrite O in P. destruct K as [(i & ->)|[-> | ->]]; inversion P; subst; split; try discriminate.
      intros _. exists h, t. splits; [reflexivity|lia|apply C; reflexivity]. }
  destruct (parse_sprop st b) as [st1 o1]. destruct (X _ _ eq_refl) as (NF & CP). destruct o1 as [u|e| |].
  - destruct (IH _ _ _ n F N E) as (A & C). split; [exact A|]. intros P. destruct (C P) as (b' & I & Bd). exists b'. split; [right; exact I|exact Bd].
  - inversion E; subst. split; discriminate.
  - inversion E; subst. split; [discriminate|]. intros _. exists b. split; [left; reflexivity|apply CP; reflexivity].
  - congruence.
Qed.
Lemma transport_setup_crash f v f' o n : sets_ok n (fd_media f) -> Z.of_nat n < 2 ^ 60 -> transport_setup f v = (f', o) ->
  fd_media f' = fd_media f /\ o <> Fuel /\ (o = Panic -> exists b, In b (m_sprops (fd_media f)) /\ bad_pps b).
Proof.
  intros S N E. unfold transport_setup in E. destruct (transport_parse (fd_transp f) v) as [t [e|]]; [inversion E; subst; splits; [reflexivity|discriminate|discriminate]|].
  destruct (parse_sprops (fd_sets f) (m_sprops (fd_media f))) as [st o1] eqn:P. destruct (sprops_crash _ _ _ _ _ S N P) as (A & C).
  destruct o1 as [u|e| |]; inversion E; subst; splits; try reflexivity; try discriminate; auto.
Qed.
Lemma add_sink_keeps w ch port w' o : add_sink w ch port = (w', o) -> keeps w w' /\ safe o.
Proof. unfold add_sink. destruct (w_listens w) as [|[e|] l]; intros E; inversion E; subst; (split; [split; [|split]; reflexivity|split; discriminate]). Qed.

Lemma nth_map_skipn {A B} (f : A -> B) (l l2 : list A) i x r : map f (skipn i l) = map f (x :: r) -> (forall y, nth_error l i = Some y -> f y = f x) /\ map f (skipn (S i) l) = map f r.
Proof.
  intros E. split.
  - intros y N. apply nth_error_skipn_cons in N. rewrite N in E. cbn [map] in E. inversion E. reflexivity.
  - replace (S i) with (1 + i)%nat by lia. rewrite <- skipn_skipn. destruct (skipn i l) as [|y q]; [discriminate|]. cbn [skipn]. cbn [map] in E. inversion E. reflexivity.
Qed.
Lemma map_skipn {A B} (f : A -> B) n (l : list A) : map f (skipn n l) = skipn n (map f l).
Proof. revert l. induction n; intros [|x l]; cbn; auto. Qed.
Lemma setup_feeds_keeps todo : forall w cseq v i w' o n, Forall (fun f => sets_ok n (fd_media f)) todo -> Z.of_nat n < 2 ^ 60 ->
  map fd_media (skipn i (s_feeds (w_s w))) = map fd_media todo -> setup_feeds w cseq v i todo = (w', o) ->
  keeps w w' /\ o <> Fuel /\ (o = Panic -> exists f b, In f todo /\ In b (m_sprops (fd_media f)) /\ bad_pps b).
Proof.
  induction todo as [|f todo IH]; intros w cseq v i w' o n F N A E; cbn [setup_feeds] in E; [inversion E; subst; splits; [apply keeps_refl|discriminate|discriminate]|].
  apply Forall_cons_iff in F as [Ff F]. destruct (nth_map_skipn fd_media _ [] _ _ _ A) as [A1 A2].
  assert (Q : forall w1, keeps w w1 -> setup_feeds w1 cseq v (S i) todo = (w', o) ->
     keeps w w' /\ o <> Fuel /\ (o = Panic -> exists g b, In g (f :: todo) /\ In b (m_sprops (fd_media g)) /\ bad_pps b)).
  { intros w1 K E1. apply (IH w1 cseq v (S i) w' o n F N) in E1.
    - destruct E1 as (K2 & NF & C). splits; [eapply keeps_trans; eassumption|exact NF|]. intros P. destruct (C P) as (g & b & I & R). exists g, b. split; [right; exact I|exact R].
    - rewrite <- A2, !map_skipn. f_equal. exact (proj2 (proj2 K)). }
  destruct (fd_cseq f =? cseq); [|apply (Q w (keeps_refl w) E)]. cbv zeta in E.
  destruct (transport_setup f v) as [f' o1] eqn:T. destruct (transport_setup_crash _ _ _ _ _ Ff N T) as (M & NF & C).
  assert (KP : keeps w (upd_s (upd_s w (fun s => set_feedidx s (i64 (s_feedidx s + 1)))) (put_feed i f'))).
  { split; [reflexivity|]. split; [reflexivity|]. unfold put_feed. cbn [upd_s w_s set_feeds set_feedidx s_feeds]. apply upd_map. intros y Y. rewrite M. apply A1. exact Y. }
  destruct o1 as [u|e| |].
  2: { inversion E; subst. splits; [exact KP|discriminate|discriminate]. }
  2: { inversion E; subst. splits; [exact KP|discriminate|]. intros P. destruct (C P) as (b & I & Bd). exists f, b. split; [left; reflexivity|auto]. }
  2: { congruence. }
  destruct (t_tcp (fd_transp f')); [apply (Q _ KP E)|].
  match type of E with context [add_sink ?a ?b ?p] => destruct (add_sink a b p) as [w1 o1] eqn:E1; apply add_sink_keeps in E1 as [K1 [S1 S1']] end. assert (K1' := keeps_trans _ _ _ KP K1).
  destruct o1 as [u1|e1| |]; try congruence; try (inversion E; subst; splits; [exact K1'|discriminate|discriminate]).
  match type of E with context [add_sink ?a ?b ?p] => destruct (add_sink a b p) as [w2 o2] eqn:E2; apply add_sink_keeps in E2 as [K2 [S2 S2']] end. assert (K2' := keeps_trans _ _ _ K1' K2).
  destruct o2 as [u2|e2| |]; try congruence; try (inversion E; subst; splits; [exact K2'|discriminate|discriminate]).
  apply (Q _ K2' E).
Qed.

(* where the sections of the feeds come from *)
Definition described (log : list effect) (m : media) : Prop :=
  exists r body ms, In (Got r) log /\ p_body r = Some body /\ sdp_parse body = Ok ms /\ In m ms.
Definition sane (w : world) : Prop :=
  up w /\ Forall (fun m => described (w_log w) m) (map fd_media (s_feeds (w_s w))) /\
  (forall r body, In (Got r) (w_log w) -> p_body r = Some body -> zlen body <= 2048).
Definition blame (w : world) : Prop := exists r body, In (Got r) (w_log w) /\ p_body r = Some body /\ bad_description body.

Lemma described_more a b m : described a m -> described (a ++ b) m.
Proof. intros (r & body & ms & I & H). exists r, body, ms. split; [apply in_or_app; left; exact I|exact H]. Qed.
Lemma sane_acts w w' : sane w -> keeps w w' -> acts w w' -> sane w'.
Proof.
  intros (U & F & B) K (_ & new & L & Fn). unfold sane. splits; [eapply keeps_up; eassumption| |].
  - rewrite (proj2 (proj2 K)), L. eapply Forall_impl; [|exact F]. intros m D. apply described_more. exact D.
  - rewrite L. intros r body I P. apply in_app_or in I as [I|I]; [exact (B _ _ I P)|]. exfalso.
    assert (Z : In (Got r) (incoming new)) by (apply filter_In; split; [exact I|reflexivity]). rewrite Fn in Z. exact Z.
Qed.
Lemma sane_sets w : sane w -> Forall (fun f => sets_ok 2048 (fd_media f)) (s_feeds (w_s w)).
Proof.
  intros (_ & F & B). rewrite Forall_forall in *. intros f I. destruct (F (fd_media f) (in_map _ _ _ I)) as (r & body & ms & G & P & D & Im).
  pose proof (sdp_sets _ _ D) as X. rewrite Forall_forall in X. specialize (X _ Im). specialize (B _ _ G P). eapply Forall_impl; [|exact X]. cbv beta. intros b [B1 B2]. split; [exact B1|]. unfold zlen in B. 
  eapply Nat.le_trans; [exact B2|]. clear - B. apply Nat2Z.inj_le. exact B.
Qed.
Lemma blame_more w w' : blame w -> acts w w' -> blame w'.
Proof. intros (r & body & I & H) (_ & new & L & _). exists r, body. split; [rewrite L; apply in_or_app; left; exact I|exact H]. Qed.

(* a record changed in other fields only *)
Lemma handle_setup_fine w r w' o : sane w -> handle_setup w r = (w', o) -> keeps w w' /\ o <> Fuel /\ (o = Panic -> blame w').
Proof.
  intros Sn. unfold handle_setup.
  assert (F : forall w w' o, (if s_feedidx (w_s w) >=? zlen (s_feeds (w_s w)) then (note (notify w StageReady) Started, @Ok unit tt) else (w, Ok tt)) = (w', o) -> keeps w w' /\ safe o).
  { clear. intros w w' o E. destruct (s_feedidx (w_s w) >=? zlen (s_feeds (w_s w))); inversion E; subst; (split; [split; [|split]; reflexivity|split; discriminate]). }
  destruct (p_code r =? 200).
  - destruct (setup_feeds w (p_cseq r) (header_get (p_header r) (bs "Transport")) 0 (s_feeds (w_s w))) as [w1 o1] eqn:E.
    pose proof (setup_feeds_acts _ _ _ _ _ _ _ E) as A.
    destruct (setup_feeds_keeps _ w _ _ 0%nat _ _ 2048 (sane_sets _ Sn) ltac:(lia) eq_refl E) as (K & NF & C).
    intros X. destruct o1 as [u|e| |]; try (inversion X; subst; splits; [exact K|congruence|intros P; try discriminate]).
    + apply F in X as [K2 [S1 S2]]. splits; [eapply keeps_trans; eassumption|exact S2|intros; contradiction].
    + destruct (C eq_refl) as (f & b & I & Ib & Bd). destruct Sn as (_ & D & _). rewrite Forall_forall in D. destruct (D (fd_media f) (in_map _ _ _ I)) as (r0 & body & ms & G & Pb & Dp & Im).
      apply (blame_more w); [|exact A]. exists r0, body. splits; [exact G|exact Pb|]. right. exists ms, (fd_media f), b. auto.
  - destruct (p_code r =? 401); cbn [negb]; intros X; apply F in X as [K [S1 S2]]; (splits; [exact K|exact S2|intros; contradiction]).
Qed.
Lemma make_feeds_media proto l : forall i, map fd_media (make_feeds proto i l) = l.
Proof. induction l as [|m l IH]; intros i; [reflexivity|]. cbn [make_feeds map fd_media]. rewrite IH. reflexivity. Qed.

Definition fine (w w' : world) (o : res unit) : Prop := acts w w' /\ up w' /\ Forall (fun m => described (w_log w') m) (map fd_media (s_feeds (w_s w'))) /\ o <> Fuel /\ (o = Panic -> blame w').
Lemma fine_keeps w w' (o : res unit) : sane w -> acts w w' -> keeps w w' -> safe o -> fine w w' o.
Proof.
  intros Sn A K [S1 S2]. pose proof (sane_acts _ _ Sn K A) as (U & F & _). unfold fine. splits; auto. intros; contradiction.
Qed.
Lemma react_fine w req r w' o : sane w -> In (Got r) (w_log w) -> react w req r = (w', o) -> fine w w' o.
Proof.
  intros Sn G E. pose proof (react_acts _ _ _ _ _ E) as A. pose proof (fun K S => fine_keeps w w' o Sn A K S) as FK. destruct Sn as (U & FD & B) eqn:Es. clear Es. pose proof Sn as Sn'.
  revert E. unfold react. destruct (beq (q_verb req) (bs "OPTIONS")).
  { destruct (s_stage (w_s w) =? StageInit); [|intros E; inversion E; subst; apply FK; [apply keeps_refl|split; discriminate]]. intros E.
    apply with_conn_keeps in E; [apply FK; apply E|exact U|]. intros ? ? X. apply command_keeps in X; [exact X|exact U]. }
  destruct (beq (q_verb req) (bs "DESCRIBE")).
  { destruct (p_body r) as [body|] eqn:Pb; [|intros E; inversion E; subst; apply FK; [apply keeps_refl|split; discriminate]].
    unfold parse_feeds. destruct (parse_total body) as [(l & I & Bv)|(ms & D)].
    - rewrite (parse_crash _ _ I Bv). cbn [bind]. intros E; inversion E; subst. unfold fine. splits; [exact A|exact U|exact FD|discriminate|]. intros _. exists r, body. splits; [exact G|exact Pb|]. left. exists l. auto.
    - rewrite D. cbn [bind]. intros E. assert (U2 : up (upd_s w (fun s => set_feeds s (make_feeds (s_proto (w_s w)) 0 ms)))) by exact U. apply setup_from_keeps in E as [K [S1 S2]]; [|exact U2].
      destruct A as (A1 & new & L & An) eqn:EA. clear EA. unfold fine. splits; [split; [exact A1|exists new; auto]|exact (keeps_up _ _ K U2)| |exact S2|intros; contradiction].
      rewrite (proj2 (proj2 K)). cbn [upd_s w_s set_feeds s_feeds]. rewrite make_feeds_media, L. apply Forall_forall. intros m Im. exists r, body, ms. splits; [apply in_or_app; left; exact G|exact Pb|exact D|exact Im]. }
  assert (K : forall st, (if p_code r =? 200 then notify w st else w, @Ok unit tt) = (w', o) -> fine w w' o).
  { intros st E. apply FK; destruct (p_code r =? 200); inversion E; subst; first [split; discriminate|apply keeps_refl|split; [|split]; reflexivity]. }
  destruct (beq (q_verb req) (bs "PAUSE")); [apply K|]. destruct (beq (q_verb req) (bs "PLAY")); [apply K|].
  destruct (beq (q_verb req) (bs "TEARDOWN")); [apply K|]. destruct (beq (q_verb req) (bs "SETUP")).
  - intros E. destruct (handle_setup_fine w r w' o Sn' E) as (Kp & NF & C). pose proof (sane_acts _ _ Sn' Kp A) as (U' & F' & _). unfold fine. splits; auto.
  - intros E; inversion E; subst; apply FK; [apply keeps_refl|split; discriminate].
Qed.

Lemma set_attrs_safe ps : forall d, safe (set_attrs d ps).
Proof.
  induction ps as [|p ps IH]; intros d; cbn [set_attrs]; [split; discriminate|]. destruct (cut 61 (trim_space p)) as [[[|c a] v]|]; try apply IH.
  assert (X : (exists d', set_attr d (to_lower (c :: a)) (trim_byte 34 v) = Ok d') \/ exists e, set_attr d (to_lower (c :: a)) (trim_byte 34 v) = Err e).
  { unfold set_attr. destruct d. repeat match goal with |- context [if ?b then _ else _] => destruct b end; eauto. }
  destruct X as [[d' ->]|[e ->]]; cbn [bind]; [apply IH|split; discriminate].
Qed.
Lemma new_digest_safe uri c : safe (new_digest uri c).
Proof.
  unfold new_digest. cbv zeta.
  assert (X : forall b r, safe (let! d := set_attrs (mkDigest b [] [] [] [] [] [] (bs "md5") [] [] uri [] [] [] 0) (split_on 44 r) in
    if negb (beq (d_nonce d) []) && negb (beq (d_algorithm d) (bs "md5")) && negb (beq (d_algorithm d) (bs "md5-sess")) then Err ErrAuthNotImplemented else Ok d)).
  { intros b r. pose proof (set_attrs_safe (split_on 44 r) (mkDigest b [] [] [] [] [] [] (bs "md5") [] [] uri [] [] [] 0)) as [S1 S2].
    destruct (set_attrs _ _) as [d|e| |]; cbn [bind]; try congruence; [|split; discriminate]. destruct (_ && _); split; discriminate. }
  destruct (has_prefix (bs "Digest ") (trim_space c)); [apply X|]. destruct (has_prefix (bs "Basic ") (trim_space c)); [apply X|split; discriminate].
Qed.
Lemma retry_keeps w req r w' o : up w -> retry w req r = (w', o) -> keeps w w' /\ safe o.
Proof.
  intros U. unfold retry, authorize. pose proof (new_digest_safe (s_uri (w_s w)) (header_get (p_header r) (bs "WWW-Authenticate"))) as [S1 S2].
  destruct (new_digest (s_uri (w_s w)) (header_get (p_header r) (bs "WWW-Authenticate"))) as [d|e| |]; try congruence.
  2: { intros E; inversion E; subst. split; [apply keeps_refl|split; discriminate]. }
  destruct (s_user (w_s w)) as [[user pass]|]; [|intros E; inversion E; subst; split; [apply keeps_refl|split; discriminate]].
  destruct (authenticate d user pass (hd [] (w_rand w))) as [d' text]. cbn [w_s].
  destruct (call_auth (set_auth (w_s w) (Some (text, d'))) (q_verb req)) as [s2 out2] eqn:CA. apply call_auth_frame in CA as (a & -> & _). unfold enqueue. cbv zeta beta iota.
  intros E. apply write_keeps in E; [exact E|exact U].
Qed.

Definition calm (w : world) (o : res unit) : Prop := sane w /\ o <> Fuel /\ (o = Panic -> blame w).
Lemma calm_fine w w' o : sane w -> fine w w' o -> calm w' o.
Proof.
  intros (_ & _ & B) (A & U & F & NF & C). unfold calm, sane. splits; try assumption. destruct A as (_ & new & L & Fn). rewrite L. intros r body I P.
  apply in_app_or in I as [I|I]; [exact (B _ _ I P)|]. exfalso. assert (Z : In (Got r) (incoming new)) by (apply filter_In; split; [exact I|reflexivity]). rewrite Fn in Z. exact Z.
Qed.
Lemma handle_response_calm w r w' o : sane w -> (forall b, p_body r = Some b -> zlen b <= 2048) -> handle_response w r = (w', o) -> calm w' o.
Proof.
  intros (U & F & B) Lb E.
  assert (Sn : sane (note w (Got r))).
  { unfold sane. cbn [note w_s w_log]. splits; [exact U| |].
    - eapply Forall_impl; [|exact F]. intros m D. apply described_more. exact D.
    - intros r0 body I P. apply in_app_or in I as [I|[I|[]]]; [exact (B _ _ I P)|]. inversion I; subst. exact (Lb _ P). }
  assert (G : In (Got r) (w_log (note w (Got r)))) by (cbn [note w_log]; apply in_or_app; right; left; reflexivity).
  revert E. unfold handle_response. cbv zeta. revert Sn G. generalize (note w (Got r)). clear. intros w Sn G.
  destruct (qget (s_queue (w_s w)) (p_cseq r)) as [req|]; [|intros E; inversion E; subst; unfold calm; splits; [exact Sn|discriminate|discriminate]].
  destruct (p_code r =? 401); intros E.
  - apply (calm_fine (upd_s w (fun s => set_queue s (qdel (s_queue s) (p_cseq r))))); [exact Sn|]. pose proof (retry_acts _ _ _ _ _ E) as A. apply retry_keeps in E as [K S]; [|exact (proj1 Sn)]. apply fine_keeps; assumption.
  - match type of E with react ?x _ _ = _ => assert (Sx : sane x) by (unfold sane in *; cbn [upd_s w_s w_log]; unfold up, learn_session in *; cbn [upd_s w_s]; destruct (beq (header_get (p_header r) (bs "Session")) []); exact Sn); apply (calm_fine x); [exact Sx|]; apply (react_fine x req r); [exact Sx|exact G|exact E] end.
Qed.
Lemma calm_in w s : sane w -> sane (upd_in w s).
Proof. intros S. exact S. Qed.
Lemma calm_ok w o : sane w -> safe o -> calm w o.
Proof. intros S [A B]. unfold calm. splits; [exact S|exact B|intros; contradiction]. Qed.
Lemma receive_calm w w' o : sane w -> receive w = (w', o) -> calm w' o.
Proof.
  intros Sn E. unfold receive in E. destruct (peek 1 (w_in w)) as [s0 o0] eqn:P.
  assert (S0 : safe o0) by (unfold peek in P; change (1 >? bufio_size) with false in P; apply take_bytes_safe in P; exact (proj1 P)).
  assert (HU : match unpack_response s0 with
      | (s1, Ok r) => handle_response (upd_in w s1) r | (s1, Err e) => (upd_in w s1, Err e) | (s1, Panic) => (upd_in w s1, Panic) | (s1, Fuel) => (upd_in w s1, Fuel) end = (w', o) -> calm w' o).
  { destruct (unpack_response s0) as [s1 o1] eqn:UE. destruct (unpack_no_fuel _ _ _ UE) as ([S1 S1'] & Lb). destruct o1 as [r|e| |]; try congruence.
    - intros X. eapply handle_response_calm; [|intros b Pb; exact (Lb r b eq_refl Pb)|exact X]. exact Sn.
    - intros X; inversion X; subst. apply calm_ok; [exact Sn|split; discriminate]. }
  assert (HF : match read_byte (discard 1 s0) with
      | (s1, Ok ch) => match read_uint16 s1 with
          | (s2, Ok len) => match read_bytes len s2 with (s3, Ok p) => (note (upd_in w s3) (Delivered ch p), Ok tt) | (s3, Err e) => (upd_in w s3, Err e) | (s3, Panic) => (upd_in w s3, Panic) | (s3, Fuel) => (upd_in w s3, Fuel) end
          | (s2, Err e) => (upd_in w s2, Err e) | (s2, Panic) => (upd_in w s2, Panic) | (s2, Fuel) => (upd_in w s2, Fuel) end
      | (s1, Err e) => (upd_in w s1, Err e) | (s1, Panic) => (upd_in w s1, Panic) | (s1, Fuel) => (upd_in w s1, Fuel) end = (w', o) -> calm w' o).
  { destruct (read_byte (discard 1 s0)) as [s1 o1] eqn:E1. destruct (read_byte_safe _ _ _ E1) as [S1 S1']. destruct o1 as [ch|e| |]; try congruence; [|intros X; inversion X; subst; apply calm_ok; [exact Sn|split; discriminate]].
    destruct (read_uint16 s1) as [s2 o2] eqn:E2. destruct (read_uint16_safe _ _ _ E2) as [S2 S2']. destruct o2 as [len|e| |]; try congruence; [|intros X; inversion X; subst; apply calm_ok; [exact Sn|split; discriminate]].
    destruct (read_bytes len s2) as [s3 o3] eqn:E3. destruct (read_bytes_safe _ _ _ _ E3) as [[S3 S3'] _]. destruct o3 as [p|e| |]; try congruence; intros X; inversion X; subst; (apply calm_ok; [|split; discriminate]); [|exact Sn].
    destruct Sn as (U & F & B). unfold sane. cbn [note upd_in w_s w_log]. splits; [exact U| |].
    - eapply Forall_impl; [|exact F]. intros m D. apply described_more. exact D.
    - intros r body I Pb. apply in_app_or in I as [I|[I|[]]]; [exact (B _ _ I Pb)|discriminate]. }
  destruct S0 as [S0 S0']. destruct o0 as [l|e| |]; try congruence; [|inversion E; subst; apply calm_ok; [exact Sn|split; discriminate]].
  destruct l as [|a [|b l]]; [apply HU; exact E| |apply HU; destruct a as [|q|q]; try exact E; repeat (destruct q as [q|q|]; try exact E)].
  destruct a as [|q|q]; try (apply HU; exact E). repeat (destruct q as [q|q|]; try (apply HU; exact E)). apply HF. exact E.
Qed.
Lemma turn_calm w t1 t2 w' en : sane w -> turn w t1 t2 = (w', en) -> sane w' /\ (en = Crash -> blame w').
Proof.
  intros Sn E. unfold turn in E. destruct (keepalive w t1 t2) as [w1 k] eqn:KA. pose proof (keepalive_acts _ _ _ _ _ KA) as A. apply keepalive_keeps in KA as [K [S1 S2]]; [|exact (proj1 Sn)].
  pose proof (sane_acts _ _ Sn K A) as Sn1.
  assert (R : match receive w1 with (w, Ok _) => (w, Again) | (w, Err e) => (w, if is_timeout e then Again else Stop) | (w, Panic) | (w, Fuel) => (w, Crash) end = (w', en) -> sane w' /\ (en = Crash -> blame w')).
  { destruct (receive w1) as [w2 o] eqn:R. destruct (receive_calm _ _ _ Sn1 R) as (Sn2 & NF & C). destruct o as [u|e| |]; try congruence; intros X; inversion X; subst; (split; [exact Sn2|]); try discriminate.
    - destruct (is_timeout e); discriminate.
    - intros _. apply C. reflexivity. }
  destruct k as [u|e| |]; try congruence; [exact (R E)|]. destruct (s_stage (w_s w1) =? StageDone); [inversion E; subst; split; [exact Sn1|discriminate]|exact (R E)].
Qed.
Lemma run_calm es : forall w l w' l', sane w -> (l = Dead -> blame w) -> run (w, l) es = (w', l') -> sane w' /\ (l' = Dead -> blame w').
Proof.
  induction es as [|e es IH]; intros w l w' l' Sn D R; cbn [run fold_left] in R; [inversion R; subst; auto|]. fold (run (step (w, l) e) es) in R.
  destruct (step (w, l) e) as [w1 l1] eqn:S. enough (X : sane w1 /\ (l1 = Dead -> blame w1)) by (destruct X; eapply IH; eassumption).
  assert (AC : forall c w1 l1, l <> Dead -> match do_cmd w c with (w', Ok _) | (w', Err _) => (w', l) | (w', Panic) | (w', Fuel) => (w', Dead) end = (w1, l1) -> sane w1 /\ (l1 = Dead -> blame w1)).
  { intros c w2 l2 N X. destruct (do_cmd w c) as [w3 o] eqn:DC. pose proof (do_cmd_acts _ _ _ _ DC) as A. apply do_cmd_keeps in DC as [K [S1 S2]]; [|exact (proj1 Sn)].
    pose proof (sane_acts _ _ Sn K A) as Sn1. destruct o; try congruence; inversion X; subst; (split; [exact Sn1|congruence]). }
  unfold step in S. destruct l; [destruct e as [c|t1 t2]|destruct e as [c|t1 t2]|inversion S; subst; auto].
  - eapply AC; [discriminate|exact S].
  - destruct (turn w t1 t2) as [w2 en] eqn:T. destruct (turn_calm _ _ _ _ _ Sn T) as [Sn2 C]. destruct en; inversion S; subst; (split; [exact Sn2|]); try discriminate. intros _. apply C. reflexivity.
  - eapply AC; [discriminate|exact S].
  - inversion S; subst. split; [exact Sn|discriminate].
Qed.
Lemma opened_sane w proto : opened w proto -> proto <> ProtoHTTP -> sane w.
Proof.
  intros (user & uri & E & L) P. unfold sane, up. rewrite E, L. splits; [reflexivity|exact P|constructor|intros r body []].
Qed.
Lemma run_dead proto w es w' : opened w proto -> proto <> ProtoHTTP -> run (w, Live) es = (w', Dead) -> blame w'.
Proof. intros O P R. destruct (run_calm es w Live w' Dead (opened_sane _ _ O P) ltac:(discriminate) R) as [_ C]. apply C. reflexivity. Qed.
