(* Lemmas: line feeds. *)
From Coq Require Import String Permutation.
From Verif Require Import Base GoStrings S_md5 S_digest M_conn M_message M_transport M_sdp M_digest M_sps M_session S_session S_lines
  L_base L_strings L_digest L_message L_transport L_session.
From Coq Require Import ZifyBool ZifyNat.

Local Opaque digest_response.

Notation flat := one_line.
Lemma flat_nil : flat [].
Proof. intros []. Qed.
Lemma flat_app a b : flat (a ++ b) <-> flat a /\ flat b.
Proof. unfold one_line. rewrite in_app_iff. tauto. Qed.
Lemma flat_cons c a : flat (c :: a) <-> c <> 10 /\ flat a.
Proof. unfold one_line. cbn [In]. intuition congruence. Qed.
Lemma flat_incl a b : incl b a -> flat a -> flat b.
Proof. unfold one_line. intros I N X. apply N, I, X. Qed.
Lemma flat_b s : absent 10 s = true -> flat s.
Proof. apply absent_spec. Qed.
Lemma flat_rev a : flat a -> flat (rev a).
Proof. unfold one_line. rewrite <- in_rev. auto. Qed.
Lemma flat_trim_left s : flat s -> flat (trim_left s).
Proof. destruct (trim_left_suffix s) as (p & E). rewrite E at 1. rewrite flat_app. tauto. Qed.
Lemma flat_trim_rev s : flat s -> flat (trim_rev s).
Proof. destruct (trim_rev_suffix s) as (p & E). rewrite E at 1. rewrite flat_app. tauto. Qed.
Lemma flat_trim s : flat s -> flat (trim_space s).
Proof. intros F. unfold trim_space. apply flat_rev, flat_trim_rev, flat_rev, flat_trim_left, F. Qed.
Lemma flat_trim_nl l : flat l -> flat (trim_space (l ++ [10])).
Proof.
  intros F. unfold trim_space. apply flat_rev. destruct (trim_left_suffix (l ++ [10])) as (p & E). destruct (trim_left (l ++ [10])) as [|x t] using rev_ind; [intros []|]. clear IHt.
  rewrite app_assoc in E. apply app_inj_tail in E. destruct E as (E & <-). rewrite rev_app_distr. cbn [rev app trim_rev]. change (sp1 10) with true. cbv iota.
  apply flat_trim_rev, flat_rev. rewrite E in F. apply flat_app in F. tauto.
Qed.
Lemma flat_drop_byte c s : flat s -> flat (drop_byte c s).
Proof. induction s as [|x s IH]; cbn [drop_byte]; intros F; [exact F|]. destruct (x =? c); [|exact F]. apply flat_cons in F. apply IH. tauto. Qed.
Lemma flat_trim_byte c s : flat s -> flat (trim_byte c s).
Proof. intros F. unfold trim_byte. apply flat_rev, flat_drop_byte, flat_rev, flat_drop_byte, F. Qed.
Lemma flat_split c s : flat s -> Forall flat (split_on c s).
Proof.
  induction s as [|x s IH]; cbn [split_on]; intros F; [repeat constructor; intros []|]. apply flat_cons in F. destruct F as (N & F). specialize (IH F). destruct (x =? c); [constructor; [intros []|exact IH]|].
  destruct (split_on c s) as [|p ps]; [repeat constructor; apply flat_cons; split; [exact N|intros []]|]. apply Forall_cons_iff in IH. destruct IH as (A & B). constructor; [|exact B]. apply flat_cons. split; [exact N|exact A].
Qed.
Lemma flat_cut c s a b : cut c s = Some (a, b) -> flat s -> flat a /\ flat b.
Proof. intros C F. apply cut_some in C. destruct C as (-> & _). apply flat_app in F. rewrite flat_cons in F. tauto. Qed.
Lemma flat_split2 c s : flat s -> Forall flat (split2 c s).
Proof. intros F. unfold split2. destruct (cut c s) as [[a b]|] eqn:C; [|repeat constructor; exact F]. pose proof (flat_cut _ _ _ _ C F). repeat constructor; tauto. Qed.
Lemma flat_lower1 c : c <> 10 -> lower1 c <> 10.
Proof. unfold lower1. destruct ((65 <=? c) && (c <=? 90)) eqn:E; lia. Qed.
Lemma flat_lower s : flat s -> flat (to_lower s).
Proof.
  assert (G : forall n s, (length s <= n)%nat -> flat s -> flat (to_lower s)); [|apply (G (length s)), le_n]. induction n as [|n IH]; intros [|a r] L F; try (intros []); cbn [length] in L; [lia|].
  assert (K : flat (lower1 a :: to_lower r)).
  { apply flat_cons in F. destruct F as (N & F). apply flat_cons. split; [apply flat_lower1, N|]. apply IH; [lia|exact F]. }
  cbn [to_lower]. destruct r as [|b r2]; [exact K|]. destruct ((a =? 196) && (b =? 176)).
  - rewrite !flat_cons in F. cbn [length] in L. apply flat_cons. split; [discriminate|]. apply IH; [lia|tauto].
  - destruct r2 as [|c r3]; [exact K|]. destruct ((a =? 226) && (b =? 132) && (c =? 170)); [|exact K]. rewrite !flat_cons in F. cbn [length] in L. apply flat_cons. split; [discriminate|]. apply IH; [lia|tauto].
Qed.
Lemma flat_itoa z : flat (itoa z).
Proof. intros I. apply itoa_chars in I. lia. Qed.
Lemma flat_hex l : bytes_ok l -> flat (hex_encode l).
Proof. intros B I. apply hex_alphabet in B. rewrite Forall_forall in B. apply B in I. lia. Qed.
Lemma flat_firstn n s : flat s -> flat (firstn n s).
Proof. intros F. rewrite <- (firstn_skipn n s) in F. apply flat_app in F. tauto. Qed.
Lemma flat_skipn n s : flat s -> flat (skipn n s).
Proof. intros F. rewrite <- (firstn_skipn n s) in F. apply flat_app in F. tauto. Qed.
Lemma be_put_ok k z : bytes_ok (be_put k z).
Proof. induction k as [|k IH]; cbn [be_put]; constructor; [unfold byte_ok; apply Z.mod_pos_bound; lia|exact IH]. Qed.
Lemma md5_ok m : bytes_ok (md5 m).
Proof.
  unfold md5. destruct (md5_blocks _ _ _) as [[[a b] c] d]. unfold le_bytes. do 3 (apply bytes_ok_app; split; [apply Forall_rev, be_put_ok|]). apply Forall_rev, be_put_ok.
Qed.
Lemma flat_md5hex m : flat (md5hex m).
Proof. apply flat_hex, md5_ok. Qed.

(* what is read *)
Lemma read_line_flat s s' l : read_line s = (s', Ok l) -> exists l0, l = l0 ++ [10] /\ flat l0.
Proof.
  revert s' l. induction s as [|[b|] s IH]; intros s' l E; cbn [read_line] in E; try discriminate. destruct (b =? 10) eqn:B.
  - injection E as _ <-. exists []. assert (b = 10) by lia. subst b. split; [reflexivity|intros []].
  - destruct (read_line s) as [r' [l1|e| |]] eqn:R; try discriminate. injection E as _ <-. destruct (IH _ _ eq_refl) as (l0 & -> & F). exists (b :: l0). split; [reflexivity|]. apply flat_cons. split; [lia|exact F].
Qed.
Definition vals_flat (h : header) : Prop := Forall (fun e => flat (snd e)) h.
Lemma map_set_flat h k v : vals_flat h -> flat v -> vals_flat (M_message.map_set h k v).
Proof.
  intros H V. induction H as [|[k' v'] h E H IH]; cbn [M_message.map_set]; [repeat constructor; exact V|]. destruct (beq k k'); constructor; auto.
Qed.
Lemma header_get_flat h k : vals_flat h -> flat (header_get h k).
Proof.
  intros H. unfold header_get. generalize (canonical_key k). intros key. induction H as [|[k' v'] h E H IH]; cbn [M_message.map_get]; [intros []|]. destruct (beq key k'); [exact E|exact IH].
Qed.
Lemma header_lines_flat fuel : forall h s s' h', vals_flat h -> header_lines fuel h s = (s', Ok h') -> vals_flat h'.
Proof.
  induction fuel as [|fuel IH]; intros h s s' h' H E; cbn [header_lines] in E; [discriminate|]. destruct (read_line s) as [s1 [l|e| |]] eqn:R; try discriminate. apply read_line_flat in R. destruct R as (l0 & -> & F).
  cbv zeta in E. destruct (beq (trim_space (l0 ++ [10])) []); [injection E as _ <-; exact H|]. pose proof (flat_split2 58 _ (flat_trim_nl l0 F)) as P. destruct (split2 58 (trim_space (l0 ++ [10]))) as [|k [|v [|]]]; try discriminate.
  apply IH in E; [exact E|]. apply map_set_flat; [exact H|]. apply flat_trim. rewrite Forall_forall in P. apply P. right. left. reflexivity.
Qed.
Lemma unpack_flat s s' r : unpack_response s = (s', Ok r) -> vals_flat (p_header r).
Proof.
  unfold unpack_response. destruct (read_line s) as [s1 [l|e| |]]; try discriminate. destruct (status_line (bs "RTSP/1.0") l) as [[st code]|e| |]; try discriminate.
  destruct (header_lines (S (length s1)) [] s1) as [s2 [h|e| |]] eqn:H; try discriminate. apply header_lines_flat in H; [|constructor]. cbv zeta.
  match goal with |- (if ?c then _ else _) = _ -> _ => destruct c end.
  - match goal with |- match ?m with _ => _ end = _ -> _ => destruct m as [s3 [b|e| |]] end; try discriminate. intros E. injection E as _ <-. exact H.
  - intros E. injection E as _ <-. exact H.
Qed.

(* credentials *)
Definition auth_flat (a : option (bytes * digest)) : Prop :=
  match a with None => True | Some (text, d) => flat text /\ flat (d_qop d) /\ flat (d_nc d) /\ flat (d_cnonce d) end.
Lemma set_attr_flat d k v d' : flat v -> flat (d_realm d) -> flat (d_nonce d) -> flat (d_opaque d) -> flat (d_algorithm d) -> flat (d_qop d) -> set_attr d k v = Ok d' ->
  flat (d_realm d') /\ flat (d_nonce d') /\ flat (d_opaque d') /\ flat (d_algorithm d') /\ flat (d_qop d').
Proof.
  intros V. destruct d as [ba us re dm no op st al cn qo ur h1 h2 nc ct]. cbn [d_realm d_nonce d_opaque d_algorithm d_qop]. intros A B C D E. unfold set_attr.
  repeat match goal with |- (if ?c then _ else _) = _ -> _ => destruct c end; intros X; try discriminate; injection X as <-; cbn [d_realm d_nonce d_opaque d_algorithm d_qop]; splits; auto.
  - apply flat_lower, V.
  - pose proof (flat_split 44 v V) as P. destruct (split_on 44 v) as [|x ?]; [exact E|]. apply Forall_cons_iff in P. apply flat_lower. tauto.
Qed.
Lemma set_attrs_flat ps : Forall flat ps -> forall d d', flat (d_realm d) -> flat (d_nonce d) -> flat (d_opaque d) -> flat (d_algorithm d) -> flat (d_qop d) -> set_attrs d ps = Ok d' ->
  flat (d_realm d') /\ flat (d_nonce d') /\ flat (d_opaque d') /\ flat (d_algorithm d') /\ flat (d_qop d').
Proof.
  intros F. induction F as [|p ps P F IH]; intros d d' A B C D E X; cbn [set_attrs] in X; [injection X as <-; auto|]. cbv zeta in X. destruct (cut 61 (trim_space p)) as [[[|c a] v]|] eqn:K; try (eapply IH; eauto; fail).
  apply flat_cut in K; [|apply flat_trim, P]. destruct (set_attr d (to_lower (c :: a)) (trim_byte 34 v)) as [d1|e| |] eqn:S; try discriminate. cbn [bind] in X.
  apply set_attr_flat in S; try assumption; [|apply flat_trim_byte; tauto]. destruct S as (? & ? & ? & ? & ?). eapply IH; eauto.
Qed.
Lemma new_digest_flat uri ch d : flat ch -> new_digest uri ch = Ok d ->
  flat (d_realm d) /\ flat (d_nonce d) /\ flat (d_opaque d) /\ flat (d_algorithm d) /\ flat (d_qop d).
Proof.
  intros F N. unfold new_digest in N. cbv zeta in N. pose proof (flat_trim ch F) as T.
  assert (G : forall basic rest, flat rest -> (let! d := set_attrs (mkDigest basic [] [] [] [] [] [] (bs "md5") [] [] uri [] [] [] 0) (split_on 44 rest) in
      if negb (beq (d_nonce d) []) && negb (beq (d_algorithm d) (bs "md5")) && negb (beq (d_algorithm d) (bs "md5-sess")) then Err ErrAuthNotImplemented else Ok d) = Ok d ->
      flat (d_realm d) /\ flat (d_nonce d) /\ flat (d_opaque d) /\ flat (d_algorithm d) /\ flat (d_qop d)).
  { intros basic rest R X. destruct (set_attrs _ (split_on 44 rest)) as [d0|e| |] eqn:S; try discriminate. cbn [bind] in X.
    match type of X with (if ?c then _ else _) = _ => destruct c; [discriminate|] end. injection X as ->. apply set_attrs_flat in S; try (intros []; fail); auto; [apply flat_split, R|]. cbn [d_algorithm]. apply flat_b. reflexivity. }
  destruct (has_prefix (bs "Digest ") (trim_space ch)); [eapply G; [|exact N]; apply flat_skipn, T|]. destruct (has_prefix (bs "Basic ") (trim_space ch)); [eapply G; [|exact N]; apply flat_skipn, T|discriminate].
Qed.
Ltac lit := match goal with |- flat (bs _) => apply flat_b; reflexivity end.
Lemma authenticate_flat uri ch d user pass rnd : flat uri -> flat ch -> new_digest uri ch = Ok d -> flat user -> bytes_ok user -> bytes_ok pass -> bytes_ok rnd ->
  let '(d', text) := authenticate d user pass rnd in auth_flat (Some (text, d')).
Proof.
  intros FU FC N US BU BP BR. destruct (new_digest_fresh _ _ _ N) as (CT & UR).
  assert (NC : d_nc d = [] /\ d_cnonce d = []).
  { clear - N. unfold new_digest in N. cbv zeta in N.
    assert (S : forall ps d0 d1, set_attrs d0 ps = Ok d1 -> d_nc d1 = d_nc d0 /\ d_cnonce d1 = d_cnonce d0).
    { assert (S0 : forall d0 k v d1, set_attr d0 k v = Ok d1 -> d_nc d1 = d_nc d0 /\ d_cnonce d1 = d_cnonce d0).
      { intros d0 k v d1. destruct d0 as [ba us re dm no op st al cn qo ur h1 h2 nc ct]. unfold set_attr. repeat match goal with |- (if ?c then _ else _) = _ -> _ => destruct c end; intros X; try discriminate; injection X as <-; split; reflexivity. }
      induction ps as [|p ps IH]; intros d0 d1 X; cbn [set_attrs] in X; [injection X as <-; auto|]. cbv zeta in X. destruct (cut 61 (trim_space p)) as [[[|c a] v]|]; auto.
      destruct (set_attr d0 (to_lower (c :: a)) (trim_byte 34 v)) as [d2|e| |] eqn:E; try discriminate. cbn [bind] in X. apply S0 in E. apply IH in X. destruct E, X. split; congruence. }
    destruct (has_prefix (bs "Digest ") (trim_space ch)); [|destruct (has_prefix (bs "Basic ") (trim_space ch)); [|discriminate]];
      (match type of N with bind ?m _ = _ => destruct m as [d0|e| |] eqn:E; try discriminate N end; cbn [bind] in N;
       match type of N with (if ?c then _ else _) = _ => destruct c; [discriminate N|] end; injection N as ->; apply S in E; exact E). }
  pose proof (new_digest_flat _ _ _ FC N) as (A & B & C & D & E). destruct NC as (NC & CN). unfold authenticate. destruct (d_basic d) eqn:BA.
  - cbn [auth_flat]. rewrite NC, CN. splits; try (intros []; fail); [|exact E]. apply flat_app. split; [lit|]. rewrite colonnade_colons. intros I. revert I. apply b64_absent; [|unfold b64_letter; lia].
    cbn [colons]. apply bytes_ok_app. split; [exact BU|]. apply bytes_ok_app. split; [apply bytes_okb_spec; reflexivity|exact BP].
  - destruct d as [ba us re dm no op st al cn qo ur h1 h2 nc ct]. cbn [d_realm d_nonce d_opaque d_algorithm d_qop d_nc d_cnonce d_count d_uri] in *. subst ct ur nc cn. cbv zeta.
    unfold digest_next. cbn [d_qop d_count]. cbv zeta.
    assert (T : flat (bs "Digest username=""" ++ user ++ bs """, realm=""" ++ re ++ bs """, nonce=""" ++ no ++ bs """, uri=""" ++ uri ++ bs """, algorithm=""" ++ al ++
                (if beq op [] then [] else bs """, opaque=""" ++ op) ++ bs """")).
    { repeat (apply flat_app; split); try lit; auto. destruct (beq op []); [intros []|]. apply flat_app. split; [lit|exact C]. }
    destruct (beq qo []); cbn [auth_flat d_qop d_nc d_cnonce]; splits; auto; try (intros []; fail); try exact T.
    + apply flat_b. vm_compute. reflexivity.
    + apply flat_firstn, flat_hex, BR.
Qed.
Lemma call_flat s verb s' out : auth_flat (s_auth s) -> call_auth s verb = (s', out) -> flat out /\ auth_flat (s_auth s') /\
  s_uri s' = s_uri s /\ s_session s' = s_session s /\ s_queue s' = s_queue s /\ s_feeds s' = s_feeds s /\ s_user s' = s_user s.
Proof.
  unfold call_auth. destruct (s_auth s) as [[text d]|] eqn:A; [|intros _ E; inversion E; subst; rewrite A; splits; auto; [intros []|exact I]]. cbn [auth_flat]. intros (T & Q & N & C). unfold auth_call. destruct (d_basic d).
  - intros E. injection E as <- <-. cbn [set_auth s_auth s_uri s_session s_queue s_feeds s_user auth_flat]. splits; auto.
  - assert (R : flat (snd (digest_response d verb [])) /\ d_qop (fst (digest_response d verb [])) = d_qop d /\ d_nc (fst (digest_response d verb [])) = d_nc d /\ d_cnonce (fst (digest_response d verb [])) = d_cnonce d).
    { destruct d as [ba us re dm no op st al cn qo ur h1 h2 nc ct]. cbn [d_qop d_nc d_cnonce] in *. Local Transparent digest_response. unfold digest_response. Local Opaque digest_response. cbv zeta. destruct (beq qo []); cbn [fst snd d_qop d_nc d_cnonce]; splits; auto.
      - repeat (apply flat_app; split); try lit. apply flat_md5hex.
      - repeat (apply flat_app; split); try lit; auto. apply flat_md5hex. }
    destruct (digest_response d verb []) as [d' r]. cbn [fst snd] in R. destruct R as (R & RQ & RN & RC). intros E. injection E as <- <-. cbn [set_auth s_auth s_uri s_session s_queue s_feeds s_user auth_flat]. rewrite RQ, RN, RC. splits; auto. apply flat_app. auto.
Qed.

(* requests *)
Definition fields_known (verb : bytes) (h : header) : Prop :=
  h = [] \/ exists k v, h = [(k, v)] /\ flat v /\ (k = bs "Accept" \/ k = bs "Transport" \/ (k = bs "Session" /\ verb = bs "OPTIONS")).
Definition req_flat (r : request) : Prop :=
  In (q_verb r) request_verbs /\ flat (q_uri r) /\ flat (q_auth r) /\ flat (q_session r) /\ fields_known (q_verb r) (q_header r).
Definition feed_flat (f : feed) : Prop :=
  flat (m_control (fd_media f)) /\ flat (t_destination (fd_transp f)) /\ flat (t_source (fd_transp f)) /\ flat (t_ssrc (fd_transp f)) /\ flat (t_mode (fd_transp f)).
Definition eff_flat (e : effect) : Prop := match e with Sent _ r => req_flat r | _ => True end.
Definition ses_flat (s : session) : Prop :=
  flat (s_uri s) /\ auth_flat (s_auth s) /\ flat (s_session s) /\ Forall (fun e => req_flat (snd e)) (s_queue s) /\ Forall feed_flat (s_feeds s) /\
  match s_user s with None => True | Some (u, p) => flat u /\ bytes_ok u /\ bytes_ok p end.
Definition tidy (w : world) : Prop := ses_flat (w_s w) /\ Forall bytes_ok (w_rand w) /\ Forall eff_flat (w_log w).

Lemma tidy_note w e : tidy w -> eff_flat e -> tidy (note w e).
Proof. intros (S & R & L) E. split; [exact S|]. split; [exact R|]. cbn [note w_log]. apply Forall_app. auto. Qed.
Lemma tidy_upd w f : tidy w -> ses_flat (f (w_s w)) -> tidy (upd_s w f).
Proof. intros (S & R & L) E. split; [exact E|]. split; [exact R|exact L]. Qed.
Lemma tidy_in w x : tidy w -> tidy (upd_in w x).
Proof. intros (S & R & L). split; [exact S|]. split; [exact R|exact L]. Qed.

Lemma pack_one r order : req_flat r -> Permutation (q_header r) order -> one_request (pack_request r order).
Proof.
  intros (V & U & A & S & K) P.
  assert (E : order = q_header r).
  { destruct K as [K|(k & v & K & _)]; rewrite K in *; [apply Permutation_nil, P|apply Permutation_length_1_inv, P]. } subst order. clear P.
  exists (q_verb r), (q_uri r), ((bs "CSeq", itoa (q_cseq r)) :: q_header r ++
    (if negb (beq (q_session r) []) && negb (beq (q_verb r) (bs "OPTIONS")) && negb (beq (q_verb r) (bs "SETUP")) then [(bs "Session", q_session r)] else []) ++
    (if negb (beq (q_auth r) []) then [(bs "Authorization", q_auth r)] else []) ++ [(bs "User-Agent", bs "Ouro/1.0"); (bs "Content-Length", bs "0")]).
  splits; auto.
  - constructor; [split; [left; reflexivity|apply flat_itoa]|]. apply Forall_app. split.
    { destruct K as [->|(k & v & -> & F & [->|[->|(-> & _)]])]; [constructor| | |]; (constructor; [|constructor]); (split; [unfold request_names; cbn [In fst]; auto 8|exact F]). }
    apply Forall_app. split; [destruct (_ && _); [|constructor]; constructor; [|constructor]; split; [unfold request_names; cbn [In fst]; auto 8|exact S]|].
    apply Forall_app. split; [destruct (negb _); [|constructor]; constructor; [|constructor]; split; [unfold request_names; cbn [In fst]; auto 8|exact A]|].
    constructor; [|constructor; [|constructor]]; (split; [unfold request_names; cbn [In fst]; auto 9|cbn [snd]; lit]).
  - assert (ND : forall l : list bytes, (fix nodupb (l : list bytes) : bool := match l with [] => true | x :: t => negb (existsb (beq x) t) && nodupb t end) l = true -> NoDup l).
    { clear. induction l as [|x t IH]; intros E; constructor; apply andb_prop in E; destruct E as (E1 & E2); [|auto]. intros I. apply negb_true_iff in E1. assert (X : existsb (beq x) t = true) by (apply existsb_exists; exists x; split; [exact I|apply beq_refl]). congruence. }
    destruct K as [->|(k & v & -> & F & [->|[->|(-> & ->)]])]; destruct (negb (beq (q_auth r) [])); destruct (negb (beq (q_session r) [])); cbn [andb];
      try (destruct (negb (beq (q_verb r) (bs "OPTIONS")) && negb (beq (q_verb r) (bs "SETUP")))); apply ND; vm_compute; reflexivity.
  - unfold pack_request. do 5 f_equal. unfold field_line, colsp, crnl. cbn [flat_map fst snd]. rewrite !flat_map_app. rewrite <- !app_assoc. do 5 f_equal.
    destruct (_ && _); destruct (negb (beq (q_auth r) [])); cbn [flat_map fst snd app]; rewrite ?app_nil_r, <- ?app_assoc; reflexivity.
Qed.

(* transports and descriptions *)
Lemma flat_pair p : flat (pair_string p).
Proof. apply pair_string_absent; lia. Qed.
Lemma transport_flat t : flat (t_destination t) -> flat (t_source t) -> flat (t_ssrc t) -> flat (t_mode t) -> flat (transport_string t).
Proof.
  intros D S R M. unfold transport_string. repeat (apply flat_app; split); try lit.
  all: repeat match goal with |- flat (if ?c then _ else _) => destruct c end; try lit; try apply flat_nil.
  all: apply flat_app; split; [lit|]; auto using flat_pair, flat_itoa.
Qed.
Definition tr_flat (t : transport) : Prop := flat (t_destination t) /\ flat (t_source t) /\ flat (t_ssrc t) /\ flat (t_mode t).
Lemma new_transport_flat proto port : tr_flat (new_transport proto port).
Proof. unfold new_transport, tr_flat. repeat match goal with |- context [if ?c then _ else _] => destruct c end; cbv zeta; cbn [t_destination t_source t_ssrc t_mode]; splits; try apply flat_nil; lit. Qed.
Lemma parse_field_flat t f t' e : flat f -> tr_flat t -> parse_field t f = (t', e) -> tr_flat t'.
Proof.
  intros F T. unfold parse_field. set (t0 := match split_on 47 f with [_; _; c] => set_tcp t (beq (to_upper c) (bs "TCP")) | _ => t end).
  assert (T0 : tr_flat t0). { unfold t0. destruct (split_on 47 f) as [|a [|b [|c [|]]]]; exact T. } clearbody t0. cbv zeta.
  pose proof (flat_split2 61 f F) as P. destruct T0 as (D & S & R & M).
  repeat match goal with |- (if ?c then _ else _) = _ -> _ => destruct c end;
    try (intros E; injection E as <- _; split; [exact D|split; [exact S|split; [exact R|exact M]]]);
    destruct (split2 61 f) as [|k [|v r]]; cbv iota beta;
    try (intros E; injection E as <- _; split; [exact D|split; [exact S|split; [exact R|exact M]]]);
    apply Forall_cons_iff in P; destruct P as (_ & P); apply Forall_cons_iff in P; destruct P as (V & _);
    try (destruct (parse_pair v) as [p e0]); try (destruct (atoi v) as [n e1]);
    intros E; injection E as <- _; (split; [|split; [|split]]); assumption.
Qed.
Lemma parse_fields_flat fs : Forall flat fs -> forall t t' e, tr_flat t -> parse_fields t fs = (t', e) -> tr_flat t'.
Proof.
  intros F. induction F as [|f fs P F IH]; intros t t' e T E; cbn [parse_fields] in E; [injection E as <- _; exact T|]. destruct (parse_field t f) as [t1 [x|]] eqn:Q; apply parse_field_flat in Q; auto.
  - injection E as <- _. exact Q.
  - eapply IH; eauto.
Qed.
Lemma transport_parse_flat t v t' e : flat v -> tr_flat t -> transport_parse t v = (t', e) -> tr_flat t'.
Proof. intros V T. apply parse_fields_flat; [apply flat_split, V|exact T]. Qed.
Lemma attr_flat m f : flat f -> flat (m_control m) -> flat (m_control (attr_field m f)).
Proof.
  intros F M. unfold attr_field.
  assert (A : flat (m_control (attr_colon m f))).
  { unfold attr_colon. pose proof (flat_split2 58 f F) as P. destruct (split2 58 f) as [|k [|v [|]]]; auto. destruct (beq k (bs "control")).
    - rewrite Forall_forall in P. apply P. right. left. reflexivity.
    - destruct (beq k (bs "rtpmap")); exact M. }
  set (m1 := attr_colon m f) in *. clearbody m1.
  assert (B : m_control (attr_slash m1 f) = m_control m1).
  { unfold attr_slash. destruct (split_on 47 f) as [|k [|v r]]; auto. cbv zeta. destruct (beq (to_upper k) (bs "MPEG4-GENERIC")); [|destruct (beq (to_upper k) (bs "H264"))]; destruct (atoi v) as [i [e|]]; reflexivity. }
  set (m2 := attr_slash m1 f) in *. clearbody m2.
  assert (G : forall l x, m_control (fold_left attr_param l x) = m_control x).
  { induction l as [|a l IH]; intros x; cbn [fold_left]; [reflexivity|]. rewrite IH. unfold attr_param. destruct (split2 61 a) as [|k [|v [|]]]; auto. cbv zeta.
    repeat match goal with |- context [if ?c then _ else _] => destruct c end; reflexivity. }
  unfold attr_semi. destruct (split_on 59 f) as [|a [|b r]]; [rewrite B; exact A|rewrite B; exact A|]. rewrite G, B. exact A.
Qed.
Definition st_flat (s : sdp_state) : Prop := Forall (fun m => flat (m_control m)) (all_feeds s).
Lemma sdp_line_flat s l s' : flat l -> st_flat s -> sdp_line s l = Ok s' -> st_flat s'.
Proof.
  intros L S. unfold sdp_line. pose proof (flat_split2 61 _ (flat_trim l L)) as P. destruct (split2 61 (trim_space l)) as [|key [|val [|]]]; try (intros E; injection E as <-; exact S).
  apply Forall_cons_iff in P. destruct P as (_ & P). apply Forall_cons_iff in P. destruct P as (V & _). cbv zeta. destruct (beq key (bs "m")).
  - destruct (beq (hd [] (split2 32 val)) (bs "video")).
    + destruct (split2 32 val) as [|f0 [|f1 [|]]]; try discriminate. intros E. injection E as <-. unfold st_flat. cbn [all_feeds]. apply Forall_app. split; [exact S|]. constructor; [|constructor].
      destruct (split_on 32 f1) as [|? [|? [|pt ?]]]; apply flat_nil.
    + intros E. injection E as <-. exact S.
  - destruct (beq key (bs "a")); [|intros E; injection E as <-; exact S]. destruct s as [done [m|]]; intros E; injection E as <-; [|exact S]. unfold st_flat in *. cbn [all_feeds] in *.
    apply Forall_app in S. destruct S as (S1 & S2). apply Forall_app. split; [exact S1|]. apply Forall_cons_iff in S2. destruct S2 as (S2 & _). constructor; [|constructor].
    pose proof (flat_split2 32 val V) as Q. revert m S2. induction Q as [|f fs F Q IH]; intros m M; cbn [fold_left]; [exact M|]. apply IH, attr_flat; assumption.
Qed.
Lemma sdp_parse_flat buf l : sdp_parse buf = Ok l -> Forall (fun m => flat (m_control m)) l.
Proof.
  unfold sdp_parse. assert (G : forall ls, Forall flat ls -> forall s s', st_flat s -> sdp_lines s ls = Ok s' -> st_flat s').
  { intros ls F. induction F as [|x ls X F IH]; intros s s' S E; cbn [sdp_lines] in E; [injection E as <-; exact S|]. destruct (sdp_line s x) as [s1|e| |] eqn:L; try discriminate. cbn [bind] in E. eapply IH; [|exact E]. eapply sdp_line_flat; eauto. }
  destruct (sdp_lines ([], None) (split_on 10 buf)) as [s|e| |] eqn:E; try discriminate. cbn [bind]. intros X. injection X as <-. eapply (G _ (split_no_sep 10 buf) ([], None)); [constructor|exact E].
Qed.
Lemma parse_feeds_flat proto body fs : parse_feeds proto body = Ok fs -> Forall feed_flat fs.
Proof.
  unfold parse_feeds. destruct (sdp_parse body) as [l|e| |] eqn:E; try discriminate. cbn [bind]. intros X. injection X as <-. apply sdp_parse_flat in E. generalize 0. induction E as [|m l M E IH]; intros i; cbn [make_feeds]; constructor; auto.
  split; [exact M|]. apply new_transport_flat.
Qed.
Lemma transport_setup_flat f v f' o : flat v -> feed_flat f -> transport_setup f v = (f', o) -> feed_flat f'.
Proof.
  intros V (C & T). unfold transport_setup. destruct (transport_parse (fd_transp f) v) as [t [e|]] eqn:P; apply transport_parse_flat in P; auto.
  - intros E. injection E as <- _. split; [exact C|exact P].
  - destruct (parse_sprops (fd_sets f) (m_sprops (fd_media f))) as [st [u|e| |]]; intros E; injection E as <- _; (split; [exact C|exact P]).
Qed.
Lemma upd_Forall {A} (P : A -> Prop) l x : P x -> Forall P l -> forall i, Forall P (upd l i x).
Proof. intros X F. induction F as [|y l Y F IH]; intros [|i]; cbn [upd]; constructor; auto. Qed.

(* what a session does *)
Lemma qset_flat q k r : Forall (fun e : Z * request => req_flat (snd e)) q -> req_flat r -> Forall (fun e : Z * request => req_flat (snd e)) (qset q k r).
Proof. intros Q R. constructor; [exact R|]. unfold qdel. rewrite Forall_forall in *. intros e I. apply filter_In in I. apply Q. tauto. Qed.
Lemma write_tidy w a r w' o : tidy w -> req_flat r -> write w a r = (w', o) -> tidy w'.
Proof.
  intros T R. unfold write. destruct (s_proto (w_s w) =? ProtoHTTP); [intros E; injection E as <- _; exact T|]. cbv zeta.
  assert (G : tidy (mkW (w_s w) (w_in w) (tl (w_writes w)) (w_listens w) (w_rand w) (w_log w ++ [Sent a r]))).
  { destruct T as (S & Rn & L). split; [exact S|]. split; [exact Rn|]. cbn [w_log]. apply Forall_app. split; [exact L|]. constructor; [exact R|constructor]. }
  destruct (w_writes w) as [|[e|] ?]; intros E; injection E as <- _; exact G.
Qed.
Lemma command_tidy w verb uri hs w' o : tidy w -> In verb request_verbs -> flat uri ->
  fields_known verb (fold_left (fun h e => header_set h (fst e) (snd e)) hs []) -> command w verb uri hs = (w', o) -> tidy w'.
Proof.
  intros T V U K. unfold command. destruct (s_conn (w_s w)); cbn [negb]; [|intros E; injection E as <- _; exact T]. cbv zeta. destruct T as ((SU & SA & SS & SQ & SF & SC) & R & L).
  destruct (call_auth (w_s w) verb) as [s1 auth] eqn:C. apply call_flat in C; [|exact SA]. destruct C as (FA & A1 & EU & ES & EQ & EF & EC). unfold enqueue. cbv zeta. cbn [q_verb q_uri q_auth q_header set_cseq s_cseq s_session s_queue].
  set (rq := mkReq verb (i64 (s_cseq s1 + 1)) uri auth (s_session s1) (fold_left (fun h e => header_set h (fst e) (snd e)) hs [])).
  assert (RF : req_flat rq). { unfold rq. split; [exact V|]. cbn [q_verb q_uri q_auth q_session q_header]. rewrite ES. splits; auto. }
  apply write_tidy; [|exact RF]. split; [|split; [exact R|exact L]]. cbn [upd_s w_s]. unfold ses_flat. cbn [set_queue set_cseq s_uri s_auth s_session s_queue s_feeds s_user]. rewrite EU, ES, EF, EC. splits; auto. apply qset_flat; [rewrite EQ; exact SQ|exact RF].
Qed.
Ltac isverb := unfold request_verbs; cbn [In]; auto 9.
Lemma with_conn_tidy w k w' o : tidy w -> (s_conn (w_s w) = true -> forall w' o, k (w_s w) = (w', o) -> tidy w') -> with_conn w k = (w', o) -> tidy w'.
Proof. intros T K. unfold with_conn. destruct (s_conn (w_s w)); [apply K; reflexivity|]. intros E. injection E as <- _. exact T. Qed.
Lemma tidy_uri w : tidy w -> flat (s_uri (w_s w)).
Proof. intros ((U & _) & _). exact U. Qed.
Lemma known_none verb : fields_known verb [].
Proof. left. reflexivity. Qed.
Lemma setup_from_tidy todo : Forall feed_flat todo -> forall w i w' o, tidy w -> setup_from w i todo = (w', o) -> tidy w'.
Proof.
  intros F. induction F as [|f todo P F IH]; intros w i w' o T E; cbn [setup_from] in E; [injection E as <- _; exact T|]. destruct P as (C & TR).
  destruct (setup_uri (w_s w) (m_control (fd_media f))) as [uri|e| |] eqn:U; try (injection E as <- _; exact T).
  assert (FU : flat uri).
  { unfold setup_uri in U. destruct (has_prefix (bs "rtsp://") (m_control (fd_media f))); [injection U as <-; exact C|]. destruct (s_conn (w_s w)); [|discriminate]. injection U as <-. apply flat_app. split; [apply tidy_uri, T|]. apply flat_cons. split; [discriminate|exact C]. }
  destruct (command w (bs "SETUP") uri [(bs "Transport", transport_string (fd_transp f))]) as [w1 [u|e| |]] eqn:K; apply command_tidy in K; auto; try isverb; try (injection E as <- _; exact K).
  2,3,4,5: right; exists (bs "Transport"), (transport_string (fd_transp f)); (split; [reflexivity|]); (split; [apply transport_flat; apply TR|]); auto.
  apply IH in E; [exact E|]. destruct K as ((SU & SA & SS & SQ & SF & SC) & R & L). split; [|split; [exact R|exact L]]. cbn [upd_s w_s]. unfold mark_feed. destruct (nth_error (s_feeds (w_s w1)) i) as [g|] eqn:N; [|unfold ses_flat; splits; auto].
  unfold ses_flat. cbn [set_feeds s_uri s_auth s_session s_queue s_feeds s_user]. splits; auto. apply upd_Forall; [|exact SF]. rewrite Forall_forall in SF. apply nth_error_In in N. exact (SF g N).
Qed.
Lemma tidy_feeds w : tidy w -> Forall feed_flat (s_feeds (w_s w)).
Proof. intros ((_ & _ & _ & _ & F & _) & _). exact F. Qed.
Lemma setup_tidy w w' o : tidy w -> setup w = (w', o) -> tidy w'.
Proof. intros T. apply setup_from_tidy; [apply tidy_feeds, T|exact T]. Qed.
Lemma keepalive_tidy w t1 t2 w' o : tidy w -> keepalive w t1 t2 = (w', o) -> tidy w'.
Proof.
  intros T. apply with_conn_tidy; [exact T|]. intros _ w2 o2. destruct (_ && _); [|intros E; injection E as <- _; exact T].
  destruct (match s_last (w_s w) with None => true | Some l => t1 - l >=? keepAliveTimeout end); [|intros E; injection E as <- _; exact T].
  apply command_tidy; [|isverb|apply tidy_uri, T|].
  - apply tidy_note; [|exact I]. apply tidy_upd; [exact T|]. exact (proj1 T).
  - right. exists (bs "Session"), (s_session (w_s w)). split; [reflexivity|]. split; [|auto]. destruct T as ((_ & _ & S & _) & _). exact S.
Qed.
Lemma describe_tidy w w' o : tidy w -> describe w = (w', o) -> tidy w'.
Proof.
  intros T. apply with_conn_tidy; [exact T|]. intros _ w2 o2. apply command_tidy; [exact T|isverb|apply tidy_uri, T|].
  right. exists (bs "Accept"), (bs "application/sdp"). split; [reflexivity|]. split; [lit|auto].
Qed.
Lemma do_cmd_tidy w c w' o : tidy w -> do_cmd w c = (w', o) -> tidy w'.
Proof.
  intros T. destruct c; cbn [do_cmd]; try (apply describe_tidy, T); try (apply setup_tidy, T); try (apply keepalive_tidy, T);
    (apply with_conn_tidy; [exact T|]; intros _ w2 o2; apply command_tidy; [exact T|isverb|apply tidy_uri, T|apply known_none]).
Qed.
Lemma add_sink_tidy w ch port w' o : tidy w -> add_sink w ch port = (w', o) -> tidy w'.
Proof.
  intros T. unfold add_sink. destruct (w_listens w) as [|[e|] l]; intros E; injection E as <- _.
  2: destruct T as (S & R & L); split; [exact S|split; [exact R|exact L]].
  all: apply tidy_note; [|exact I]; destruct T as (S & R & L); split; [exact S|split; [exact R|exact L]].
Qed.
Lemma put_feed_tidy w i f g : tidy w -> feed_flat f -> (forall s, ses_flat s -> ses_flat (g s)) -> tidy (upd_s (upd_s w g) (put_feed i f)).
Proof.
  intros (S & R & L) F G. split; [|split; [exact R|exact L]]. cbn [upd_s w_s]. apply G in S. destruct S as (SU & SA & SS & SQ & SF & SC). unfold put_feed, ses_flat. cbn [set_feeds s_uri s_auth s_session s_queue s_feeds s_user]. splits; auto. apply upd_Forall; assumption.
Qed.
Lemma setup_feeds_tidy todo : Forall feed_flat todo -> forall w cseq v i w' o, flat v -> tidy w -> setup_feeds w cseq v i todo = (w', o) -> tidy w'.
Proof.
  intros F. induction F as [|f todo P F IH]; intros w cseq v i w' o V T E; cbn [setup_feeds] in E; [injection E as <- _; exact T|].
  destruct (fd_cseq f =? cseq); [|eapply IH; eauto]. cbv zeta in E. destruct (transport_setup f v) as [f' o1] eqn:TS. pose proof (transport_setup_flat _ _ _ _ V P TS) as FF.
  assert (T1 : tidy (upd_s (upd_s w (fun s => set_feedidx s (i64 (s_feedidx s + 1)))) (put_feed i f'))) by (apply put_feed_tidy; [exact T|exact FF|intros s S; exact S]).
  destruct o1 as [u|e| |]; try (injection E as <- _; exact T1). destruct (t_tcp (fd_transp f')); [eapply IH; eauto|].
  match type of E with context [add_sink ?a ?b ?p] => destruct (add_sink a b p) as [w1 [u1|e1| |]] eqn:E1; apply add_sink_tidy in E1 end; try exact T1; try (injection E as <- _; exact E1).
  match type of E with context [add_sink ?a ?b ?p] => destruct (add_sink a b p) as [w2 [u2|e2| |]] eqn:E2; apply add_sink_tidy in E2 end; try exact E1; try (injection E as <- _; exact E2).
  exact (IH _ _ _ _ _ _ V E2 E).
Qed.
Lemma notify_tidy w st : tidy w -> tidy (notify w st).
Proof. intros T. apply tidy_note; [|exact I]. apply tidy_upd; [exact T|]. exact (proj1 T). Qed.
Lemma handle_setup_tidy w r w' o : vals_flat (p_header r) -> tidy w -> handle_setup w r = (w', o) -> tidy w'.
Proof.
  intros V T. unfold handle_setup.
  assert (F : forall w w' o, tidy w -> (if s_feedidx (w_s w) >=? zlen (s_feeds (w_s w)) then (note (notify w StageReady) Started, @Ok unit tt) else (w, Ok tt)) = (w', o) -> tidy w').
  { clear. intros w w' o T E. destruct (s_feedidx (w_s w) >=? zlen (s_feeds (w_s w))); injection E as <- _; [|exact T]. apply tidy_note; [apply notify_tidy, T|exact I]. }
  destruct (p_code r =? 200).
  - destruct (setup_feeds w (p_cseq r) (header_get (p_header r) (bs "Transport")) 0 (s_feeds (w_s w))) as [w1 [u|e| |]] eqn:E;
      apply setup_feeds_tidy in E; try apply tidy_feeds; try apply header_get_flat; auto; intros X; try (injection X as <- _; exact E). apply F in X; assumption.
  - destruct (p_code r =? 401); cbn [negb]; intros X; apply F in X; auto.
Qed.
Lemma react_tidy w req r w' o : vals_flat (p_header r) -> tidy w -> react w req r = (w', o) -> tidy w'.
Proof.
  intros V T. unfold react. destruct (beq (q_verb req) (bs "OPTIONS")).
  { destruct (s_stage (w_s w) =? StageInit); [|intros E; injection E as <- _; exact T]. apply describe_tidy. apply tidy_upd; [exact T|]. exact (proj1 T). }
  destruct (beq (q_verb req) (bs "DESCRIBE")).
  { destruct (p_body r) as [body|]; [|intros E; injection E as <- _; exact T]. destruct (parse_feeds (s_proto (w_s w)) body) as [fs| | |] eqn:P; intros E; try (injection E as <- _; exact T).
    apply setup_tidy in E; [exact E|]. apply tidy_upd; [exact T|]. destruct T as ((SU & SA & SS & SQ & SF & SC) & _). unfold ses_flat. cbn [set_feeds s_uri s_auth s_session s_queue s_feeds s_user]. splits; auto. eapply parse_feeds_flat, P. }
  assert (K : forall st w' o, (if p_code r =? 200 then notify w st else w, @Ok unit tt) = (w', o) -> tidy w').
  { intros st w2 o2 E. destruct (p_code r =? 200); injection E as <- _; [apply notify_tidy, T|exact T]. }
  destruct (beq (q_verb req) (bs "PAUSE")); [apply K|]. destruct (beq (q_verb req) (bs "PLAY")); [apply K|].
  destruct (beq (q_verb req) (bs "TEARDOWN")); [apply K|]. destruct (beq (q_verb req) (bs "SETUP")); [apply handle_setup_tidy; assumption|].
  intros E; injection E as <- _; exact T.
Qed.
Lemma retry_tidy w req r w' o : vals_flat (p_header r) -> req_flat req -> tidy w -> retry w req r = (w', o) -> tidy w'.
Proof.
  intros V (RV & RU & RA & RS & RK) T. unfold retry, authorize. pose proof (header_get_flat _ (bs "WWW-Authenticate") V) as CH.
  destruct (new_digest (s_uri (w_s w)) (header_get (p_header r) (bs "WWW-Authenticate"))) as [d| | |] eqn:N; try (intros E; injection E as <- _; exact T).
  destruct T as ((SU & SA & SS & SQ & SF & SC) & R & L). destruct (s_user (w_s w)) as [[user pass]|] eqn:US.
  2: { intros E; injection E as <- _. split; [unfold ses_flat; rewrite US; splits; auto|split; [exact R|exact L]]. }
  destruct SC as (C1 & C2 & C3). assert (RH : bytes_ok (hd [] (w_rand w))) by (destruct R; [constructor|assumption]).
  pose proof (authenticate_flat _ _ _ user pass (hd [] (w_rand w)) SU CH N C1 C2 C3 RH) as AF. destruct (authenticate d user pass (hd [] (w_rand w))) as [d' text]. cbn [w_s].
  destruct (call_auth (set_auth (w_s w) (Some (text, d'))) (q_verb req)) as [s2 out2] eqn:CA. apply call_flat in CA; [|exact AF]. destruct CA as (FA & A1 & EU & ES & EQ & EF & EC). cbn [set_auth s_uri s_session s_queue s_feeds s_user] in *.
  unfold enqueue. cbv zeta. cbn [q_verb q_uri q_auth q_header].
  assert (RF : req_flat (mkReq (q_verb req) (s_cseq s2) (q_uri req) out2 (s_session s2) (q_header req))).
  { split; [exact RV|]. cbn [q_verb q_uri q_auth q_session q_header]. rewrite ES. splits; auto. }
  apply write_tidy; [|exact RF]. split; [|split; [destruct R; [constructor|assumption]|exact L]]. cbn [upd_s w_s]. unfold ses_flat. cbn [set_queue s_uri s_auth s_session s_queue s_feeds s_user]. rewrite EU, ES, EF, EC, US. splits; auto. apply qset_flat; [rewrite EQ; exact SQ|rewrite <- ES; exact RF].
Qed.
Lemma handle_response_tidy w r w' o : vals_flat (p_header r) -> tidy w -> handle_response w r = (w', o) -> tidy w'.
Proof.
  intros V T. unfold handle_response. cbv zeta. assert (T1 : tidy (note w (Got r))) by (apply tidy_note; [exact T|exact I]). cbn [note w_s]. destruct (qget (s_queue (w_s w)) (p_cseq r)) as [req|] eqn:Q; [|intros E; injection E as <- _; exact T1].
  pose proof T as ((SU & SA & SS & SQ & SF & SC) & _).
  assert (T2 : tidy (upd_s (note w (Got r)) (fun s => set_queue s (qdel (s_queue s) (p_cseq r))))).
  { apply tidy_upd; [exact T1|]. unfold ses_flat. cbn [note w_s set_queue s_uri s_auth s_session s_queue s_feeds s_user]. splits; auto. unfold qdel. rewrite Forall_forall in *. intros e I. apply filter_In in I. apply SQ. tauto. }
  assert (RQ : req_flat req).
  { clear - Q SQ. induction SQ as [|[k x] q X SQ IH]; cbn [qget] in Q; [discriminate|]. destruct (k =? p_cseq r); [injection Q as <-; exact X|auto]. }
  destruct (p_code r =? 401); [apply retry_tidy; assumption|]. apply react_tidy; [exact V|]. apply tidy_upd; [exact T2|]. destruct T2 as ((A1 & A2 & A3 & A4 & A5 & A6) & _). unfold learn_session.
  pose proof (header_get_flat _ (bs "Session") V) as HS. destruct (beq (header_get (p_header r) (bs "Session")) []); [unfold ses_flat; splits; auto|].
  unfold ses_flat. cbn [set_session s_uri s_auth s_session s_queue s_feeds s_user]. splits; auto. pose proof (flat_split 59 _ HS) as P. destruct (split_on 59 _); [apply flat_nil|]. apply Forall_cons_iff in P. tauto.
Qed.
Lemma receive_tidy w w' o : tidy w -> receive w = (w', o) -> tidy w'.
Proof.
  intros T. unfold receive.
  assert (A : forall s0 w' o, match unpack_response s0 with (s1, Ok r) => handle_response (upd_in w s1) r | (s1, Err e) => (upd_in w s1, Err e) | (s1, Panic) => (upd_in w s1, Panic) | (s1, Fuel) => (upd_in w s1, Fuel) end = (w', o) -> tidy w').
  { intros s0 w2 o2. destruct (unpack_response s0) as [s1 [r|e| |]] eqn:U; try (intros E; injection E as <- _; apply tidy_in, T). apply unpack_flat in U. apply handle_response_tidy; [exact U|]. apply tidy_in, T. }
  destruct (peek 1 (w_in w)) as [s0 [b|e| |]]; try (intros E; injection E as <- _; apply tidy_in, T).
  destruct b as [|b0 bt]; [apply A|]. destruct (Z.eq_dec b0 36) as [->|N].
  - destruct bt; [|apply A]. destruct (read_byte (discard 1 s0)) as [s1 [ch|e| |]]; try (intros E; injection E as <- _; apply tidy_in, T). destruct (read_uint16 s1) as [s2 [len|e| |]]; try (intros E; injection E as <- _; apply tidy_in, T).
    destruct (read_bytes len s2) as [s3 [p|e| |]]; intros E; injection E as <- _; try apply tidy_in, T. apply tidy_note; [apply tidy_in, T|exact I].
  - destruct b0 as [|q|q]; try apply A. repeat (destruct q as [q|q|]; try apply A). contradiction N. reflexivity.
Qed.
Lemma turn_tidy w t1 t2 w' x : tidy w -> turn w t1 t2 = (w', x) -> tidy w'.
Proof.
  intros T. unfold turn. destruct (keepalive w t1 t2) as [w1 k] eqn:K. apply keepalive_tidy in K; [|exact T].
  assert (R : forall w' x, match receive w1 with (w, Ok _) => (w, Again) | (w, Err e) => (w, if is_timeout e then Again else Stop) | (w, Panic) | (w, Fuel) => (w, Crash) end = (w', x) -> tidy w').
  { intros w2 y. destruct (receive w1) as [w3 o] eqn:E. apply receive_tidy in E; [|exact K]. destruct o; intros X; injection X as <- _; exact E. }
  destruct k as [u|e| |]; try (intros X; injection X as <- _; exact K); [apply R|]. destruct (s_stage (w_s w1) =? StageDone); [intros X; injection X as <- _; exact K|apply R].
Qed.
Lemma run_tidy es : forall w l w' l', tidy w -> run (w, l) es = (w', l') -> tidy w'.
Proof.
  induction es as [|e es IH]; intros w l w' l' T R; cbn [run fold_left] in R; [injection R as <- _; exact T|]. fold (run (step (w, l) e) es) in R. destruct (step (w, l) e) as [w1 l1] eqn:S. apply IH in R; [exact R|]. clear R. unfold step in S.
  destruct l, e as [c|t1 t2]; try (injection S as <- _; exact T).
  1,3: destruct (do_cmd w c) as [w2 o] eqn:D; apply do_cmd_tidy in D; [|exact T]; destruct o; injection S as <- _; exact D.
  destruct (turn w t1 t2) as [w2 x] eqn:D. apply turn_tidy in D; [|exact T]. destruct x; injection S as <- _; exact D.
Qed.
