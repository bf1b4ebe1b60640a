(* Lemmas about Transport headers. *)
From Coq Require Import String.
From Verif Require Import Base GoStrings S_transport M_transport L_base L_strings.
From Coq Require Import ZifyBool ZifyNat.

Lemma digits_absent c s : all_digits s -> ~ (48 <= c <= 57) -> ~ In c s.
Proof. intros A H I. unfold all_digits in A. rewrite Forall_forall in A. apply H, A, I. Qed.

Lemma itoa_absent c z : c <> 45 -> ~ (48 <= c <= 57) -> ~ In c (itoa z).
Proof. intros H1 H2 I. apply itoa_chars in I. tauto. Qed.

Lemma parse_pair_string p : pair_ok p -> parse_pair (pair_string p) = (p, None).
Proof.
  intros [H1 H2]. destruct (itoa_nonneg (p_one p) ltac:(lia)) as [A1 _]. destruct (itoa_nonneg (p_two p) ltac:(lia)) as [A2 _].
  unfold parse_pair, pair_string. change (bs "-" ++ ?x) with (45 :: x). rewrite split_on_app by (apply digits_absent; [exact A1|lia]).
  rewrite split_on_none by (apply digits_absent; [exact A2|lia]).
  rewrite !atoi_itoa by lia. destruct p; reflexivity.
Qed.

Lemma pair_string_absent c p : c <> 45 -> ~ (48 <= c <= 57) -> ~ In c (pair_string p).
Proof.
  intros H1 H2 I. unfold pair_string in I. apply in_app_or in I as [I|I]; [eapply itoa_absent; eauto|].
  apply in_app_or in I as [I|I]; [destruct I as [I|[]]; vm_compute in I; congruence|eapply itoa_absent; eauto].
Qed.

Lemma parse_fields_app a : forall t b, parse_fields t (a ++ b) =
  match parse_fields t a with (u, None) => parse_fields u b | r => r end.
Proof.
  induction a as [|f a IH]; intros t b; cbn [app parse_fields]; [reflexivity|].
  destruct (parse_field t f) as [u [e|]]; [reflexivity|]. apply IH.
Qed.

(* the fields of a transport header *)
Definition opt (b : bool) (f : bytes) : list bytes := if b then [f] else [].
Definition transport_fields (t : transport) : list bytes :=
  (if t_tcp t then [bs "RTP/AVP/TCP"] else [bs "RTP/AVP"; if t_multicast t then bs "multicast" else bs "unicast"])
  ++ opt (negb (beq (t_destination t) [])) (bs "destination" ++ 61 :: t_destination t)
  ++ opt (negb (beq (t_source t) [])) (bs "source" ++ 61 :: t_source t)
  ++ opt (t_interleaved t) (bs "interleaved" ++ 61 :: pair_string (t_interleave t))
  ++ opt (t_append t) (bs "append")
  ++ opt (p_one (t_port t) >? 0) (bs "port" ++ 61 :: pair_string (t_port t))
  ++ opt (p_one (t_client_port t) >? 0) (bs "client_port" ++ 61 :: pair_string (t_client_port t))
  ++ opt (p_one (t_server_port t) >? 0) (bs "server_port" ++ 61 :: pair_string (t_server_port t))
  ++ opt (t_multicast t && (t_ttl t >? 0)) (bs "ttl" ++ 61 :: itoa (t_ttl t))
  ++ opt (t_layers t >? 0) (bs "layers" ++ 61 :: itoa (t_layers t))
  ++ opt (negb (beq (t_ssrc t) [])) (bs "ssrc" ++ 61 :: t_ssrc t)
  ++ opt (negb (beq (t_mode t) []) && negb (beq (t_mode t) (bs "PLAY"))) (bs "mode" ++ 61 :: t_mode t).

Fixpoint tailjoin (c : Z) (l : list bytes) : bytes := match l with [] => [] | x :: r => c :: x ++ tailjoin c r end.
Lemma join_tail c x l : join c (x :: l) = x ++ tailjoin c l.
Proof.
  revert x; induction l as [|y l IH]; intros x; [cbn; rewrite app_nil_r; reflexivity|].
  change (join c (x :: y :: l)) with (x ++ c :: join c (y :: l)). rewrite IH. reflexivity.
Qed.
Lemma tailjoin_app c a b : tailjoin c (a ++ b) = tailjoin c a ++ tailjoin c b.
Proof. induction a as [|x a IH]; cbn [app tailjoin]; [reflexivity|]. rewrite IH, <- app_assoc. reflexivity. Qed.
Lemma tailjoin_opt c b f : tailjoin c (opt b f) = if b then c :: f else [].
Proof. destruct b; cbn; rewrite ?app_nil_r; reflexivity. Qed.

Lemma transport_string_join t : transport_string t = join 59 (transport_fields t).
Proof.
  unfold transport_string, transport_fields.
  assert (G : forall l, join 59 ((if t_tcp t then [bs "RTP/AVP/TCP"] else [bs "RTP/AVP"; if t_multicast t then bs "multicast" else bs "unicast"]) ++ l)
    = bs "RTP/AVP" ++ (if t_tcp t then bs "/TCP" else if t_multicast t then bs ";multicast" else bs ";unicast") ++ tailjoin 59 l).
  { intros l. destruct (t_tcp t); cbn [app]; rewrite join_tail; [reflexivity|]. destruct (t_multicast t); reflexivity. }
  rewrite G. do 2 f_equal. rewrite !tailjoin_app, !tailjoin_opt.
  repeat match goal with |- context [if negb (beq ?x []) then _ else _] => destruct (beq x []) end; cbn [negb andb]; reflexivity.
Qed.

Lemma In_not_app (c : Z) (a b : bytes) : ~ In c a -> ~ In c b -> ~ In c (a ++ b).
Proof. intros A B I. apply in_app_or in I as [I|I]; auto. Qed.

Lemma key_absent c k v : absent c k = true -> c <> 61 -> ~ In c v -> ~ In c (k ++ 61 :: v).
Proof. intros A N V. apply absent_spec in A. apply In_not_app; [exact A|]. intros [E|I]; auto. Qed.

Lemma opt_Forall (P : bytes -> Prop) b f : P f -> Forall P (opt b f).
Proof. intros H. destruct b; repeat constructor; exact H. Qed.

Lemma transport_fields_ok t : transport_ok t -> transport_fields t <> [] /\ Forall (fun x => ~ In 59 x) (transport_fields t).
Proof.
  intros (_ & _ & _ & _ & _ & _ & [D _] & [S _] & [C _] & [M _]). split.
  { unfold transport_fields. destruct (t_tcp t); discriminate. }
  unfold transport_fields. repeat (apply Forall_app; split); try apply opt_Forall;
    try (apply key_absent; [reflexivity | lia | first [assumption | apply pair_string_absent; lia | apply itoa_absent; lia]]).
  - destruct (t_tcp t); [|destruct (t_multicast t)]; repeat constructor; apply absent_spec; reflexivity.
  - apply absent_spec; reflexivity.
Qed.

(* one parameter *)
Lemma no_slash t f : ~ In 47 f -> match split_on 47 f with [_; _; c] => set_tcp t (beq (to_upper c) (bs "TCP")) | _ => t end = t.
Proof. intros H. rewrite split_on_none by exact H. reflexivity. Qed.

Lemma parse_field_key t k v : absent 61 k = true -> absent 47 k = true -> ~ In 47 v ->
  parse_field t (k ++ 61 :: v) = 
  let key := to_lower k in
  if beq key (bs "unicast") then (set_multicast t false, None)
  else if beq key (bs "multicast") then (set_multicast t true, None)
  else if beq key (bs "destination") then (set_destination t v, None)
  else if beq key (bs "source") then (set_source t v, None)
  else if beq key (bs "interleaved") then let '(p, e) := parse_pair v in (set_interleave (set_multicast t false) p, e)
  else if beq key (bs "append") then (set_append t true, None)
  else if beq key (bs "layers") then let '(n, e) := atoi v in (set_layers t n, e)
  else if beq key (bs "ttl") then let '(n, e) := atoi v in (set_ttl t n, e)
  else if beq key (bs "port") then let '(p, e) := parse_pair v in (set_port t p, e)
  else if beq key (bs "client_port") then let '(p, e) := parse_pair v in (set_client_port t p, e)
  else if beq key (bs "server_port") then let '(p, e) := parse_pair v in (set_server_port t p, e)
  else if beq key (bs "ssrc") then (set_ssrc t v, None)
  else if beq key (bs "mode") then (set_mode t v, None)
  else (t, None).
Proof.
  intros H1 H2 H3. unfold parse_field. rewrite no_slash by (apply key_absent; [exact H2|lia|exact H3]).
  rewrite split2_app by (apply absent_spec; exact H1). reflexivity.
Qed.

(* applying an optional parameter *)
Ltac one_field set get v tac :=
  match goal with
  | |- context [parse_fields ?u (opt ?b ?f)] =>
      let E := fresh "E" in
      assert (E : parse_fields u (opt b f) = (set u (if b then v else get u), None));
      [ destruct b; cbn [opt parse_fields]; [tac | reflexivity] | rewrite E; clear E ]
  end.
Ltac by_text := rewrite parse_field_key by (reflexivity || assumption); reflexivity.
Ltac by_pair := rewrite parse_field_key by (reflexivity || (apply pair_string_absent; lia)); cbv zeta; rewrite parse_pair_string by assumption; reflexivity.
Ltac by_int := rewrite parse_field_key by (reflexivity || (apply itoa_absent; lia)); cbv zeta; rewrite atoi_itoa by assumption; reflexivity.
Definition set_inter (u : transport) (x : bool * pair) := set_interleave (set_multicast u (fst x)) (snd x).
Definition get_inter (u : transport) := (t_multicast u, t_interleave u).

Lemma or_text_beq a b : (if negb (beq a []) then a else b) = or_text a b.
Proof. destruct a; reflexivity. Qed.

Lemma parse_transport_string u t : transport_ok t -> transport_parse u (transport_string t) = (received u t, None).
Proof.
  intros H. destruct (transport_fields_ok t H) as [N F].
  unfold transport_parse. rewrite transport_string_join, split_join by assumption. clear N F.
  destruct H as (Pi & Pp & Pc & Ps & Ll & Lt & [_ D] & [_ S] & [_ C] & [_ M]).
  unfold transport_fields. rewrite parse_fields_app.
  assert (E1 : parse_fields u (if t_tcp t then [bs "RTP/AVP/TCP"] else [bs "RTP/AVP"; if t_multicast t then bs "multicast" else bs "unicast"])
               = (set_multicast (set_tcp u (t_tcp t || t_tcp u)) (if t_tcp t then t_multicast u else t_multicast t), None)).
  { destruct (t_tcp t); [|destruct (t_multicast t)]; destruct u; reflexivity. }
  rewrite E1. clear E1. set (u1 := set_multicast _ _).
  rewrite parse_fields_app. one_field set_destination t_destination (t_destination t) by_text. set (u2 := set_destination _ _).
  rewrite parse_fields_app. one_field set_source t_source (t_source t) by_text. set (u3 := set_source _ _).
  rewrite parse_fields_app. one_field set_inter get_inter (false, t_interleave t) by_pair. set (u4 := set_inter _ _).
  rewrite parse_fields_app. one_field set_append t_append true reflexivity. set (u5 := set_append _ _).
  rewrite parse_fields_app. one_field set_port t_port (t_port t) by_pair. set (u6 := set_port _ _).
  rewrite parse_fields_app. one_field set_client_port t_client_port (t_client_port t) by_pair. set (u7 := set_client_port _ _).
  rewrite parse_fields_app. one_field set_server_port t_server_port (t_server_port t) by_pair. set (u8 := set_server_port _ _).
  rewrite parse_fields_app. one_field set_ttl t_ttl (t_ttl t) by_int. set (u9 := set_ttl _ _).
  rewrite parse_fields_app. one_field set_layers t_layers (t_layers t) by_int. set (u10 := set_layers _ _).
  rewrite parse_fields_app. one_field set_ssrc t_ssrc (t_ssrc t) by_text. set (u11 := set_ssrc _ _).
  one_field set_mode t_mode (t_mode t) by_text.
  f_equal. unfold received, or_pair. rewrite <- !or_text_beq.
  destruct (t_interleaved t), (t_append t), (beq (t_mode t) (bs "PLAY")), (beq (t_mode t) []); reflexivity.
Qed.

(* ---- feeds ---- *)
Lemma feed_offered proto n i t : In proto [ProtoTCP; ProtoUnicast; ProtoMulticast; ProtoHTTP] ->
  Z.of_nat n < 2 ^ 61 -> nth_error (feed_transports proto n) i = Some t ->
  exists c, (c = (if (proto =? ProtoTCP) || (proto =? ProtoHTTP) then 0 else 50000) /\
             t_tcp t = (proto =? ProtoTCP) || (proto =? ProtoHTTP)) /\
    offered t = mkPair (c + 2 * Z.of_nat i) (c + 2 * Z.of_nat i + 1).
Proof.
  intros Hp Hn E. unfold feed_transports in E.
  assert (Hi : (i < n)%nat).
  { assert (nth_error (map (fun i => new_transport proto (Z.of_nat i * 2)) (seq 0 n)) i <> None) as Q by congruence.
    apply nth_error_Some in Q. rewrite map_length, seq_length in Q. exact Q. }
  rewrite nth_error_map in E. rewrite (nth_error_nth' (seq 0 n) 0%nat) in E by (rewrite seq_length; exact Hi).
  rewrite seq_nth in E by exact Hi. cbn [option_map Nat.add] in E. injection E as <-.
  eexists. split; [split; [reflexivity|]|].
  - destruct Hp as [<-|[<-|[<-|[<-|[]]]]]; reflexivity.
  - destruct Hp as [<-|[<-|[<-|[<-|[]]]]]; unfold new_transport, offered; cbn [Z.eqb ProtoTCP ProtoHTTP ProtoUnicast ProtoMulticast orb Pos.eqb t_interleaved t_multicast t_interleave t_port t_client_port];
      rewrite ?i64_small by lia; f_equal; lia.
Qed.

(* text that is no number *)
Lemma parse_digits_bad s : forall a, (exists c, In c s /\ ~ (48 <= c <= 57)) -> match parse_digits a s with UVal _ => False | _ => True end.
Proof.
  induction s as [|x s IH]; intros a (c & I & N); [destruct I|]. cbn [parse_digits]. destruct (is_digit x) eqn:D; [|exact Logic.I].
  destruct I as [<-|I]; [unfold is_digit in D; lia|].
  repeat (match goal with |- context [if ?b then _ else _] => destruct b end; try exact Logic.I). apply IH. exists c. auto.
Qed.
Lemma atoi_bad w : ~ In 45 w -> (w = [] \/ exists c, In c w /\ ~ (48 <= c <= 57) /\ c <> 43) -> exists v e, atoi w = (v, Some e).
Proof.
  intros N [->|(c & I & D & P)]; [do 2 eexists; reflexivity|]. destruct w as [|x w]; [destruct I|]. unfold atoi.
  destruct (x =? 45) eqn:E; [exfalso; apply N; left; lia|].
  assert (B : forall s, In c s -> match parse_uint s with UVal _ => False | _ => True end).
  { intros s J. destruct s as [|y s]; [exact Logic.I|]. apply parse_digits_bad. exists c. auto. }
  destruct (x =? 43) eqn:E2.
  - destruct I as [I|I]; [lia|]. specialize (B w I). destruct (parse_uint w); [contradiction| |]; do 2 eexists; reflexivity.
  - specialize (B (x :: w) I). destruct (parse_uint (x :: w)); [contradiction| |]; do 2 eexists; reflexivity.
Qed.

Lemma offer_other proto n i t : ~ In proto [ProtoTCP; ProtoUnicast; ProtoMulticast; ProtoHTTP] ->
  nth_error (feed_transports proto n) i = Some t -> transport_string t = bs "RTP/AVP;unicast".
Proof.
  intros N E. unfold feed_transports in E. rewrite nth_error_map in E. destruct (nth_error (seq 0 n) i) as [k|]; [|discriminate].
  cbn [option_map] in E. injection E as <-. unfold new_transport. cbn [In] in N.
  replace (proto =? ProtoTCP) with false by lia. replace (proto =? ProtoHTTP) with false by lia.
  replace (proto =? ProtoUnicast) with false by lia. replace (proto =? ProtoMulticast) with false by lia. reflexivity.
Qed.

Lemma offer_texts proto n i t : Z.of_nat n < 2 ^ 61 -> nth_error (feed_transports proto n) i = Some t ->
  (proto = ProtoTCP \/ proto = ProtoHTTP ->
    transport_string t = bs "RTP/AVP/TCP;interleaved=" ++ itoa (2 * Z.of_nat i) ++ bs "-" ++ itoa (2 * Z.of_nat i + 1)) /\
  (proto = ProtoUnicast ->
    transport_string t = bs "RTP/AVP;unicast;client_port=" ++ itoa (50000 + 2 * Z.of_nat i) ++ bs "-" ++ itoa (50001 + 2 * Z.of_nat i)) /\
  (proto = ProtoMulticast ->
    transport_string t = bs "RTP/AVP;multicast;port=" ++ itoa (50000 + 2 * Z.of_nat i) ++ bs "-" ++ itoa (50001 + 2 * Z.of_nat i)).
Proof.
  intros Hn E. unfold feed_transports in E.
  assert (L : (i < n)%nat).
  { assert (nth_error (map (fun i => new_transport proto (Z.of_nat i * 2)) (seq 0 n)) i <> None) as Q by congruence.
    apply nth_error_Some in Q. rewrite map_length, seq_length in Q. exact Q. }
  rewrite nth_error_map in E. replace (nth_error (seq 0 n) i) with (Some i) in E.
  2:{ symmetry. rewrite (nth_error_nth' (seq 0 n) 0%nat) by (rewrite seq_length; exact L). f_equal. apply seq_nth, L. }
  cbn [option_map] in E. injection E as <-. replace (Z.of_nat i * 2) with (2 * Z.of_nat i) by lia. set (k := Z.of_nat i) in *.
  assert (K : 0 <= k < 2 ^ 61) by lia.
  splits.
  - intros HP. replace (new_transport proto (2 * k)) with (mkTr true false true false (mkPair (2 * k) (i64 (2 * k + 1))) pair0 pair0 pair0 0 0 [] [] [] (bs "PLAY")).
    2:{ destruct HP as [-> | ->]; reflexivity. }
    rewrite i64_small by lia. unfold transport_string, pair_string. cbn -[itoa]. rewrite ?app_nil_r. reflexivity.
  - intros ->. unfold new_transport. cbn [Z.eqb ProtoTCP ProtoHTTP ProtoUnicast Pos.eqb orb]. cbv zeta. rewrite !i64_small by lia.
    unfold transport_string, pair_string. cbn -[itoa Z.add Z.mul]. replace (50000 + 2 * k >? 0) with true by lia.
    cbn -[itoa Z.add Z.mul]. rewrite ?app_nil_r. replace (50000 + 2 * k + 1) with (50001 + 2 * k) by lia. reflexivity.
  - intros ->. unfold new_transport. cbn [Z.eqb ProtoTCP ProtoHTTP ProtoUnicast ProtoMulticast Pos.eqb orb]. cbv zeta. rewrite !i64_small by lia.
    unfold transport_string, pair_string. cbn -[itoa Z.add Z.mul]. replace (50000 + 2 * k >? 0) with true by lia.
    cbn -[itoa Z.add Z.mul]. rewrite ?app_nil_r. replace (50000 + 2 * k + 1) with (50001 + 2 * k) by lia. reflexivity.
Qed.
