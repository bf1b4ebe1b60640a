(* Properties C49-C51: channel pairs and Transport headers. *)
From Coq Require Import String.
From Verif Require Import Base GoStrings S_transport M_transport L_base L_strings L_transport.

(* ---- C49 ---- *)
Theorem C49_pair_roundtrip : forall p, pair_ok p -> parse_pair (pair_string p) = (p, None).
Proof. exact parse_pair_string. Qed.
Print Assumptions C49_pair_roundtrip.

(* the hypothesis is necessary: any negative member makes the text unreadable *)
Theorem C49_negative : forall p, - 2 ^ 63 <= p_one p < 2 ^ 63 -> - 2 ^ 63 <= p_two p < 2 ^ 63 -> ~ pair_ok p ->
  exists q, parse_pair (pair_string p) = (q, Some ErrAtoiSyntax).
Proof.
  intros p H1 H2 N. destruct (Z.lt_ge_cases (p_one p) 0) as [L1|L1].
  - destruct (itoa_neg _ L1) as (r & E & A). unfold parse_pair, pair_string. rewrite E.
    change ((45 :: r) ++ ?x) with ([] ++ 45 :: (r ++ x)). rewrite split_on_app by (intros []).
    eexists. reflexivity.
  - assert (L2 : p_two p < 0) by (unfold pair_ok in N; lia). destruct (itoa_neg _ L2) as (r & E & A).
    unfold parse_pair, pair_string. destruct (itoa_nonneg _ L1) as [A1 _]. rewrite E.
    change (bs "-" ++ 45 :: r) with (45 :: ([] ++ 45 :: r)). rewrite split_on_app by (apply digits_absent; [exact A1|lia]).
    rewrite split_on_app by (intros []). rewrite atoi_itoa by lia. eexists. reflexivity.
Qed.
Print Assumptions C49_negative.

(* a number alone: there is no second one *)
Theorem C49_single : forall n, 0 <= n < 2 ^ 63 -> parse_pair (itoa n) = (mkPair n 0, None).
Proof.
  intros n H. unfold parse_pair. destruct (itoa_nonneg n ltac:(lia)) as [A _]. rewrite split_on_none by (apply digits_absent; [exact A|lia]).
  rewrite atoi_itoa by lia. reflexivity.
Qed.
Print Assumptions C49_single.

(* a second member that is no number is reported, and the next channel taken in its place *)
Theorem C49_second : forall n w, 0 <= n < 2 ^ 63 -> ~ In 45 w -> w = [] \/ (exists c, In c w /\ ~ (48 <= c <= 57) /\ c <> 43) ->
  exists e, parse_pair (itoa n ++ bs "-" ++ w) = (mkPair n (if n =? 2 ^ 63 - 1 then - 2 ^ 63 else n + 1), Some e).
Proof.
  intros n w H N W. unfold parse_pair. destruct (itoa_nonneg n ltac:(lia)) as [A _]. change (bs "-" ++ w) with (45 :: w). rewrite split_on_app by (apply digits_absent; [exact A|lia]).
  rewrite split_on_none by exact N. rewrite atoi_itoa by lia. destruct (atoi_bad w N W) as (v & e & E). rewrite E. exists e.
  destruct (n =? 2 ^ 63 - 1) eqn:M; [replace n with (2 ^ 63 - 1) by lia; reflexivity|rewrite i64_small by lia; reflexivity].
Qed.
Print Assumptions C49_second.

Example C49_case : pair_string (mkPair 50000 50001) = bs "50000-50001" /\ parse_pair (bs "50000-50001") = (mkPair 50000 50001, None) /\
  parse_pair (bs "8") = (mkPair 8 0, None) /\ parse_pair (bs "8-x") = (mkPair 8 9, Some ErrAtoiSyntax).
Proof. splits; vm_compute; reflexivity. Qed.

(* ---- C50 ---- *)
(* Full statement: Parse of String into a fresh Transport reproduces every parameter.  Exactly: every parameter
   present in the text is received, except the flag that the transport is interleaved; and the text of an
   interleaved multicast transport comes back as unicast. *)
Theorem C50_received_partial : forall u t, transport_ok t ->
  transport_parse u (transport_string t) = (received u t, None).
Proof. exact parse_transport_string. Qed.
Print Assumptions C50_received_partial.

(* reading back one's own header changes nothing *)
Theorem C50_self : forall t, transport_ok t -> (t_interleaved t = true -> t_multicast t = false) ->
  transport_parse t (transport_string t) = (t, None).
Proof.
  intros t H Hi. rewrite (parse_transport_string t t H). f_equal. unfold received, or_pair, or_text.
  destruct t as [tcp mc il ap pi pp pc ps la tt d s c m]; cbn [t_tcp t_multicast t_interleaved t_append t_interleave t_port t_client_port t_server_port t_layers t_ttl t_destination t_source t_ssrc t_mode] in *.
  rewrite !orb_diag.
  replace (if il then false else if tcp then mc else mc) with mc by (destruct il, tcp; auto).
  destruct il, (p_one pp >? 0), (p_one pc >? 0), (p_one ps >? 0), (la >? 0), (mc && (tt >? 0)), d, s, c, (beq m (bs "PLAY")), m; reflexivity.
Qed.
Print Assumptions C50_self.

(* into a fresh Transport: everything comes back if nothing is set that the text leaves out *)
Theorem C50_fresh_partial : forall t, transport_ok t -> t_interleaved t = false -> t_interleave t = mkPair 0 0 -> (t_tcp t = true -> t_multicast t = false) ->
  (p_one (t_port t) > 0 \/ t_port t = mkPair 0 0) -> (p_one (t_client_port t) > 0 \/ t_client_port t = mkPair 0 0) -> (p_one (t_server_port t) > 0 \/ t_server_port t = mkPair 0 0) ->
  0 <= t_layers t -> 0 <= t_ttl t -> (t_multicast t = false -> t_ttl t = 0) -> t_mode t <> bs "PLAY" ->
  transport_parse transport0 (transport_string t) = (t, None).
Proof.
  intros t H I IL TM P C S L T MT M. rewrite (parse_transport_string transport0 t H). f_equal. unfold received, or_pair, or_text.
  destruct t as [tcp mc il ap pi pp pc ps la tt d s c m]; cbn [transport0 t_tcp t_multicast t_interleaved t_append t_interleave t_port t_client_port t_server_port t_layers t_ttl t_destination t_source t_ssrc t_mode] in *.
  subst il pi. rewrite !orb_false_r. f_equal.
  - destruct tcp; [symmetry; auto|reflexivity].
  - destruct (p_one pp >? 0) eqn:E; [reflexivity|]. destruct P as [P|P]; [lia|symmetry; exact P].
  - destruct (p_one pc >? 0) eqn:E; [reflexivity|]. destruct C as [C|C]; [lia|symmetry; exact C].
  - destruct (p_one ps >? 0) eqn:E; [reflexivity|]. destruct S as [S|S]; [lia|symmetry; exact S].
  - destruct (la >? 0) eqn:E; lia.
  - destruct mc; cbn [andb]; [destruct (tt >? 0) eqn:E; lia|]. symmetry. auto.
  - destruct d; reflexivity.
  - destruct s; reflexivity.
  - destruct c; reflexivity.
  - destruct (beq m (bs "PLAY")) eqn:E; [apply beq_eq in E; contradiction|]. destruct m; reflexivity.
Qed.
Print Assumptions C50_fresh_partial.

Theorem C50_interleaved_refuted : exists t, transport_ok t /\ t_interleaved t = true /\
  exists u, transport_parse transport0 (transport_string t) = (u, None) /\ t_interleaved u = false.
Proof.
  exists (new_transport ProtoTCP 0). splits.
  - unfold transport_ok, pair_ok, text_ok. splits; try (apply absent_spec; reflexivity); vm_compute; congruence.
  - reflexivity.
  - eexists. split; reflexivity.
Qed.
Print Assumptions C50_interleaved_refuted.

Example C50_case :
  transport_string (mkTr false true false true pair0 (mkPair 6000 6001) pair0 (mkPair 7 8) 2 16 (bs "224.1.1.1") [] (bs "0A0B0C0D") (bs "RECORD"))
   = bs "RTP/AVP;multicast;destination=224.1.1.1;append;port=6000-6001;server_port=7-8;ttl=16;layers=2;ssrc=0A0B0C0D;mode=RECORD" /\
  transport_parse transport0 (bs "RTP/AVP;multicast;destination=224.1.1.1;append;port=6000-6001;server_port=7-8;ttl=16;layers=2;ssrc=0A0B0C0D;mode=RECORD")
   = (mkTr false true false true pair0 (mkPair 6000 6001) pair0 (mkPair 7 8) 2 16 (bs "224.1.1.1") [] (bs "0A0B0C0D") (bs "RECORD"), None).
Proof. split; vm_compute; reflexivity. Qed.

(* ---- C51 ---- *)
Theorem C51_disjoint : forall proto n i j ti tj, In proto [ProtoTCP; ProtoUnicast; ProtoMulticast; ProtoHTTP] ->
  Z.of_nat n < 2 ^ 61 ->
  nth_error (feed_transports proto n) i = Some ti -> nth_error (feed_transports proto n) j = Some tj ->
  p_one (offered ti) mod 2 = 0 /\ p_two (offered ti) = p_one (offered ti) + 1 /\ (i <> j -> disjoint (offered ti) (offered tj)).
Proof.
  intros proto n i j ti tj Hp Hn Ei Ej.
  destruct (feed_offered proto n i ti Hp Hn Ei) as (c & Hc & -> ). destruct (feed_offered proto n j tj Hp Hn Ej) as (c' & Hc' & -> ).
  cbn [p_one p_two].
  assert (c' = c) by (destruct Hp as [<-|[<-|[<-|[<-|[]]]]]; destruct Hc, Hc'; congruence). subst c'.
  assert (E2 : c mod 2 = 0) by (destruct Hc as [-> _]; destruct (_ || _); reflexivity).
  splits.
  - rewrite Z.add_mod, E2, Z.mul_comm, Z.mod_mul by lia. reflexivity.
  - lia.
  - intros N. unfold disjoint; cbn [p_one p_two]. splits; lia.
Qed.
Print Assumptions C51_disjoint.

(* they are usable channel numbers (one byte) and port numbers (16 bits) for the first 128 and 7768 feeds *)
Theorem C51_in_range : forall proto n i t, In proto [ProtoTCP; ProtoUnicast; ProtoMulticast; ProtoHTTP] ->
  Z.of_nat n < 2 ^ 61 -> nth_error (feed_transports proto n) i = Some t ->
  if t_tcp t then p_two (offered t) <= 255 <-> (i < 128)%nat else p_two (offered t) <= 65535 <-> Z.of_nat i < 7768.
Proof.
  intros proto n i t Hp Hn E. destruct (feed_offered proto n i t Hp Hn E) as (c & [Hc Ht] & -> ). cbn [p_two].
  rewrite Ht. destruct (_ || _); rewrite Hc; lia.
Qed.
Print Assumptions C51_in_range.

(* and this is all the header says, for each of the four ways *)
Theorem C51_text : forall proto n i t, Z.of_nat n < 2 ^ 61 -> nth_error (feed_transports proto n) i = Some t ->
  (proto = ProtoTCP \/ proto = ProtoHTTP ->
    transport_string t = bs "RTP/AVP/TCP;interleaved=" ++ itoa (2 * Z.of_nat i) ++ bs "-" ++ itoa (2 * Z.of_nat i + 1)) /\
  (proto = ProtoUnicast ->
    transport_string t = bs "RTP/AVP;unicast;client_port=" ++ itoa (50000 + 2 * Z.of_nat i) ++ bs "-" ++ itoa (50001 + 2 * Z.of_nat i)) /\
  (proto = ProtoMulticast ->
    transport_string t = bs "RTP/AVP;multicast;port=" ++ itoa (50000 + 2 * Z.of_nat i) ++ bs "-" ++ itoa (50001 + 2 * Z.of_nat i)).
Proof. exact offer_texts. Qed.
Print Assumptions C51_text.

(* a number that stands for none of the four is taken for unicast, without ports *)
Theorem C51_other : forall proto n i t, ~ In proto [ProtoTCP; ProtoUnicast; ProtoMulticast; ProtoHTTP] ->
  nth_error (feed_transports proto n) i = Some t -> transport_string t = bs "RTP/AVP;unicast".
Proof. exact offer_other. Qed.
Print Assumptions C51_other.

Example C51_case : map offered (feed_transports ProtoUnicast 3) = [mkPair 50000 50001; mkPair 50002 50003; mkPair 50004 50005] /\
  map transport_string (feed_transports ProtoTCP 2) = [bs "RTP/AVP/TCP;interleaved=0-1"; bs "RTP/AVP/TCP;interleaved=2-3"].
Proof. split; vm_compute; reflexivity. Qed.
