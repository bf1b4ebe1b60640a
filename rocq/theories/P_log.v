(* Properties C107-C108: what the client prints. *)
From Coq Require Import String.
From Verif Require Import Base GoStrings S_rtp M_rtp S_annexb M_annexb S_nal M_nal S_digest M_conn M_message M_transport M_digest M_session S_session M_main S_main S_handshake S_media S_secret M_log S_log
  L_base L_annexb L_rtp L_nal L_session L_main L_media L_log P_nal P_media P_secret.
From Coq Require Import ZifyBool ZifyNat.

(* ---- C107 ---- *)
(* Full statement: for each packet received the client prints a line with the fields of its header, and for each NAL unit one with the
   unit's.  In every execution of the program, with one feed sent as in C81, whatever the error texts and the order of header fields: *)
Theorem C107_lines_partial : forall (ord : header -> header) (txt : goerr -> bytes) (proto : Z) (w : world) (items : list item) (rest : stream) (es : list yevent) (y : system) (ch : Z)
    (l : list (Z * sending)),
  opened w proto -> w_in w = flat_map item_stream items ++ rest -> Forall item_ok items -> (yturns es <= length items)%nat ->
  ch mod 2 = 0 -> Forall (fun e => sending_ok (snd e)) l -> sent_as ch (all_payloads l) (frames items) ->
  yrun (launch w) es = Some y ->
  let lines := of_packets (youtput ord txt (launch w) es) in
  Forall2 described (firstn (ypackets es) (frames items)) (other_lines lines) /\
  (exists more, map unit_text (all_units 0 l) = unit_lines lines ++ more) /\
  (ypackets es = length (frames items) -> unit_lines lines = map unit_text (all_units 0 l)).
Proof.
  intros ord txt proto w items rest es y ch l O I K T Ev F S R lines. destruct (launch_parts w proto O) as (LI & LP & LD & LC & LL).
  destruct (yrun_lines ord txt es _ _ R) as (taken & new & T1 & T2 & T3 & T4). destruct (yrun_items es _ _ items rest K T ltac:(intros _; rewrite LI; exact I) R) as (j & J & _).
  destruct (C81_media_partial ch l (frames items) client0 Ev F ltac:(unfold don_ok; change (s_don (c_sink client0)) with 0; lia) S) as (c' & E). change (s_don (c_sink client0)) with 0 in E.
  rewrite LP in T2, J. rewrite T2 in J. cbn [app] in J. subst new. rewrite LD in T3. cbn [app] in T3. rewrite LC in T4. subst lines. rewrite T4.
  assert (Q : frames items = taken ++ (y_data y ++ frames (skipn j items))).
  { rewrite app_assoc, <- T3. unfold frames. rewrite <- flat_map_app, firstn_skipn. reflexivity. }
  assert (Tk : taken = firstn (ypackets es) (frames items)) by (rewrite Q, <- T1, firstn_app, firstn_all, Nat.sub_diag; cbn [firstn]; rewrite app_nil_r; reflexivity).
  assert (G : snd (shown client0 taken) = Goes).
  { assert (X : forall ps c qs, snd (shown c (ps ++ qs)) = Goes -> snd (shown c ps) = Goes).
    { clear. induction ps as [|[k p] ps IH]; intros c qs H; [reflexivity|]. cbn [app shown] in *. destruct (on_packet c k p) as [c1 f]. destruct f; try exact H.
      specialize (IH c1 qs). destruct (shown c1 (ps ++ qs)) as [[u1 k1] g1], (shown c1 ps) as [[u2 k2] g2]. cbn [snd] in *. auto. }
    apply (X taken client0 (y_data y ++ frames (skipn j items))). rewrite <- Q, E. reflexivity. }
  rewrite Tk in G. destruct (lines_told txt ch Ev _ _ S _ _ G) as [A B]. rewrite <- Tk in A, B. splits.
  - rewrite <- Tk. exact B.
  - rewrite A. destruct (shown_prefix taken client0 (y_data y ++ frames (skipn j items))) as (u & X). rewrite <- Q, E in X. cbn [fst] in X. rewrite X, map_app. eexists. reflexivity.
  - intros N. rewrite A, Tk, N, firstn_all, E. reflexivity.
Qed.
Print Assumptions C107_lines_partial.

(* In fragments, the forbidden bit of a unit is lost, and the line says that it is zero. *)
Theorem C107_bit_refuted : forall (txt : goerr -> bytes) (c : client) (ch : Z) (ha hb : rtp_header) (h : Z) (c1 c2 : bytes),
  rtp_legal ha -> rtp_legal hb -> ch mod 2 = 0 -> 128 <= h < 256 -> nal_type h <> 0 -> Forall (fun x => ~ contains [0; 0; 1] x) [c1; c2] ->
  exists rest, packet_prints txt (fst (on_packet c ch (rtp_layout ha (fu_a h true false c1)))) ch (rtp_layout hb (fu_a h false true c2)) =
    [media_text ch hb; bs "NAL Zero=true" ++ rest].
Proof.
  intros txt c ch ha hb h c1 c2 La Lb O H T F. apply Forall_cons_iff in F as [F1 F]. apply Forall_cons_iff in F as [F2 _]. assert (B : byte_ok h) by (unfold byte_ok; lia).
  rewrite media_packet, media_lines by assumption. destruct (pushed_first h (h_time ha) c1 (c_sink c) B T F1) as (s1 & E1 & U1 & D1 & G1). rewrite E1. cbn [fst snd with_sink c_sink].
  pose proof (push_fua s1 h false true c2 (h_time hb) B T F2) as E2. rewrite (add_last _ _ h) in E2 by auto. rewrite E2. cbn [s_units fresh app map]. rewrite unit_line_text. unfold unit_text. cbn [u_header].
  replace ((no_f h / 128) mod 2 =? 0) with true.
  - eexists. reflexivity.
  - symmetry. apply Z.eqb_eq. unfold no_f, nal_nri, nal_type. rewrite Z.div_small by (pose proof (Z.mod_pos_bound h 32 ltac:(lia)); pose proof (Z.mod_pos_bound (h / 32) 4 ltac:(lia)); lia). reflexivity.
Qed.
Print Assumptions C107_bit_refuted.

Example C107_case :
  let out := youtput (fun h => h) (fun _ => []) (launch the_program) [YTurn 0 0; YTurn 0 0; YTurn 0 0; YPacket; YPacket] in
  map snd out =
    [bs "RTSP/1.0 200 OK" ++ [13; 10] ++ bs "Cseq: 1" ++ [13; 10; 13; 10; 10];
     bs "DESCRIBE rtsp://h/s RTSP/1.0" ++ [13; 10] ++ bs "CSeq: 2" ++ [13; 10] ++ bs "Accept: application/sdp" ++ [13; 10] ++ bs "User-Agent: Ouro/1.0" ++ [13; 10] ++
       bs "Content-Length: 0" ++ [13; 10; 13; 10; 10];
     bs "RTP [0] PT=96, CC=0, M=true, SN=1" ++ [13; 10];
     bs "NAL Zero=true, RefIdc=3, Type=7, Size=3" ++ [13; 10];
     bs "RTCP [1] PT=201, LN=1, C=0" ++ [13; 10]] /\
  of_packets out = skipn 2 (map snd out) /\ unit_lines (of_packets out) = [unit_text (mkUnit 103 0 90 [66; 0; 31])].
Proof. vm_compute. splits; reflexivity. Qed.

(* ---- C108 ---- *)
(* Full statement: the password is not in the output.  The requests and responses printed do not depend on the credentials as long as
   the server has not challenged the client... *)
Theorem C108_unasked_partial : forall (ord : header -> header) (w w' : world) (l' : life) (u : option (bytes * bytes)) (es : list event),
  run (w, Live) es = (w', l') -> challenges (w_log w') = [] ->
  session_prints ord (w_log (fst (run (with_user u w, Live) es))) = session_prints ord (w_log w').
Proof. intros ord w w' l' u es R C. rewrite (C83_unasked w w' l' u es R C). reflexivity. Qed.
Print Assumptions C108_unasked_partial.

(* ...and depend on a digest of the password alone when it has not asked for Basic. *)
Theorem C108_digest_partial : forall (ord : header -> header) (w w' : world) (l' : life) (user p1 p2 : bytes) (es : list event),
  s_user (w_s w) = Some (user, p1) -> run (w, Live) es = (w', l') ->
  (forall ch, In ch (challenges (w_log w')) -> ~ asks_basic ch) ->
  (forall ch realm, In ch (challenges (w_log w')) -> in_realm ch realm -> H (user ++ bs ":" ++ realm ++ bs ":" ++ p1) = H (user ++ bs ":" ++ realm ++ bs ":" ++ p2)) ->
  session_prints ord (w_log (fst (run (with_user (Some (user, p2)) w, Live) es))) = session_prints ord (w_log w').
Proof. intros ord w w' l' user p1 p2 es U R NB HH. rewrite (C83_digest_partial w w' l' user p1 p2 es U R NB HH). reflexivity. Qed.
Print Assumptions C108_digest_partial.

(* After a Basic challenge the name and the password are printed in a form anyone can undo. *)
Theorem C108_basic_refuted : forall (ord : header -> header) (w : world) (r : response) (req : request) (user pass : bytes) (d : digest),
  qget (s_queue (w_s w)) (p_cseq r) = Some req -> p_code r = 401 -> s_proto (w_s w) <> ProtoHTTP ->
  s_user (w_s w) = Some (user, pass) -> bytes_ok user -> bytes_ok pass ->
  new_digest (s_uri (w_s w)) (header_get (p_header r) (bs "WWW-Authenticate")) = Ok d -> asks_basic (header_get (p_header r) (bs "WWW-Authenticate")) ->
  exists line a code b, session_prints ord (news w (fst (handle_response w r))) = [line; a ++ bs "Authorization: Basic " ++ code ++ [13; 10] ++ b] /\
    b64_decode code = (user ++ bs ":" ++ pass, true).
Proof.
  intros ord w r req user pass d Q C P U OU OP D B. destruct (C83_basic_refuted w r req user pass d Q C P U OU OP D B) as (rq & w' & o & code & E & L & A & X).
  rewrite E. cbn [fst]. rewrite (news_app _ _ _ L). unfold session_prints. cbn [flat_map effect_prints app].
  exists (println (pack_response r (ord (p_header r)))). do 3 eexists. split; [|exact X]. do 2 f_equal. unfold println, pack_request.
  rewrite A. change (negb (beq (bs "Basic " ++ code) [])) with true. cbv iota. unfold field_line at 4. unfold colsp, crnl. unfold entry. rewrite last_last. change (10 =? 10) with true. cbv iota.
  match goal with |- (?v ++ ?a ++ ?u ++ ?b ++ ?k ++ ?cs ++ ?fs ++ ?se ++ (?n ++ ?co ++ (?ba ++ ?c) ++ ?nl) ++ ?ua ++ ?cl ++ ?e) ++ ?z = _ =>
    transitivity ((v ++ a ++ u ++ b ++ k ++ cs ++ fs ++ se) ++ bs "Authorization: Basic " ++ c ++ [13; 10] ++ (ua ++ cl ++ e ++ z)) end.
  - change (bs "Authorization: Basic ") with (bs "Authorization" ++ bs ": " ++ bs "Basic "). rewrite <- !app_assoc. reflexivity.
  - reflexivity.
Qed.
Print Assumptions C108_basic_refuted.

Example C108_case :
  let w := mkW (dialled ProtoTCP (Some (bs "joe", bs "secret")) (bs "rtsp://h/s")) (asked (bs "RTSP/1.0 401 Unauthorized|CSeq: 1|WWW-Authenticate: Basic realm=""r""")) [] [] [] [] in
  let out := session_prints (fun h => h) (w_log (fst (run (w, Live) [App COptions; Turn 0 0]))) in
  skipn 2 out = [bs "OPTIONS rtsp://h/s RTSP/1.0" ++ [13; 10] ++ bs "CSeq: 1" ++ [13; 10] ++ bs "Authorization: Basic am9lOnNlY3JldA==" ++ [13; 10] ++ bs "User-Agent: Ouro/1.0" ++ [13; 10] ++
    bs "Content-Length: 0" ++ [13; 10; 13; 10; 10]] /\ length out = 3%nat /\ b64_decode (bs "am9lOnNlY3JldA==") = (bs "joe:secret", true).
Proof. vm_compute. splits; reflexivity. Qed.
