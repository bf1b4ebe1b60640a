(* Properties C104-C106: what of the responses has an effect, and what should have one. *)
From Coq Require Import String Permutation.
From Verif Require Import Base GoStrings M_conn S_sdp S_message M_message M_transport M_sdp M_session S_session S_handshake S_refuse
  L_base L_strings L_message L_handshake L_verbs P_handshake.
From Coq Require Import ZifyBool.

(* ---- C104 ---- *)
(* Two histories with the same commands and clocks, and with responses that agree in the status code, in the content and in the fields
   CSeq, Session, Transport and WWW-Authenticate, are the same to the server and to the application. *)
Theorem C104_heeded : forall (w : world) (l : life) (es : list event) (items items' : list item) (rest rest' : stream),
  Forall item_ok items -> Forall item_ok items' -> Forall2 (agree [bs "CSeq"; bs "Session"; bs "Transport"; bs "WWW-Authenticate"]) items items' ->
  (turns es <= length items)%nat ->
  let '(w1, l1) := M_session.run (upd_in w (flat_map item_stream items ++ rest), l) es in
  let '(w2, l2) := M_session.run (upd_in w (flat_map item_stream items' ++ rest'), l) es in
  l1 = l2 /\ sent_requests (w_log w1) = sent_requests (w_log w2) /\ stages (w_log w1) = stages (w_log w2) /\ packets (w_log w1) = packets (w_log w2) /\
  listenings (w_log w1) = listenings (w_log w2).
Proof.
  intros w l es items items' rest rest' K K' A T.
  assert (V : veq (upd_in w (flat_map item_stream items ++ rest)) (upd_in w (flat_map item_stream items' ++ rest'))).
  { exists (s_verbs (w_s w)), (flat_map item_stream items' ++ rest'), (w_log w). split; [|reflexivity]. destruct w as [[] ? ? ? ? ?]. reflexivity. }
  destruct (run_v es items items' rest rest' _ _ l V K K' A T ltac:(split; reflexivity)) as (S & V1).
  destruct (M_session.run (upd_in w (flat_map item_stream items ++ rest), l) es) as [w1 l1]. destruct (M_session.run (upd_in w (flat_map item_stream items' ++ rest'), l) es) as [w2 l2].
  cbn [fst snd] in *. split; [exact S|]. destruct (veq_fields _ _ V1) as (_ & _ & _ & _ & _ & _ & _ & _ & _ & L). destruct (quiet_sent _ _ L) as (A1 & A2 & A3 & A4). auto.
Qed.
Print Assumptions C104_heeded.

(* The four fields do matter, each by itself: a response that differs in one of them only leads elsewhere. *)
Definition with_fields (fs : list sfield) : item := Resp 200 (bs "OK") fs [].
Definition second (cs session : string) : world :=
  fst (M_session.run (mkW (dialled ProtoTCP (Some (bs "u", bs "p")) (bs "rtsp://h/s")) (item_stream (with_fields [field (bs "CSeq") (bs cs); field (bs "Session") (bs session)])) [] [] [] [], Live) [App COptions; Turn 0 0]).
Definition other_reply (code : Z) (k : string) (v : string) (n : string) : item := Resp code (bs "OK") [field (bs "CSeq") (bs n); field (bs k) (bs v)] [].
Example C104_case :
  (* Public, Server and the reason say something else: nothing changes *)
  agree [bs "CSeq"; bs "Session"; bs "Transport"; bs "WWW-Authenticate"] (other_reply 200 "Public" "DESCRIBE" "1") (Resp 200 (bs "Fine") [field (bs "Server") (bs "x"); field (bs "cseq") (bs "1")] []) /\
  (* CSeq or Session say something else: it does *)
  map q_verb (sent_requests (w_log (second "1" "7"))) = [bs "OPTIONS"; bs "DESCRIBE"] /\ map q_verb (sent_requests (w_log (second "2" "7"))) = [bs "OPTIONS"] /\
  map q_session (sent_requests (w_log (second "1" "7"))) <> map q_session (sent_requests (w_log (second "1" "8"))).
Proof. splits; try (vm_compute; reflexivity); [|vm_compute; discriminate]. repeat split. repeat constructor. Qed.

(* ---- C105  full statement: only methods are used that the server lists in Public ---- *)
(* Whatever is listed, even nothing but OPTIONS: DESCRIBE and SETUP follow. *)
Theorem C105_listed_refuted : forall user uri rnd ms ropt rdesc rsets items clocks rest listed,
  opening_ok ms ropt rdesc rsets -> with_noise (ropt :: rdesc :: rsets) items -> Forall item_ok items -> length clocks = length items ->
  field_of_item ropt (bs "Public") = listed ->
  exists w', M_session.run (mkW (dialled ProtoTCP user uri) (flat_map item_stream items ++ rest) [] [] rnd [], Live) (App COptions :: turns_at clocks) = (w', Live) /\
    map q_verb (sent_requests (w_log w')) = bs "OPTIONS" :: bs "DESCRIBE" :: repeat (bs "SETUP") (length ms).
Proof.
  intros user uri rnd ms ropt rdesc rsets items clocks rest listed O W K L _.
  destruct (C79_conversation user uri rnd ms ropt rdesc rsets items clocks [] rest O W K L I eq_refl) as (w' & E & _ & S & _). cbn [flat_map] in E. rewrite !app_nil_r in E.
  exists w'. split; [exact E|]. rewrite S. cbn [round_requests]. rewrite app_nil_r. unfold opening. cbn [map q_verb]. do 2 f_equal.
  generalize 0 as i. clear. induction ms as [|m ms IH]; intros i; [reflexivity|]. cbn [setups map q_verb length repeat]. rewrite IH. reflexivity.
Qed.
Print Assumptions C105_listed_refuted.

Example C105_case :
  let items := [ok_resp 1 [field (bs "Public") (bs "OPTIONS")] []; ok_resp 2 [] two_feeds] in
  let '(w', l) := M_session.run (mkW (dialled ProtoTCP None (bs "rtsp://h/s")) (flat_map item_stream items) [] [] [] [], Live) (App COptions :: turns_at [(0, 0); (0, 0)]) in
  l = Live /\ map q_verb (sent_requests (w_log w')) = [bs "OPTIONS"; bs "DESCRIBE"; bs "SETUP"; bs "SETUP"].
Proof. vm_compute. repeat split. Qed.

(* ---- C106  full statement: a stream is set up at the URI that its control attribute and the base URI of the description give (RFC 2326 C.1.1) ---- *)
(* When that is so: a full URI; or a relative one and a base that is the session's URI with a slash. *)
Theorem C106_target_exact : forall user uri rnd ms ropt rdesc rsets items clocks rest k m,
  opening_ok ms ropt rdesc rsets -> with_noise (ropt :: rdesc :: rsets) items -> Forall item_ok items -> length clocks = length items ->
  nth_error ms k = Some m -> is_absolute (m_control m) \/ is_whole (m_control m) \/ is_relative (m_control m) ->
  exists w' req, M_session.run (mkW (dialled ProtoTCP user uri) (flat_map item_stream items ++ rest) [] [] rnd [], Live) (App COptions :: turns_at clocks) = (w', Live) /\
    nth_error (sent_requests (w_log w')) (2 + k) = Some req /\ q_verb req = bs "SETUP" /\
    let base := base_of uri rdesc in
    (q_uri req = rfc_target base (m_control m) <->
     is_absolute (m_control m) \/ (is_whole (m_control m) /\ base = uri ++ bs "/" ++ m_control m) \/ (is_relative (m_control m) /\ dir base = uri ++ bs "/")).
Proof.
  intros user uri rnd ms ropt rdesc rsets items clocks rest k m O W K L N Cl.
  destruct (C79_conversation user uri rnd ms ropt rdesc rsets items clocks [] rest O W K L I eq_refl) as (w' & E & _ & S & _). cbn [flat_map] in E. rewrite !app_nil_r in E.
  assert (Nr : forall ms i k, nth_error ms k = Some m -> exists req, nth_error (setups uri (next_id (next_id [] ropt) rdesc) i ms) k = Some req /\ q_verb req = bs "SETUP" /\ q_uri req = target uri (m_control m)).
  { clear. induction ms as [|m0 ms IH]; intros i k N; [destruct k; discriminate|]. destruct k as [|k]; cbn [nth_error] in N; [injection N as ->; eexists; repeat split|]. cbn [setups nth_error]. apply IH. exact N. }
  destruct (Nr ms 0 k N) as (req & Q1 & Q2 & Q3). exists w', req. splits; [exact E| |exact Q2|].
  { rewrite S. cbn [round_requests]. rewrite app_nil_r. exact Q1. }
  cbv zeta. rewrite Q3. unfold target, rfc_target. destruct Cl as [A|[A|A]].
  - pose proof A as (r & ->). change (firstn 7 (bs "rtsp://" ++ r)) with (bs "rtsp://"). rewrite beq_refl. split; [intros _; left; exists r; reflexivity|reflexivity].
  - assert (X : beq (firstn 7 (m_control m)) (bs "rtsp://") = false /\ (beq (m_control m) [] || beq (m_control m) (bs "*"))%bool = true) by (destruct A as [->| ->]; split; reflexivity).
    destruct X as (-> & ->). split; [intros H; right; left; split; [exact A|symmetry; exact H]|]. intros [(r & H)|[(_ & H)|((c & r & H & Nc & _) & _)]]; [|symmetry; exact H|].
    + destruct A as [A|A]; rewrite A in H; discriminate.
    + destruct A as [A|A]; rewrite A in H; [discriminate|]. injection H as <- <-. exfalso. apply Nc. vm_compute. tauto.
  - pose proof A as (c & r & Ec & Nc & Nd & _). rewrite Ec in *.
    assert (X : beq (firstn 7 (c :: r)) (bs "rtsp://") = false).
    { destruct (beq (firstn 7 (c :: r)) (bs "rtsp://")) eqn:B; [|reflexivity]. apply beq_eq in B. exfalso. apply Nd. rewrite <- (firstn_skipn 7 (c :: r)), B. apply in_or_app. left. vm_compute. tauto. }
    rewrite X. assert (Y : beq (c :: r) (bs "*") = false).
    { destruct (beq (c :: r) (bs "*")) eqn:B; [|reflexivity]. apply beq_eq in B. injection B as -> ->. exfalso. apply Nc. vm_compute. tauto. }
    rewrite Y. change (beq (c :: r) []) with false. cbn [orb].
    split; [intros H; right; right; split; [exact A|]|].
    + rewrite app_assoc in H. apply app_inv_tail in H. symmetry. exact H.
    + intros [(r' & H)|[([H|H] & _)|(_ & H)]]; [|discriminate| |].
      * exfalso. rewrite H in X. vm_compute in X. discriminate.
      * exfalso. rewrite H in Y. vm_compute in Y. discriminate.
      * rewrite H, <- app_assoc. reflexivity.
Qed.
Print Assumptions C106_target_exact.

(* a description with a base of its own; and one with the usual base, the streams named in the three ways *)
Definition three_ways : bytes := body_of [bs "v=0"; bs "m=video 0 RTP/AVP 96"; bs "a=control:track1"; bs "m=video 0 RTP/AVP 97"; bs "a=control:*"; bs "m=video 0 RTP/AVP 98"; bs "a=control:rtsp://h/t2"].
Definition asked_at (fs : list sfield) : list bytes :=
  map q_uri (skipn 2 (sent_requests (w_log (fst (M_session.run (mkW (dialled ProtoTCP None (bs "rtsp://h/s")) (flat_map item_stream [ok_resp 1 [] []; ok_resp 2 fs three_ways]) [] [] [] [], Live)
    (App COptions :: turns_at [(0, 0); (0, 0)])))))).
Definition named_at (fs : list sfield) : list bytes := map (rfc_target (base_of (bs "rtsp://h/s") (ok_resp 2 fs three_ways))) [bs "track1"; bs "*"; bs "rtsp://h/t2"].
Theorem C106_base_refuted :
  let base := [field (bs "Content-Base") (bs "rtsp://h/media/7/")] in
  asked_at base = [bs "rtsp://h/s/track1"; bs "rtsp://h/s/*"; bs "rtsp://h/t2"] /\ named_at base = [bs "rtsp://h/media/7/track1"; bs "rtsp://h/media/7/"; bs "rtsp://h/t2"].
Proof. split; vm_compute; reflexivity. Qed.
Print Assumptions C106_base_refuted.
Example C106_case :
  let base := [field (bs "Content-Base") (bs "rtsp://h/s/")] in
  asked_at base = [bs "rtsp://h/s/track1"; bs "rtsp://h/s/*"; bs "rtsp://h/t2"] /\ named_at base = [bs "rtsp://h/s/track1"; bs "rtsp://h/s/"; bs "rtsp://h/t2"].
Proof. split; vm_compute; reflexivity. Qed.
