(* Properties C41-C43: session descriptions. *)
From Coq Require Import String.
From Verif Require Import Base GoStrings S_sdp M_sdp L_base L_strings L_sdp.

(* ---- C41 ---- *)
(* A document is its part before any media line followed by sections, each starting with a media line.  The feeds
   of the whole are those of the parts, in order (a crash in a part being a crash of the whole)... *)
Theorem C41_sections_in_order : forall a ml b, Forall one_line (a ++ ml :: b) -> media_line ml ->
  sdp_parse (body_of (a ++ ml :: b)) = res_app (sdp_parse (body_of a)) (sdp_parse (body_of (ml :: b))).
Proof. exact sections_compose. Qed.
Print Assumptions C41_sections_in_order.

(* ...a video section has exactly one feed... *)
Theorem C41_video_section : forall ml b, Forall one_line (ml :: b) -> video_line ml -> Forall (fun l => ~ media_line l) b ->
  exists f, sdp_parse (body_of (ml :: b)) = Ok [f].
Proof. exact video_section_one. Qed.
Print Assumptions C41_video_section.

(* ...whose payload type is the first format of the media line (m=video <port> <proto> <fmt> ...), and which is
   otherwise empty but for the section's attributes... *)
Theorem C41_media_line : forall ml b port proto pt tail, Forall one_line (ml :: b) ->
  trim_space ml = bs "m=video " ++ port ++ bs " " ++ proto ++ bs " " ++ itoa pt ++ tail ->
  ~ In 32 port -> ~ In 32 proto -> - 2 ^ 63 <= pt < 2 ^ 63 -> (tail = [] \/ exists x, tail = 32 :: x) -> Forall (fun l => ~ media_line l) b ->
  sdp_parse ml = Ok [mkMedia 0 0 [] 0 [] [] pt 0 0] /\ exists f, sdp_parse (body_of (ml :: b)) = Ok [f] /\ m_payload_type f = pt.
Proof. exact media_section_payload. Qed.
Print Assumptions C41_media_line.

(* (0 when the line ends before the formats)... *)
Theorem C41_short_line : forall ml b v, Forall one_line (ml :: b) -> trim_space ml = bs "m=video " ++ v -> (~ In 32 v \/ exists x y, v = x ++ 32 :: y /\ ~ In 32 x /\ ~ In 32 y) ->
  Forall (fun l => ~ media_line l) b ->
  sdp_parse ml = Ok [mkMedia 0 0 [] 0 [] [] 0 0 0] /\ exists f, sdp_parse (body_of (ml :: b)) = Ok [f] /\ m_payload_type f = 0.
Proof. exact media_section_short. Qed.
Print Assumptions C41_short_line.
Example C41_short_case : sdp_parse (bs "m=video 0 RTP/AVP") = Ok [mkMedia 0 0 [] 0 [] [] 0 0 0] /\ sdp_parse (body_of [bs "m=video 0"; bs "a=control:x"]) = Ok [mkMedia 0 0 (bs "x") 0 [] [] 0 0 0].
Proof. vm_compute. split; reflexivity. Qed.

(* ...and anything without a video line has none. *)
Theorem C41_other_sections : forall ls, Forall one_line ls -> Forall (fun l => ~ video_line l /\ ~ bare_video_line l) ls ->
  sdp_parse (body_of ls) = Ok [].
Proof. exact other_sections_none. Qed.
Print Assumptions C41_other_sections.

(* every body is the body of some lines *)
Theorem C41_every_body : forall s, exists ls, Forall one_line ls /\ s = body_of ls.
Proof. exact every_body. Qed.
Print Assumptions C41_every_body.

Example C41_case : sdp_parse (body_of [bs "v=0"; bs "a=control:*"; bs "m=audio 0 RTP/AVP 0"; bs "a=control:trackA";
    bs "m=video 0 RTP/AVP 96"; bs "a=control:track1"; bs "a=rtpmap:96 H264/90000"; bs "m=audio 0 RTP/AVP 97"; bs "a=control:track2";
    bs "m=video 5 RTP/AVP 33"; bs "a=control:track3"]) =
  Ok [mkMedia 96 90000 (bs "track1") 96 [] [] 96 0 0; mkMedia 0 0 (bs "track3") 0 [] [] 33 0 0].
Proof. vm_compute. reflexivity. Qed.

(* ---- C42 ---- *)
(* Full statement: Parse returns normally for every body.  Exactly: it crashes iff some line is a bare m=video. *)
Theorem C42_total_partial : forall s, (exists l, In l (split_on 10 s) /\ bare_video_line l) \/ exists feeds, sdp_parse s = Ok feeds.
Proof. exact parse_total. Qed.
Print Assumptions C42_total_partial.

Theorem C42_crash : forall s l, In l (split_on 10 s) -> bare_video_line l -> sdp_parse s = Panic.
Proof. exact parse_crash. Qed.
Print Assumptions C42_crash.

Theorem C42_total_refuted : exists s, sdp_parse s = Panic.
Proof. exists (bs "m=video"). vm_compute. reflexivity. Qed.
Print Assumptions C42_total_refuted.

Example C42_case : sdp_parse (bs "m=video x") = Ok [media0] /\ sdp_parse [] = Ok [] /\ sdp_parse [61; 61; 10; 255] = Ok [].
Proof. splits; vm_compute; reflexivity. Qed.

(* ---- C43 ---- *)
(* Each attribute line, appended to a document whose last section is video, acts on the last feed. *)
Theorem C43_control : forall ls done m l v, Forall one_line (ls ++ [l]) -> in_video ls ->
  sdp_parse (body_of ls) = Ok (done ++ [m]) -> trim_space l = bs "a=control:" ++ v -> ~ In 32 v ->
  exists m', sdp_parse (body_of (ls ++ [l])) = Ok (done ++ [m']) /\ m_control m' = v.
Proof.
  intros ls done m l v O V E T N. eexists. split; [apply (attr_appended ls done m l (bs "control:" ++ v)); assumption|].
  rewrite split2_none by (intros I; apply in_app_or in I as [I|I]; [revert I; apply absent_spec; reflexivity|auto]).
  apply control_set.
Qed.
Print Assumptions C43_control.

(* Nothing else changes, except that a number between the first two slashes of the URI replaces the clock rate. *)
Theorem C43_control_only_partial : forall ls done m l v, Forall one_line (ls ++ [l]) -> in_video ls ->
  sdp_parse (body_of ls) = Ok (done ++ [m]) -> trim_space l = bs "a=control:" ++ v -> ~ In 32 v -> ~ In 59 v ->
  sdp_parse (body_of (ls ++ [l])) =
    Ok (done ++ [mkMedia (m_type m) (match slash_number v with Some n => n | None => m_timescale m end) v (m_rtpmap m)
                         (m_config m) (m_sprops m) (m_payload_type m) (m_sizelength m) (m_indexlength m)]).
Proof.
  intros ls done m l v O V E T N1 N2. rewrite (attr_appended ls done m l (bs "control:" ++ v) O V E T).
  rewrite split2_none by (intros I; apply in_app_or in I as [I|I]; [revert I; apply absent_spec; reflexivity|auto]).
  cbn [fold_left]. rewrite control_field by exact N2. reflexivity.
Qed.
Print Assumptions C43_control_only_partial.

(* rtpmap:<pt> <name>/<rate>[/<parameters>] sets the mapping, the codec and the clock rate, and nothing else *)
Theorem C43_rtpmap : forall ls done m l pt name rate tail, Forall one_line (ls ++ [l]) -> in_video ls ->
  sdp_parse (body_of ls) = Ok (done ++ [m]) ->
  trim_space l = bs "a=rtpmap:" ++ itoa pt ++ bs " " ++ name ++ bs "/" ++ itoa rate ++ tail ->
  0 <= pt < 2 ^ 63 -> 0 <= rate < 2 ^ 63 -> ~ In 47 name -> ~ In 58 name -> ~ In 59 name ->
  (tail = [] \/ exists x, tail = 47 :: x) -> ~ In 58 tail -> ~ In 59 tail ->
  sdp_parse (body_of (ls ++ [l])) =
    Ok (done ++ [mkMedia (codec_of name (m_type m)) rate (m_control m) pt
                         (m_config m) (m_sprops m) (m_payload_type m) (m_sizelength m) (m_indexlength m)]).
Proof.
  intros ls done m l pt name rate tail O V E T Hp Hr N1 N2 N3 Ht T1 T2.
  rewrite (attr_appended ls done m l (bs "rtpmap:" ++ itoa pt ++ 32 :: name ++ 47 :: itoa rate ++ tail) O V E T).
  rewrite app_assoc, split2_app.
  - rewrite rtpmap_fields by assumption. reflexivity.
  - intros I. apply in_app_or in I as [I|I]; [revert I; apply absent_spec; reflexivity|]. apply itoa_chars in I. lia.
Qed.
Print Assumptions C43_rtpmap.

(* fmtp with at least two parameters: the parameter sets are decoded and appended in order, and so are the others *)
Theorem C43_fmtp_partial : forall ls done m l pt ps, Forall one_line (ls ++ [l]) -> in_video ls ->
  sdp_parse (body_of ls) = Ok (done ++ [m]) ->
  trim_space l = bs "a=fmtp:" ++ itoa pt ++ bs " " ++ params_text ps ->
  (2 <= length ps)%nat -> Forall (fun bp => blanks (fst bp) /\ fparam_ok (snd bp)) ps ->
  exists m', sdp_parse (body_of (ls ++ [l])) = Ok (done ++ [m']) /\
    m_sprops m' = m_sprops m ++ sprops_of (map snd ps) /\
    m_config m' = last_of config_of (map snd ps) (m_config m) /\
    m_sizelength m' = last_of sizelength_of (map snd ps) (m_sizelength m) /\
    m_indexlength m' = last_of indexlength_of (map snd ps) (m_indexlength m).
Proof.
  intros ls done m l pt ps O V E T L F. eexists.
  split; [apply (attr_appended ls done m l (bs "fmtp:" ++ itoa pt ++ 32 :: params_text ps)); assumption|].
  rewrite fmtp_split. cbn [fold_left]. rewrite fmtp_head. unfold attr_field. rewrite semi_params by assumption.
  destruct (effects (map snd ps) (attr_slash (attr_colon m (params_text ps)) (params_text ps))) as (E1 & E2 & E3 & E4).
  destruct (colon_slash_keep m (params_text ps)) as (K1 & K2 & K3 & K4). rewrite E1, E2, E3, E4, K1, K2, K3, K4. auto.
Qed.
Print Assumptions C43_fmtp_partial.

(* Nothing else changes, except that a number between the first two slashes of the parameters replaces the clock rate. *)
Theorem C43_fmtp_exact : forall ls done m l pt b p ps, Forall one_line (ls ++ [l]) -> in_video ls ->
  sdp_parse (body_of ls) = Ok (done ++ [m]) ->
  let all := (b, p) :: ps in
  trim_space l = bs "a=fmtp:" ++ itoa pt ++ bs " " ++ params_text all ->
  ps <> [] -> Forall (fun bp => blanks (fst bp) /\ fparam_ok (snd bp)) all -> token_named p ->
  sdp_parse (body_of (ls ++ [l])) =
    Ok (done ++ [mkMedia (m_type m) (match slash_number (params_text all) with Some n => n | None => m_timescale m end) (m_control m) (m_rtpmap m)
                         (last_of config_of (map snd all) (m_config m)) (m_sprops m ++ sprops_of (map snd all)) (m_payload_type m)
                         (last_of sizelength_of (map snd all) (m_sizelength m)) (last_of indexlength_of (map snd all) (m_indexlength m))]).
Proof.
  intros ls done m l pt b p ps O V E all T L F N. destruct (proj1 (Forall_cons_iff _ _ _) F) as [[B P] _].
  rewrite (attr_appended ls done m l (bs "fmtp:" ++ itoa pt ++ 32 :: params_text all) O V E T).
  rewrite fmtp_split. cbn [fold_left]. rewrite fmtp_head. unfold attr_field.
  assert (L2 : (2 <= length all)%nat) by (destruct ps; [contradiction|cbn; lia]). rewrite semi_params by assumption. unfold all at 2 3. rewrite colon_slash_params by assumption. fold all.
  match goal with |- context [fold_left param_effect ?q ?x] => pose proof (effects q x) as (E1 & E2 & E3 & E4); pose proof (effects_rest q x) as (R1 & R2 & R3 & R4 & R5); destruct (fold_left param_effect q x) end.
  cbn in E1, E2, E3, E4, R1, R2, R3, R4, R5 |- *. subst. reflexivity.
Qed.
Print Assumptions C43_fmtp_exact.

(* A single parameter is not read at all: the parameter sets of such a line are lost. *)
Theorem C43_single_fmtp_refuted : forall ls done m l pt p, Forall one_line (ls ++ [l]) -> in_video ls ->
  sdp_parse (body_of ls) = Ok (done ++ [m]) ->
  trim_space l = bs "a=fmtp:" ++ itoa pt ++ bs " " ++ p -> ~ In 59 p ->
  exists m', sdp_parse (body_of (ls ++ [l])) = Ok (done ++ [m']) /\
    m_sprops m' = m_sprops m /\ m_config m' = m_config m /\ m_sizelength m' = m_sizelength m /\ m_indexlength m' = m_indexlength m.
Proof.
  intros ls done m l pt p O V E T N. eexists.
  split; [apply (attr_appended ls done m l (bs "fmtp:" ++ itoa pt ++ 32 :: p)); assumption|].
  rewrite fmtp_split. cbn [fold_left]. rewrite fmtp_head. unfold attr_field. rewrite attr_semi_none by exact N. apply colon_slash_keep.
Qed.
Print Assumptions C43_single_fmtp_refuted.

(* A slash in the base64 text of a parameter set can overwrite the clock rate given by rtpmap. *)
Theorem C43_clock_refuted : exists sets f, Forall bytes_ok sets /\
  sdp_parse (body_of [bs "m=video 0 RTP/AVP 96"; bs "a=rtpmap:96 H264/90000";
    bs "a=fmtp:96 packetization-mode=1;" ++ fparam_text (PSprops sets)]) = Ok [f] /\
  m_sprops f = sets /\ m_timescale f <> 90000.
Proof.
  exists [[103; 66; 0; 255; 93; 191]]. eexists. splits.
  - repeat constructor; vm_compute; congruence.
  - vm_compute. reflexivity.
  - reflexivity.
  - vm_compute. congruence.
Qed.
Print Assumptions C43_clock_refuted.

Example C43_case :
  sdp_parse (body_of [bs "m=video 0 RTP/AVP 96" ++ [13]; bs "a=control:rtsp://10.0.0.1/h264/trackID=1" ++ [13]; bs "a=rtpmap:96 h264/90000" ++ [13];
    bs "a=fmtp:96 packetization-mode=1; sprop-parameter-sets=Z0IAKQ==,aM48gA==" ++ [13]; []]) =
  Ok [mkMedia 96 90000 (bs "rtsp://10.0.0.1/h264/trackID=1") 96 [] [[103; 66; 0; 41]; [104; 206; 60; 128]] 96 0 0] /\
  params_text [([], POther (bs "packetization-mode") (bs "1")); ([32], PSprops [[103; 66; 0; 41]; [104; 206; 60; 128]])] =
    bs "packetization-mode=1; sprop-parameter-sets=Z0IAKQ==,aM48gA==".
Proof. split; vm_compute; reflexivity. Qed.
(* the attributes one at a time: a control path with a slash and a number, the number of channels after the clock rate, an fmtp with
   the configuration of an AAC stream, and an fmtp with one parameter *)
Definition described_by (ls : list string) : res (list media) := sdp_parse (body_of (map bs ls)).
Example C43_control_case : described_by ["m=video 0 RTP/AVP 96"; "a=control:track/7"]%string = Ok [mkMedia 0 7 (bs "track/7") 0 [] [] 96 0 0].
Proof. reflexivity. Qed.
Example C43_rtpmap_case : described_by ["m=video 0 RTP/AVP 96"; "a=rtpmap:97 h264/48000/2"]%string = Ok [mkMedia (codec_of (bs "h264") 96) 48000 [] 97 [] [] 96 0 0].
Proof. reflexivity. Qed.
Example C43_fmtp_case : described_by ["m=video 0 RTP/AVP 96"; "a=fmtp:96 streamtype=5; config=1210; sizelength=13;indexlength=3"]%string =
    Ok [mkMedia 0 0 [] 0 [18; 16] [] 96 13 3] /\
  described_by ["m=video 0 RTP/AVP 96"; "a=fmtp:96 sprop-parameter-sets=Z0IAKQ=="]%string = Ok [mkMedia 0 0 [] 0 [] [] 96 0 0].
Proof. split; vm_compute; reflexivity. Qed.
