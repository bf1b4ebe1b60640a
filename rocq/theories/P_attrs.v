(* C127 and C128: the attributes of a stream. *)
From Coq Require Import String Permutation.
From Verif Require Import Base GoStrings S_sdp M_sdp L_base L_strings L_sdp S_attrs P_sdp L_attrs.

(* ---- C127  the order of the attributes ---- *)
(* Full statement: whatever is said of a stream, the order of the lines does not matter.  Proved when each of control, rtpmap
   and fmtp is there at most once, with any other lines, within the limits of attr_ok. *)
Theorem C127_order_partial : forall pre done m ls ls' ats ats',
  Forall one_line (pre ++ ls) -> Forall one_line (pre ++ ls') -> in_video pre -> sdp_parse (body_of pre) = Ok (done ++ [m]) ->
  Forall2 says ls ats -> Forall2 says ls' ats' -> Forall attr_ok ats -> NoDup (flat_map kind ats) -> Permutation ats ats' ->
  sdp_parse (body_of (pre ++ ls)) = sdp_parse (body_of (pre ++ ls')) /\ exists m', sdp_parse (body_of (pre ++ ls)) = Ok (done ++ [m']).
Proof.
  intros pre done m ls ls' ats ats' O O' V E S S' K N P.
  assert (K' : Forall attr_ok ats') by (eapply Permutation_Forall; eauto).
  rewrite (attrs_effect ats pre ls done m O V E S K), (attrs_effect ats' pre ls' done m O' V E S' K'), (effects_perm ats ats' P N m).
  split; [reflexivity|]. eexists. reflexivity.
Qed.
Print Assumptions C127_order_partial.

(* False without the limit: a control URI such as live/1/video, before rtpmap or behind it. *)
Theorem C127_order_refuted : forall pre done m lc lr uri n pt name rate,
  Forall one_line (pre ++ [lc; lr]) -> in_video pre -> sdp_parse (body_of pre) = Ok (done ++ [m]) ->
  says lc (AControl uri) -> ~ In 32 uri -> ~ In 59 uri -> slash_number uri = Some n ->
  says lr (ARtpmap pt name rate []) -> attr_ok (ARtpmap pt name rate []) -> n <> rate ->
  exists f g, sdp_parse (body_of (pre ++ [lc; lr])) = Ok (done ++ [f]) /\ m_timescale f = rate /\
    sdp_parse (body_of (pre ++ [lr; lc])) = Ok (done ++ [g]) /\ m_timescale g = n /\ m_timescale f <> m_timescale g.
Proof.
  intros pre done m lc lr uri n pt name rate O V E Sc N1 N2 Hn Sr Kr D.
  assert (O1 : Forall one_line (pre ++ [lc])). { apply Forall_app in O as [A B]. apply Forall_app. split; [exact A|]. constructor; [exact (Forall_inv B)|constructor]. }
  assert (O2 : Forall one_line (pre ++ [lr])). { apply Forall_app in O as [A B]. apply Forall_app. split; [exact A|]. constructor; [exact (Forall_inv (Forall_inv_tail B))|constructor]. }
  assert (O3 : Forall one_line (pre ++ [lr; lc])). { apply Forall_app in O as [A B]. apply Forall_app. split; [exact A|]. inversion B as [|? ? B1 B2]; inversion B2; auto. }
  pose proof (C43_control_only_partial pre done m lc uri O1 V E Sc N1 N2) as E1. rewrite Hn in E1.
  pose proof (attr_effect pre done m lr _ O2 V E Sr Kr) as E2.
  assert (M1 : ~ media_line lc). { intros (v & X). unfold says in Sc. rewrite X in Sc. discriminate. }
  assert (M2 : ~ media_line lr). { intros (v & X). unfold says in Sr. rewrite X in Sr. discriminate. }
  replace (pre ++ [lc; lr]) with ((pre ++ [lc]) ++ [lr]) in * by (rewrite <- app_assoc; reflexivity).
  replace (pre ++ [lr; lc]) with ((pre ++ [lr]) ++ [lc]) in * by (rewrite <- app_assoc; reflexivity).
  pose proof (attr_effect (pre ++ [lc]) done _ lr _ O (in_video_snoc pre lc V M1) E1 Sr Kr) as E3.
  pose proof (C43_control_only_partial (pre ++ [lr]) done _ lc uri O3 (in_video_snoc pre lr V M2) E2 Sc N1 N2) as E4. rewrite Hn in E4.
  do 2 eexists. splits; [exact E3|reflexivity|exact E4|reflexivity|]. cbn. congruence.
Qed.
Print Assumptions C127_order_refuted.

Example C127_case :
  let pre := [bs "v=0"; bs "m=video 0 RTP/AVP 96"] in
  let c := bs "a=control:trackID=0" in let r := bs "a=rtpmap:96 H264/90000" in
  let f := bs "a=fmtp:96 packetization-mode=1; sprop-parameter-sets=Z0IAKQ==,aM48gA==" in let b := bs "b=AS:16" in let o := bs "a=recvonly" in
  let d := Ok [mkMedia 96 90000 (bs "trackID=0") 96 [] [[103; 66; 0; 41]; [104; 206; 60; 128]] 96 0 0] in
  sdp_parse (body_of (pre ++ [b; c; r; f; o])) = d /\ sdp_parse (body_of (pre ++ [f; o; r; c; b])) = d.
Proof. vm_compute. split; reflexivity. Qed.

(* these lines say what C127_order_partial is about *)
Example C127_lines_case :
  let ats := [AOther (bs "b=AS:16"); AControl (bs "trackID=0"); ARtpmap 96 (bs "H264") 90000 [];
    AFmtp 96 [([], POther (bs "packetization-mode") (bs "1")); ([32], PSprops [[103; 66; 0; 41]; [104; 206; 60; 128]])]; AOther (bs "a=recvonly")] in
  Forall2 says [bs "b=AS:16"; bs "a=control:trackID=0"; bs "a=rtpmap:96 H264/90000" ++ [13];
    bs "a=fmtp:96 packetization-mode=1; sprop-parameter-sets=Z0IAKQ==,aM48gA=="; bs "a=recvonly"] ats /\
  Forall attr_ok ats /\ NoDup (flat_map kind ats).
Proof.
  assert (Ab : forall c s, existsb (Z.eqb c) s = false -> ~ In c s).
  { intros c s E I. assert (X : existsb (Z.eqb c) s = true) by (apply existsb_exists; exists c; split; [exact I|apply Z.eqb_refl]). congruence. }
  cbv zeta. splits.
  - repeat (constructor; [vm_compute; reflexivity|]). constructor.
  - constructor; [|constructor; [|constructor; [|constructor; [|constructor; [|constructor]]]]].
    + right; left. exists (bs "b"), (bs "AS:16"). splits; [reflexivity|apply Ab; reflexivity|discriminate|discriminate].
    + cbn [attr_ok]; splits; [apply Ab; reflexivity|apply Ab; reflexivity|reflexivity].
    + cbn [attr_ok]. split; [lia|]. split; [lia|]. splits; try (apply Ab; reflexivity). left; reflexivity.
    + cbn [attr_ok]. split; [cbn; lia|]. split.
      * constructor; [split; [constructor|]|constructor; [split; [repeat constructor|]|constructor]].
        -- cbn [snd fparam_ok]. splits; try (apply Ab; reflexivity); [vm_compute; reflexivity|].
           intros [X|[X|[X|[X|[]]]]]; discriminate.
        -- cbn [snd fparam_ok]. split; [discriminate|]. repeat constructor; cbn; lia.
      * split; [|vm_compute; reflexivity]. constructor; [split; apply Ab; reflexivity|constructor; [exact I|constructor]].
    + right; right. exists (bs "recvonly"). splits; try (apply Ab; reflexivity); [reflexivity| |]; intros v; discriminate.
  - cbn. repeat constructor; cbn; intuition discriminate.
Qed.

Example C127_refuted_case :
  let pre := [bs "m=video 0 RTP/AVP 96"] in let c := bs "a=control:live/1/video" in let r := bs "a=rtpmap:96 H264/90000" in
  option_map m_timescale (match sdp_parse (body_of (pre ++ [c; r])) with Ok [f] => Some f | _ => None end) = Some 90000 /\
  option_map m_timescale (match sdp_parse (body_of (pre ++ [r; c])) with Ok [f] => Some f | _ => None end) = Some 1.
Proof. vm_compute. split; reflexivity. Qed.

(* ---- C128  several formats ---- *)
(* Full statement: codec, clock rate and parameter sets reported are those of the payload type reported.  Exactly: the payload type is
   the first format of the media line; mapping and clock rate are those of the last rtpmap line, the codec that of the last with a known
   name; the parameter sets those of all fmtp lines. *)
Theorem C128_exact : forall ml ls ats port proto pt tail, Forall one_line (ml :: ls) ->
  trim_space ml = bs "m=video " ++ port ++ bs " " ++ proto ++ bs " " ++ itoa pt ++ tail ->
  ~ In 32 port -> ~ In 32 proto -> - 2 ^ 63 <= pt < 2 ^ 63 -> (tail = [] \/ exists formats, tail = 32 :: formats) ->
  Forall2 says ls ats -> Forall attr_ok ats ->
  exists f, sdp_parse (body_of (ml :: ls)) = Ok [f] /\ m_payload_type f = pt /\
    m_sprops f = flat_map (fun a => match a with AFmtp _ ps => sprops_of (map snd ps) | _ => [] end) ats /\
    (forall a q name rate tl b, ats = a ++ ARtpmap q name rate tl :: b -> ~ In 2 (flat_map kind b) ->
      m_rtpmap f = q /\ m_timescale f = rate /\ (codec_of name 0 <> 0 -> m_type f = codec_of name 0)).
Proof.
  intros ml ls ats port proto pt tail O T P1 P2 Hp Ht S K.
  eexists. split; [exact (section_effect ml ls ats port proto pt tail O T P1 P2 Hp Ht S K)|].
  split; [apply keeps_payload|]. split; [rewrite all_sprops; reflexivity|].
  intros a q name rate tl b -> N. apply last_rtpmap. exact N.
Qed.
Print Assumptions C128_exact.

(* So it is right when everything said is about that payload type. *)
Theorem C128_own_partial : forall ml ls ats port proto pt tail name rate tl, Forall one_line (ml :: ls) ->
  trim_space ml = bs "m=video " ++ port ++ bs " " ++ proto ++ bs " " ++ itoa pt ++ tail ->
  ~ In 32 port -> ~ In 32 proto -> - 2 ^ 63 <= pt < 2 ^ 63 -> (tail = [] \/ exists formats, tail = 32 :: formats) ->
  Forall2 says ls ats -> Forall attr_ok ats ->
  incl (flat_map about ats) [pt] -> NoDup (flat_map kind ats) -> In (ARtpmap pt name rate tl) ats ->
  exists f, sdp_parse (body_of (ml :: ls)) = Ok [f] /\ m_payload_type f = pt /\ m_rtpmap f = pt /\ m_timescale f = rate /\ m_type f = codec_of name 0 /\
    (forall ps, In (AFmtp pt ps) ats -> m_sprops f = sprops_of (map snd ps)).
Proof.
  intros ml ls ats port proto pt tail name rate tl O T P1 P2 Hp Ht S K A N I.
  assert (Q : forall ats' , Permutation ats ats' -> fold_left effect ats (mkMedia 0 0 [] 0 [] [] pt 0 0) = fold_left effect ats' (mkMedia 0 0 [] 0 [] [] pt 0 0))
    by (intros ats' P; apply effects_perm; [exact P|exact N]).
  eexists. split; [exact (section_effect ml ls ats port proto pt tail O T P1 P2 Hp Ht S K)|].
  split; [apply keeps_payload|]. apply in_split in I. destruct I as (a & b & ->).
  rewrite flat_map_app in N. cbn [flat_map kind app] in N. pose proof (NoDup_remove_2 _ _ _ N) as N2. rewrite <- flat_map_app in N2.
  assert (P : Permutation (a ++ ARtpmap pt name rate tl :: b) ((a ++ b) ++ [ARtpmap pt name rate tl])).
  { rewrite <- app_assoc. apply Permutation_app_head. apply Permutation_cons_append. }
  split; [rewrite (Q _ P), fold_left_app; reflexivity|]. split; [rewrite (Q _ P), fold_left_app; reflexivity|]. split.
  - rewrite (Q _ P), fold_left_app. cbn [fold_left effect with_rtpmap with_timescale with_type m_type].
    destruct (keeps_clock (a ++ b) (mkMedia 0 0 [] 0 [] [] pt 0 0) N2) as (X & _). rewrite X. reflexivity.
  - intros ps I. apply in_split in I. destruct I as (c & d & E). rewrite all_sprops. cbn [m_sprops app]. rewrite E, flat_map_app. cbn [flat_map].
    assert (Z0 : forall l, ~ In 3 (flat_map kind l) -> flat_map (fun a => match a with AFmtp _ ps => sprops_of (map snd ps) | _ => [] end) l = []).
    { induction l as [|x l IH]; intros X; [reflexivity|]. cbn [flat_map] in *. rewrite IH by (intros I; apply X, in_or_app; auto). destruct x; try reflexivity. exfalso. apply X. left; reflexivity. }
    assert (N3 : NoDup (flat_map kind (c ++ AFmtp pt ps :: d))) by (rewrite <- E, flat_map_app; exact N).
    rewrite flat_map_app in N3. cbn [flat_map kind app] in N3. apply NoDup_remove_2 in N3.
    rewrite !Z0 by (intros I; apply N3, in_or_app; auto). apply app_nil_r.
Qed.
Print Assumptions C128_own_partial.

(* False with two formats: the second one's mapping and clock rate are given for the first one's payload type, and its codec if it is
   known; if not, the codec is still that of the first. *)
Theorem C128_formats_refuted : forall ml l1 l2 port proto pt1 pt2 name1 name2 rate1 rate2, Forall one_line [ml; l1; l2] ->
  trim_space ml = bs "m=video " ++ port ++ bs " " ++ proto ++ bs " " ++ itoa pt1 ++ 32 :: itoa pt2 ->
  ~ In 32 port -> ~ In 32 proto ->
  says l1 (ARtpmap pt1 name1 rate1 []) -> attr_ok (ARtpmap pt1 name1 rate1 []) ->
  says l2 (ARtpmap pt2 name2 rate2 []) -> attr_ok (ARtpmap pt2 name2 rate2 []) -> pt1 <> pt2 ->
  exists f, sdp_parse (body_of [ml; l1; l2]) = Ok [f] /\ m_payload_type f = pt1 /\
    m_rtpmap f = pt2 /\ m_rtpmap f <> m_payload_type f /\ m_timescale f = rate2 /\ m_type f = codec_of name2 (codec_of name1 0).
Proof.
  intros ml l1 l2 port proto pt1 pt2 name1 name2 rate1 rate2 O T P1 P2 S1 K1 S2 K2 D.
  eexists. split; [apply (section_effect ml [l1; l2] [ARtpmap pt1 name1 rate1 []; ARtpmap pt2 name2 rate2 []] port proto pt1 (32 :: itoa pt2) O T P1 P2)|].
  - destruct K1 as (H & _). lia.
  - right. eexists. reflexivity.
  - constructor; [exact S1|constructor; [exact S2|constructor]].
  - constructor; [exact K1|constructor; [exact K2|constructor]].
  - cbn. splits; try reflexivity. congruence.
Qed.
Print Assumptions C128_formats_refuted.

(* MPEG-4 video with H.264 as the second choice: payload type 97 is reported as H.264. *)
Example C128_case :
  sdp_parse (body_of [bs "m=video 0 RTP/AVP 97 96"; bs "a=rtpmap:97 MP4V-ES/25000"; bs "a=rtpmap:96 H264/90000"; bs "a=control:v"]) =
    Ok [mkMedia 96 90000 (bs "v") 96 [] [] 97 0 0].
Proof. vm_compute. reflexivity. Qed.
