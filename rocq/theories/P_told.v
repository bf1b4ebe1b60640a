(* Properties C153, C154: what a feed says of its stream. *)
From Coq Require Import String.
From Verif Require Import Base GoStrings M_conn M_message M_transport M_sps M_sdp M_session S_message S_session S_sets L_told P_frames.

(* C153  whatever the server sends, whatever the application asks for and whichever writes fail: the feeds are the video sections, in
   order, of a description received in this session *)
Theorem C153_sections : forall (w : world) (l : life) (es : list event) (w' : world) (l' : life),
  s_feeds (w_s w) = [] -> run (w, l) es = (w', l') ->
  s_feeds (w_s w') = [] \/ sections_of (w_log w') (map fd_media (s_feeds (w_s w'))).
Proof. intros w l es w' l' F R. apply run_told in R; [exact (proj1 R)|]. apply told_start. exact F. Qed.
Print Assumptions C153_sections.

(* and each parameter set of a feed was read from one of the units its own section gives *)
Theorem C153_sets : forall (w : world) (l : life) (es : list event) (w' : world) (l' : life),
  s_feeds (w_s w) = [] -> run (w, l) es = (w', l') ->
  Forall (fun f => read_from (m_sprops (fd_media f)) (fd_sets f)) (s_feeds (w_s w')).
Proof. intros w l es w' l' F R. apply run_told in R; [exact (proj2 R)|]. apply told_start. exact F. Qed.
Print Assumptions C153_sets.

Example C153_case :
  let '(w, l) := run (told_world [], Live) [App CDescribe; Turn 0 0; Turn 0 0; Turn 0 0] in
  l = Live /\
  map (fun f => (m_payload_type (fd_media f), fd_set f)) (s_feeds (w_s w)) = [(96, true); (97, true)] /\
  map (fun f => option_map sps_pic_width_in_mbs_minus1 (get_sps (fd_sets f) 0)) (s_feeds (w_s w)) = [Some 119; None].
Proof. vm_compute. split; [reflexivity|]. split; reflexivity. Qed.

(* C154  Full statement: parameter sets that come in the stream are known to the feed.  They never are: a feed whose section gives
   none has none, whatever is received *)
Theorem C154_in_band_refuted : forall (w : world) (l : life) (es : list event) (w' : world) (l' : life) (f : feed) (id : Z),
  s_feeds (w_s w) = [] -> run (w, l) es = (w', l') -> In f (s_feeds (w_s w')) -> m_sprops (fd_media f) = [] ->
  get_sps (fd_sets f) id = None /\ get_pps (fd_sets f) id = None.
Proof. intros w l es w' l' f id F R J M. apply (sets_none f id M). apply run_told in R; [|apply told_start; exact F]. exact (proj1 (Forall_forall _ _) (proj2 R) f J). Qed.
Print Assumptions C154_in_band_refuted.

(* and one whose section gives some keeps them when others come in the stream with the same number *)
Theorem C154_frames_refuted : forall (frames : list (Z * bytes)) (w : world) (times : list (Z * Z)) (rest : stream),
  s_conn (w_s w) = true -> s_proto (w_s w) = ProtoTCP ->
  Forall (fun e => byte_ok (fst e) /\ zlen (snd e) <= 2048) frames -> length times = length frames ->
  w_in w = flat_map (fun e => map Some (frame_text (fst e) (snd e))) frames ++ rest ->
  s_feeds (w_s (fst (run (w, Live) (map (fun t => Turn (fst t) (snd t)) times)))) = s_feeds (w_s w).
Proof. intros frames w times rest C P F L E. rewrite (C55_frames frames w times rest C P F L E). reflexivity. Qed.
Print Assumptions C154_frames_refuted.

(* the second stream of the session above sends its sequence parameter set in a packet of its own *)
Example C154_case :
  let sps := [103; 100; 0; 40; 172; 217; 64; 120; 2; 39; 229; 64] in
  let packet := [128; 97; 0; 1; 0; 0; 0; 0; 0; 0; 0; 5] ++ sps in
  let '(w, l) := run (told_world (frame_text 2 packet), Live) [App CDescribe; Turn 0 0; Turn 0 0; Turn 0 0; Turn 0 0] in
  l = Live /\ In (Delivered 2 packet) (w_log w) /\
  option_map sps_pic_width_in_mbs_minus1 (get_sps (fst (parse_sps new_store (tl sps))) 0) = Some 119 /\
  map (fun f => option_map sps_pic_width_in_mbs_minus1 (get_sps (fd_sets f) 0)) (s_feeds (w_s w)) = [Some 119; None].
Proof. vm_compute. split; [reflexivity|]. split; [repeat (left; reflexivity) || right; auto 12|]. split; reflexivity. Qed.
