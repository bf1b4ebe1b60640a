(* Property C173: lines of a description that are of no use are passed over. *)
From Coq Require Import String.
From Verif Require Import Base GoStrings S_sdp M_sdp S_unused L_base L_strings L_sdp L_unused.
From Coq Require Import ZifyBool.

(* Full statement: the same for attributes of any other name, whatever their text.  It is false of the code (C173_slash_refuted, C173_word_refuted).
   Lines of other types, empty ones and ones without an equals sign may be put anywhere, and so may attributes in whose text there is neither a slash
   nor a semicolon nor one of the two names the library looks for. *)
Theorem C173_partial : forall ls ms : list bytes, Forall one_line ms -> padded ls ms -> sdp_parse (body_of ms) = sdp_parse (body_of ls).
Proof. intros ls ms F P. rewrite (parse_body ms F), (parse_body ls (padded_one _ _ P F)), (padded_lines _ _ P). reflexivity. Qed.
Print Assumptions C173_partial.

(* Whatever its name, an attribute with a number after a slash changes the clock rate of the stream. *)
Theorem C173_slash_refuted : forall pre done m l v n, Forall one_line (pre ++ [l]) -> in_video pre -> sdp_parse (body_of pre) = Ok (done ++ [m]) ->
  trim_space l = bs "a=" ++ v -> ~ In 32 v -> ~ In 59 v -> slash_number v = Some n ->
  exists f, sdp_parse (body_of (pre ++ [l])) = Ok (done ++ [f]) /\ m_timescale f = n.
Proof.
  intros pre done m l v n O V E T N1 N2 S. eexists. split; [eapply attr_appended; eassumption|]. rewrite split2_none by exact N1. cbn [fold_left]. apply slash_sets; assumption.
Qed.
Print Assumptions C173_slash_refuted.

(* Whatever its name, an attribute with a second word that begins with control: changes the URI the stream is set up at. *)
Theorem C173_word_refuted : forall pre done m l x c, Forall one_line (pre ++ [l]) -> in_video pre -> sdp_parse (body_of pre) = Ok (done ++ [m]) ->
  trim_space l = bs "a=" ++ x ++ 32 :: bs "control:" ++ c -> ~ In 32 x ->
  exists f, sdp_parse (body_of (pre ++ [l])) = Ok (done ++ [f]) /\ m_control f = c.
Proof.
  intros pre done m l x c O V E T N. eexists. split; [eapply attr_appended; eassumption|]. rewrite split2_app by exact N. cbn [fold_left]. apply control_set.
Qed.
Print Assumptions C173_word_refuted.

(* a description of one stream, and the same with lines nobody needs; then with a frame rate, and with a remark *)
Example C173_case :
  let ls := [bs "v=0"; bs "m=video 0 RTP/AVP 96"; bs "a=rtpmap:96 H264/90000"; bs "a=control:track1"] in
  let ms := [bs "v=0"; bs "s=cam"; bs "a=tool:x-1.0"; bs "m=video 0 RTP/AVP 96"; []; bs "b=AS:5000"; bs "a=rtpmap:96 H264/90000"; bs "a=recvonly"; bs "a=control:track1"; bs "nonsense"] in
  padded ls ms /\ sdp_parse (body_of ms) = sdp_parse (body_of ls) /\
  (exists m, sdp_parse (body_of ls) = Ok [m] /\ m_timescale m = 90000 /\ m_control m = bs "track1") /\
  (exists m, sdp_parse (body_of (ls ++ [bs "a=framerate:30000/1001"])) = Ok [m] /\ m_timescale m = 1001) /\
  (exists m, sdp_parse (body_of (ls ++ [bs "a=label:no control:here"])) = Ok [m] /\ m_control m = bs "here").
Proof.
  intros ls ms. split; [|splits; [vm_compute; reflexivity|eexists; splits; vm_compute; reflexivity..]].
  assert (O : forall l, match trim_space l with 109 :: 61 :: _ | 97 :: 61 :: _ => False | _ => True end -> idle l).
  { intros l H. split; [intros v E|intros v E]; rewrite E in H; destruct H. }
  assert (A : forall l v, trim_space l = bs "a=" ++ v -> idle_attribute v -> idle l).
  { intros l v E I. split; intros u E'; rewrite E in E'; [discriminate|]. injection E' as <-. exact I. }
  apply pd_same. apply pd_more; [apply O; vm_compute; exact Logic.I|]. apply pd_more; [apply (A _ (bs "tool:x-1.0")); [vm_compute; reflexivity|apply one_word; try (apply absent_spec; reflexivity); discriminate]|].
  apply pd_same. apply pd_more; [apply O; vm_compute; exact Logic.I|]. apply pd_more; [apply O; vm_compute; exact Logic.I|]. apply pd_same.
  apply pd_more; [apply (A _ (bs "recvonly")); [vm_compute; reflexivity|apply one_word; try (apply absent_spec; reflexivity); discriminate]|].
  apply pd_same. apply pd_more; [apply O; vm_compute; exact Logic.I|]. apply pd_end.
Qed.
