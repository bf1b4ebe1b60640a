(* Property C156: every entry of the output begins a line. *)
From Coq Require Import String.
From Verif Require Import Base GoStrings M_nal M_conn M_message M_transport M_session S_message S_session M_main M_log S_record S_stdout M_stdout L_held L_stdout.

(* Full statement: every entry begins a line, whatever the server does.  It does while no listener for UDP has been opened: standard output is
   then the entries of the log, and nothing else. *)
Theorem C156_lines_partial : forall (ord : header -> header) (txt : goerr -> bytes) user uri input writes listens rand (es : list yevent) (y' : system) (ps : list piece),
  let y := launch (mkW (dialled ProtoTCP user uri) input writes listens rand []) in
  yrun y es = Some y' -> (forall ch port, ~ In (Listening ch port) (w_log (y_w y'))) -> standard_output ord txt y es ps ->
  ps = map Logged (map snd (youtput ord txt y es)) /\ on_own_lines ps.
Proof.
  intros ord txt user uri input writes listens rand es y' ps y R N O. refine (output_lines ord txt y es y' ps _ R N O).
  unfold y, launch. destruct (options _) as [w o] eqn:E. cbn [y_w]. unfold options in E. apply (f_equal fst) in E. cbn [fst] in E. rewrite <- E. apply conn_held. reflexivity.
Qed.
Print Assumptions C156_lines_partial.

(* Once Start has announced a listener, the next entry does not, wherever the announcements stand among the entries. *)
Theorem C156_lines_refuted : forall (ord : header -> header) (txt : goerr -> bytes) (y : system) (es : list yevent) (ps : list piece) (m : bytes),
  ybare y es <> [] -> standard_output ord txt y es (ps ++ [Logged m]) -> ~ on_own_lines (ps ++ [Logged m]).
Proof. exact output_broken. Qed.
Print Assumptions C156_lines_refuted.

(* The client asks for TCP and the server answers with UDP: two listeners are announced, and the notice of the stage is on their line. *)
Definition crlf : bytes := [13; 10].
Definition one_video : bytes := bs "v=0" ++ crlf ++ bs "m=video 0 RTP/AVP 96" ++ crlf ++ bs "a=control:track1" ++ crlf.
Definition with_udp : stream :=
  let rsp n fs body := sent (response_text (bs "RTSP/1.0") 200 (bs "OK") (mkField (bs "CSeq") [32] (bs n) :: fs) body) in
  rsp "1"%string [] [] ++
  rsp "2"%string [mkField (bs "Content-Length") [32] (itoa (zlen one_video))] one_video ++
  rsp "3"%string [mkField (bs "Transport") [32] (bs "RTP/AVP/UDP;unicast;port=5000-5001")] [].
Example C156_case :
  let y := launch (mkW (dialled ProtoTCP None (bs "rtsp://h/s")) with_udp [] [] [] []) in
  let es := [YTurn 0 0; YTurn 0 0; YTurn 0 0; YStage] in
  ybare y es = [bs "Reading from UDP sink 2"; bs "Reading from UDP sink 3"] /\
  nth 5 (map snd (youtput (fun h => h) (fun _ => []) y es)) [] = bs "Stage: Ready" ++ [10] /\
  out_text (map Bare (ybare y es) ++ [Logged (bs "Stage: Ready" ++ [10])]) = bs "Reading from UDP sink 2Reading from UDP sink 3Stage: Ready" ++ [10].
Proof. split; [|split]; vm_compute; reflexivity. Qed.
