(* Property C155: the output of the client is a record of the session. *)
From Coq Require Import String.
From Verif Require Import Base GoStrings M_nal M_conn M_message M_transport M_session S_message S_session M_main M_log S_record L_record.

(* every message exchanged is in the output, once and in order; the other entries are notices and errors *)
Theorem C155_messages : forall (ord : header -> header) (txt : goerr -> bytes) (y y' : system) (es : list yevent),
  yrun y es = Some y' ->
  exists notices,
    merged (message_entries ord (news (y_w y) (y_w y'))) notices (map snd (youtput ord txt y es)) /\ Forall (notice txt) notices.
Proof. intros ord txt y y' es R. exact (proj2 (output_split ord txt es y y' R)). Qed.
Print Assumptions C155_messages.

(* every stage taken is named, in order *)
Theorem C155_stages : forall (ord : header -> header) (txt : goerr -> bytes) (y y' : system) (es : list yevent),
  (forall e, is_notice (txt e) = false) -> yrun y es = Some y' ->
  notices_at at_stage (youtput ord txt y es) = map stage_text (taken y es).
Proof. intros ord txt y y' es T R. exact (notices_stage ord txt es T y y' R). Qed.
Print Assumptions C155_stages.

(* every tick is told with the stage it finds, and when it closes the session *)
Theorem C155_ticks : forall (ord : header -> header) (txt : goerr -> bytes) (y y' : system) (es : list yevent),
  (forall e, is_notice (txt e) = false) -> yrun y es = Some y' ->
  notices_at at_tick (youtput ord txt y es) = flat_map tick_texts (at_ticks (c_state (y_c y)) y es).
Proof. intros ord txt y y' es T R. exact (notices_tick ord txt es T y y' R). Qed.
Print Assumptions C155_ticks.

(* when the client ends, its last entry says why: an error, or the tick after the end of the session *)
Theorem C155_end : forall (ord : header -> header) (txt : goerr -> bytes) (y y' : system) (es : list yevent),
  y_fate y = Goes -> yrun y es = Some y' -> y_fate y' = Returns \/ y_fate y' = Fatals ->
  exists before l, map snd (youtput ord txt y es) = before ++ [l] /\
    (error_entry txt l \/ (c_state (y_c y') = 4 /\ l = bs "Timer: stage=4" ++ [10])).
Proof. intros ord txt y y' es G R F. exact (output_why ord txt es y y' G R F). Qed.
Print Assumptions C155_end.

Example C155_case :
  let ok n := response_text (bs "RTSP/1.0") 200 (bs "OK") [mkField (bs "CSeq") [32] (bs n)] [] in
  let s := set_queue (set_stage (dialled ProtoTCP None (bs "rtsp://h/s")) 2) [(1, mkReq (bs "PAUSE") 1 (bs "rtsp://h/s") [] [] [])] in
  let y := mkY (mkW s (sent (ok "1"%string)) [] [] [] []) Live (mkC 2 M_nal.new_sink true false) None [] Goes in
  let out := map snd (youtput (fun h => h) (fun _ => []) y [YTurn 0 0; YStage; YExpire; YTick]) in
  match out with
  | [a; b; c; d; e] => has_prefix (bs "RTSP/1.0 200 OK") a = true /\ [b; c; d] = [bs "Stage: Pausing" ++ [10]; bs "Timer: stage=3" ++ [10]; bs "Stage: Closing" ++ [10]] /\
                       has_prefix (bs "TEARDOWN rtsp://h/s RTSP/1.0") e = true
  | _ => False
  end.
Proof. vm_compute. split; [reflexivity|]. split; reflexivity. Qed.
