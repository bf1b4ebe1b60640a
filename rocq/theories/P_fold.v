(* C136: header fields on several lines. *)
From Coq Require Import String.
From Verif Require Import Base GoStrings M_conn S_message M_message M_transport M_session S_session S_handshake S_fold L_base L_message L_refuse L_fold.
From Verif Require Import M_dial.
From Coq Require Import ZifyBool.

(* Full statement: a field whose value is continued on further lines has the value it would have on one, and fields of one name have the value of
   one field with the list of the values. *)

(* Not one response with a line that continues a field and has no colon in it is read: the loop ends and nothing is told. *)
Theorem C136_folded_refuted : forall (w : world) (code : Z) (reason : bytes) (fields : list lfield) (body : bytes) (rest : stream) (t1 t2 : Z) f m,
  s_conn (w_s w) = true -> s_proto (w_s w) = ProtoTCP -> 100 <= code <= 999 -> line_text reason -> Forall lfield_ok fields ->
  In f fields -> In m (l_more f) -> ~ In 58 (snd m) ->
  w_in w = sent (long_response code reason fields body) ++ rest ->
  exists s', step (w, Live) (Turn t1 t2) = (upd_in w s', NoLoop).
Proof.
  intros w code reason fields body rest t1 t2 f m C P K R F I J N E. destruct (folded_unread code reason fields body rest f m K R F I J N) as (s' & U).
  revert E U. unfold long_response, status_text. change (bs "RTSP/1.0") with (82 :: bs "TSP/1.0"). cbn [app]. rewrite L_frames.sent_cons. cbn [app]. intros E U.
  exists s'. eapply unread_stops; [exact C|exact P|exact E|discriminate|exact U|reflexivity].
Qed.
Print Assumptions C136_folded_refuted.

(* The same response with the fields on one line each is read, with the values they then have. *)
Theorem C136_unfolded_partial : forall code reason fields body rest,
  100 <= code <= 999 -> line_text reason -> Forall sfield_ok (map unfolded fields) -> content_ok (map unfolded fields) body -> zlen body <= 2048 ->
  exists r, unpack_response (sent (response_text (bs "RTSP/1.0") code reason (map unfolded fields) body) ++ rest) = (rest, Ok r) /\ p_code r = code /\
    forall k, token k -> header_get (p_header r) k = last (values (map unfolded fields) k) [].
Proof.
  intros code reason fields body rest C R F K L. destruct (unpack_response_spec code reason (map unfolded fields) body rest C R F K L) as (r & U & H1 & _ & H3 & _).
  exists r. splits; [exact U|exact H1|]. intros k T. rewrite <- value_last. exact (H3 k T).
Qed.
Print Assumptions C136_unfolded_partial.

(* A line that continues a field and has a colon is a field of its own. *)
Theorem C136_colon_refuted : forall code reason (fields : list (bytes * sfield)) body rest,
  100 <= code <= 999 -> line_text reason -> Forall (fun f => Forall (fun c => c = 32 \/ c = 9) (fst f) /\ sfield_ok (snd f)) fields ->
  content_ok (map snd fields) body -> zlen body <= 2048 ->
  exists r, unpack_response (sent (status_text code reason ++ flat_map (fun f => fst f ++ sfield_text (snd f)) fields ++ [13; 10] ++ body) ++ rest) = (rest, Ok r) /\
    p_code r = code /\ p_body r = (match body with [] => None | _ => Some body end) /\
    (forall k, token k -> header_get (p_header r) k = last (values (map snd fields) k) []).
Proof.
  intros code reason fields body rest C R F K L. destruct (led_unpack code reason fields body rest C R F K L) as (r & U & H1 & H2 & H3).
  exists r. splits; [exact U|exact H1|exact H2|]. intros k T. rewrite <- value_last. exact (H3 k T).
Qed.
Print Assumptions C136_colon_refuted.

(* Of several fields of one name the last counts: the value is that of the list exactly if there is no more than one. *)
Theorem C136_repeated_exact : forall code reason fields body rest,
  100 <= code <= 999 -> line_text reason -> Forall sfield_ok fields -> content_ok fields body -> zlen body <= 2048 ->
  exists r, unpack_response (sent (response_text (bs "RTSP/1.0") code reason fields body) ++ rest) = (rest, Ok r) /\
    forall k, token k -> header_get (p_header r) k = last (values fields k) [] /\ (header_get (p_header r) k = listed (values fields k) <-> (length (values fields k) <= 1)%nat).
Proof.
  intros code reason fields body rest C R F K L. destruct (unpack_response_spec code reason fields body rest C R F K L) as (r & U & _ & _ & H3 & _).
  exists r. split; [exact U|]. intros k T. rewrite (H3 k T), value_last. split; [reflexivity|]. rewrite <- last_listed. split; intros E; symmetry; exact E.
Qed.
Print Assumptions C136_repeated_exact.

Definition cseq (n : string) : sfield := mkField (bs "CSeq") (bs " ") (bs n).
Definition public (v : string) : sfield := mkField (bs "Public") (bs " ") (bs v).
Definition on_two_lines : list lfield := [mkLong (cseq "1") []; mkLong (public "OPTIONS,") [([9], bs "DESCRIBE")]].
Definition given (t : bytes) (k : string) : option bytes := match unpack_response (sent t) with (_, Ok r) => Some (header_get (p_header r) (bs k)) | _ => None end.
Example C136_case :
  Forall lfield_ok on_two_lines /\ map unfolded on_two_lines = [cseq "1"; public "OPTIONS, DESCRIBE"] /\
  given (long_response 200 (bs "OK") on_two_lines []) "Public" = None /\
  given (response_text (bs "RTSP/1.0") 200 (bs "OK") (map unfolded on_two_lines) []) "Public" = Some (bs "OPTIONS, DESCRIBE") /\
  given (long_response 200 (bs "OK") [mkLong (cseq "1") []; mkLong (mkField (bs "Location") (bs " ") (bs "rtsp:")) [(bs " ", bs "CSeq: 7")]] []) "CSeq" = Some (bs "7") /\
  given (response_text (bs "RTSP/1.0") 200 (bs "OK") [cseq "1"; public "OPTIONS"; public "DESCRIBE"] []) "Public" = Some (bs "DESCRIBE") /\
  listed (values [cseq "1"; public "OPTIONS"; public "DESCRIBE"] (bs "Public")) = bs "OPTIONS, DESCRIBE" /\
  snd (step (mkW (dialled ProtoTCP None (bs "rtsp://h/s")) (sent (long_response 200 (bs "OK") on_two_lines [])) [] [] [] [], Live) (Turn 0 0)) = NoLoop.
Proof.
  splits; try (vm_compute; reflexivity).
  repeat constructor; cbn; try discriminate; try reflexivity; intros H; repeat (destruct H as [H|H]; [discriminate H|]); try contradiction.
Qed.
