(* Properties C151, C152: the ends of lines. *)
From Coq Require Import String.
From Verif Require Import Base GoStrings M_conn M_message M_sdp S_message S_ends L_message L_ends.

(* C151  a response reads the same whichever of CR LF and LF ends each of its lines: the outcome is the same, and what is left to
   read after it is the same *)
Theorem C151_ends_partial : forall (first : bytes) (e1 e2 : line_end) (ls ms : list (bytes * line_end)) (fs : list bytes) (rest : stream),
  ~ In 10 first -> Forall one_line ls -> same_lines ls ms ->
  map fst ls = fs ++ [[]] -> Forall (fun l => trim_space l <> []) fs ->
  exists s s' o,
    unpack_response (sent (text_of ((first, e1) :: ls)) ++ rest) = (s, o) /\
    unpack_response (sent (text_of ((first, e2) :: ms)) ++ rest) = (s', o) /\
    (forall r, o = Ok r -> s = s').
Proof. intros first e1 e2 ls ms fs rest N F S M V. apply unpack_same; [exact N|exact F|exact S|exists fs; split; [exact V|exact M]]. Qed.
Print Assumptions C151_ends_partial.

Example C151_case :
  let a := [(bs "CSeq: 7", Lf); (bs "Content-Length: 3", CrLf); ([], Lf)] in
  let b := [(bs "CSeq: 7", CrLf); (bs "Content-Length: 3", CrLf); ([], CrLf)] in
  let o := (sent (bs "$"), Ok (mkRsp (bs "200 OK") 200 3 7 [(bs "Cseq", bs "7"); (bs "Content-Length", bs "3")] (Some (bs "v=0")))) in
  unpack_response (sent (text_of ((bs "RTSP/1.0 200 OK", Lf) :: a)) ++ sent (bs "v=0$")) = o /\
  unpack_response (sent (text_of ((bs "RTSP/1.0 200 OK", CrLf) :: b)) ++ sent (bs "v=0$")) = o.
Proof. cbv zeta. split; vm_compute; reflexivity. Qed.

(* lines ended by CR alone are not seen as lines: whatever the response, all of it is dropped when the peer falls silent *)
Theorem C151_cr_refuted : forall (first : bytes) (fs : list bytes) (body : bytes) (rest : stream),
  Forall (fun l => ~ In 10 l) (first :: fs) -> ~ In 10 body ->
  unpack_response (sent (text_cr (first :: fs ++ [[]]) ++ body) ++ None :: rest) = (rest, Err ErrTimeout).
Proof. intros. apply unpack_cr. apply no_lf_cr; assumption. Qed.
Print Assumptions C151_cr_refuted.

Example C151_cr_case :
  unpack_response (sent (text_cr [bs "RTSP/1.0 200 OK"; bs "CSeq: 7"; []]) ++ None :: sent (bs "$")) = (sent (bs "$"), Err ErrTimeout).
Proof. vm_compute. reflexivity. Qed.

(* C152  a description reads the same whichever of CR LF and LF ends each of its lines *)
Theorem C152_ends : forall (ls ms : list (bytes * line_end)),
  Forall one_line ls -> same_lines ls ms -> sdp_parse (text_of ls) = sdp_parse (text_of ms).
Proof. intros ls ms F S. rewrite (sdp_text ls F), (sdp_text ms (one_line_same ls ms S F)). rewrite S. reflexivity. Qed.
Print Assumptions C152_ends.

(* and when the end of the last line is missing *)
Theorem C152_last : forall (ls ms : list (bytes * line_end)) (l : bytes) (e : line_end),
  Forall one_line ls -> ~ In 10 l -> same_lines ls ms -> sdp_parse (text_of ls ++ l) = sdp_parse (text_of (ms ++ [(l, e)])).
Proof. exact sdp_last. Qed.
Print Assumptions C152_last.

Example C152_case :
  let ls := [(bs "v=0", Lf); (bs "m=video 0 RTP/AVP 96", CrLf); (bs "a=control:trackID=1", Lf)] in
  let ms := [(bs "v=0", CrLf); (bs "m=video 0 RTP/AVP 96", CrLf); (bs "a=control:trackID=1", CrLf)] in
  sdp_parse (text_of ls) = sdp_parse (text_of ms) /\
  match sdp_parse (text_of ls) with Ok [_] => True | _ => False end /\ text_of ls <> text_of ms.
Proof. cbv zeta. split; [vm_compute; reflexivity|]. split; [vm_compute; exact I|discriminate]. Qed.
