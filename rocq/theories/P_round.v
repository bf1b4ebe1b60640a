(* C61 once more: any description of a session, not only the first. *)
From Coq Require Import String.
From Verif Require Import Base GoStrings M_conn M_message M_transport M_session S_session L_base L_flow L_round P_session.

(* Exactly when Ready is announced: the answers of all rounds are counted together, and every answer announces it from the one on that
   brings the count to the number of streams of the latest description. *)
Theorem C61_exact : forall (w w1 w2 : world) (rs : list response),
  s_conn (w_s w) = true -> s_proto (w_s w) <> ProtoHTTP ->
  let before := s_feedidx (w_s w) in let streams := zlen (s_feeds (w_s w)) in
  0 <= before -> before + streams < 2 ^ 63 -> 0 <= s_cseq (w_s w) -> s_cseq (w_s w) + streams < 2 ^ 63 ->
  setup w = (w1, Ok tt) ->
  NoDup (map p_cseq rs) -> Forall (fun r => s_cseq (w_s w) < p_cseq r <= s_cseq (w_s w) + streams /\ p_code r <> 401) rs ->
  handled w1 rs w2 ->
  readies (w_log w2) = readies (w_log w) ++ repeat (Notified 1) (Z.to_nat (Z.min (zlen rs) (before + zlen rs - streams + 1))) /\
  s_stage (w_s w2) = (if (0 <? zlen rs) && (before + zlen rs >=? streams) then 1 else s_stage (w_s w)).
Proof. intros w w1 w2 rs. cbv zeta. apply round_ready. Qed.
Print Assumptions C61_exact.

(* two streams, answered, and described again: Ready after the second, the third and the fourth answer *)
Example C61_exact_case :
  let answer n := text_of (bs "RTSP/1.0 200 OK|CSeq: " ++ itoa n ++ bs "|Transport: RTP/AVP/TCP;interleaved=0-1") [] in
  let described n := text_of (bs "RTSP/1.0 200 OK|CSeq: " ++ itoa n ++ bs "|Content-Length: 120") sdp2 in
  let start := mkW (dialled ProtoTCP None (bs "rtsp://h/s")) (text_of (bs "RTSP/1.0 200 OK|CSeq: 1") [] ++ described 2 ++ answer 3 ++ answer 4 ++ described 5 ++ answer 6 ++ answer 7) [] [] [] [] in
  let before := [App COptions; Turn 0 0; Turn 0 0; Turn 0 0; Turn 0 0; App CDescribe; Turn 0 0] in
  map (fun es => length (readies (w_log (fst (M_session.run (start, Live) es))))) [before; before ++ [Turn 0 0]; before ++ [Turn 0 0; Turn 0 0]] = [1; 2; 3]%nat.
Proof. vm_compute. reflexivity. Qed.
