(* Property C109: a response that is packed again. *)
From Coq Require Import String Permutation.
From Verif Require Import Base GoStrings M_conn S_message M_message L_message L_pack.

(* ---- C109 ---- *)
(* Full statement: the text packed from a response that was read, in whatever order its fields come, reads back as the response, and
   nothing of the text is left.  Nothing is left when there is no body. *)
Theorem C109_again_partial : forall (s s' : stream) (r : response) (order : header) (rest : stream),
  unpack_response s = (s', Ok r) -> Permutation (p_header r) order ->
  unpack_response (map Some (pack_response r order) ++ rest) =
  ((if p_length r >? 0 then map Some [13; 10] ++ rest else rest), Ok (mkRsp (p_status r) (p_code r) (p_length r) (p_cseq r) order (p_body r))).
Proof. exact pack_again. Qed.
Print Assumptions C109_again_partial.

(* After a body there are two bytes that belong to no message, and whoever reads on fails there. *)
Theorem C109_left_refuted : forall (s s' : stream) (r : response) (order : header) (rest : stream),
  unpack_response s = (s', Ok r) -> Permutation (p_header r) order -> p_length r > 0 ->
  unpack_response (fst (unpack_response (map Some (pack_response r order) ++ rest))) = (rest, Err ErrMalformedResponse).
Proof. intros s s' r order rest U P L. rewrite (C109_again_partial s s' r order rest U P). replace (p_length r >? 0) with true by (symmetry; apply Z.gtb_lt, Z.gt_lt, L). reflexivity. Qed.
Print Assumptions C109_left_refuted.

Example C109_case :
  let text := bs "RTSP/1.0   200   OK " ++ [13; 10] ++ bs "cseq:7" ++ [10] ++ bs " content-length : 2 " ++ [13; 10] ++ bs "a b:" ++ [13; 10; 13; 10] ++ bs "hi" in
  exists r, unpack_response (map Some text) = ([], Ok r) /\ p_cseq r = 7 /\
    pack_response r (rev (p_header r)) =
      bs "RTSP/1.0 200   OK" ++ [13; 10] ++ bs "a b: " ++ [13; 10] ++ bs "Content-Length: 2" ++ [13; 10] ++ bs "Cseq: 7" ++ [13; 10; 13; 10] ++ bs "hi" ++ [13; 10].
Proof. cbv zeta. eexists. split; [vm_compute; reflexivity|]. split; vm_compute; reflexivity. Qed.
