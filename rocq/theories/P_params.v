(* C174: unknown parameters of a Transport field, and the order of the others. *)
From Coq Require Import String Permutation.
From Verif Require Import Base GoStrings M_transport S_omits S_params L_base L_strings L_omits L_ports L_params.

(* C174  Full statement: parameters of a Transport field that the library does not know may be added or left out anywhere, and the others may stand in any order, without a change to what Parse reads. *)
(* Unknown parameters, but for those with two slashes, change neither the result nor the error. *)
Theorem C174_unknown_partial : forall u pre f post, pre ++ post <> [] -> Forall (fun f => ~ In 59 f) (pre ++ f :: post) -> unknown f -> ~ two_slashes f ->
  transport_parse u (join 59 (pre ++ f :: post)) = transport_parse u (join 59 (pre ++ post)).
Proof. exact unknown_inserted. Qed.
Print Assumptions C174_unknown_partial.

(* If no two of the parameters clash the order does not matter, whatever the Transport held before. *)
Theorem C174_order : forall u l m, l <> [] -> Forall (fun f => ~ In 59 f) l -> Permutation l m -> ForallOrdPairs (fun f g => ~ clash f g) l ->
  snd (transport_parse u (join 59 l)) = None -> transport_parse u (join 59 m) = transport_parse u (join 59 l).
Proof. exact parse_perm. Qed.
Print Assumptions C174_order.

(* But an unknown parameter with two slashes in its value, as a URL with no path has, says whether the stream is on the connection. *)
Theorem C174_slash_refuted : forall u pre k a b c post, Forall (fun f => ~ In 59 f) (pre ++ (k ++ 61 :: a ++ 47 :: b ++ 47 :: c) :: post) ->
  ~ In 47 (k ++ 61 :: a) -> ~ In 47 b -> ~ In 47 c -> unknown (k ++ 61 :: a ++ 47 :: b ++ 47 :: c) ->
  snd (transport_parse u (join 59 pre)) = None -> pre <> [] -> Forall (fun f => ~ two_slashes f) post ->
  t_tcp (fst (transport_parse u (join 59 (pre ++ (k ++ 61 :: a ++ 47 :: b ++ 47 :: c) :: post)))) = beq (to_upper c) (bs "TCP").
Proof. exact slashes_taken. Qed.
Print Assumptions C174_slash_refuted.

Example C174_case :
  transport_parse transport0 (bs "RTP/AVP/TCP;unicast;interleaved=0-1;url=rtsp://camera") =
    (mkTr false false false false (mkPair 0 1) pair0 pair0 pair0 0 0 [] [] [] [], None) /\
  transport_parse transport0 (bs "RTP/AVP/TCP;unicast;interleaved=0-1;setup=active;url=/a") =
    (mkTr true false false false (mkPair 0 1) pair0 pair0 pair0 0 0 [] [] [] [], None) /\
  transport_parse transport0 (bs "interleaved=0-1;RTP/AVP/TCP;unicast") = transport_parse transport0 (bs "RTP/AVP/TCP;unicast;interleaved=0-1") /\
  transport_parse transport0 (bs "multicast;unicast") <> transport_parse transport0 (bs "unicast;multicast") /\
  unknown (bs "url=rtsp://camera") /\ two_slashes (bs "url=rtsp://camera") /\ clash (bs "multicast") (bs "unicast") /\
  ForallOrdPairs (fun f g => ~ clash f g) [bs "RTP/AVP/TCP"; bs "unicast"; bs "interleaved=0-1"].
Proof.
  splits; try (vm_compute; reflexivity).
  - vm_compute. discriminate.
  - vm_compute. intros H. repeat (destruct H as [H|H]; [discriminate H|]). exact H.
  - right. right. left. split; [|left]; vm_compute; reflexivity.
  - assert (N : forall f g, count_occ Z.eq_dec g 47 <> 2%nat -> param_name f <> param_name g -> param_name f <> bs "multicast" -> param_name g <> bs "multicast" -> ~ clash f g)
      by (unfold clash, two_slashes, multi_or_uni; intuition congruence).
    repeat apply FOP_cons; repeat apply Forall_cons; try apply Forall_nil; try apply FOP_nil; apply N; vm_compute; discriminate.
Qed.
