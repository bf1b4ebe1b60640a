(* C115: encoded bytes in hosts that are refused, and the text "*"; C84: encoded host names. *)
From Coq Require Import String.
From Verif Require Import Base GoStrings M_conn M_message M_transport M_sdp M_session M_url M_dial S_message S_url S_badurl L_base L_strings L_message L_url L_badurl L_hostesc.

(* C115  Full statement: what is not an RTSP URL is refused, without connecting.  These are hosts with an encoded byte of ASCII other than the percent sign, *)
(* although RFC 3986 3.2.2 allows those. *)
Theorem C115_encoded_partial : forall sch u who a x y m n t path q proto reach guid werr s, scheme_ok sch -> ruser_is u who ->
  Forall auth_char (a ++ 37 :: x :: y :: t) -> ~ In 64 (a ++ 37 :: x :: y :: t) -> ~ In 37 a -> (forall r, a <> 91 :: r) ->
  hexit x m -> hexit y n -> m * 16 + n < 128 -> m * 16 + n <> 37 ->
  (path = [] \/ exists t, path = 47 :: t) -> Forall (fun c => 32 <= c /\ c <> 127 /\ c <> 35 /\ c <> 63) path -> match q with Some q => query_ok q | None => True end ->
  dial (located sch (ruser_text u ++ a ++ 37 :: x :: y :: t) path q) proto reach guid werr s = ([], s, None).
Proof.
  intros sch u who a x y m n t path q proto reach guid werr s S U A N P B X Y L E K C Q. apply (bad_authority sch u who); try assumption. eapply host_low; eassumption.
Qed.
Print Assumptions C115_encoded_partial.

(* and hosts with a bracket other than around an address *)
Theorem C115_bracket_partial : forall sch u who h path q proto reach guid werr s, scheme_ok sch -> ruser_is u who -> Forall auth_char h -> ~ In 64 h ->
  (forall t, h <> 91 :: t) -> In 91 h \/ In 93 h ->
  (path = [] \/ exists t, path = 47 :: t) -> Forall (fun c => 32 <= c /\ c <> 127 /\ c <> 35 /\ c <> 63) path -> match q with Some q => query_ok q | None => True end ->
  dial (located sch (ruser_text u ++ h) path q) proto reach guid werr s = ([], s, None).
Proof. exact dial_bracket. Qed.
Print Assumptions C115_bracket_partial.

(* A single asterisk is no URL, but is not refused: it is connected to at no host, with a URI without scheme. *)
Theorem C115_asterisk_refuted : forall proto (reach : bytes -> Z -> bool) guid werr s, proto <> ProtoHTTP -> reach [] 554 = true ->
  dial (bs "*") proto reach guid werr s = ([Connect [] 554], s, Some (dialled proto None (bs "//:554/*"))).
Proof.
  intros proto reach guid werr s NH R. unfold dial. change (parse (bs "*")) with (Some (mkUrl [] [] None [] (bs "*") [] false false [] [] [])). cbv beta iota.
  match goal with |- context [split_host_port ?h] => replace (split_host_port h) with (Some ([] : bytes, bs "554")) by (vm_compute; reflexivity) end. cbv beta iota zeta.
  change (port_number (bs "554")) with 554. rewrite R. change ((554 >? 65535) || negb true) with false. cbv iota. destruct (proto =? ProtoHTTP) eqn:E; [apply Z.eqb_eq in E; contradiction|].
  match goal with |- context [base_uri ?r] => replace (base_uri r) with (bs "//:554/*") by (vm_compute; reflexivity) end. reflexivity.
Qed.
Print Assumptions C115_asterisk_refuted.

Example C115_encoded_case : forall s,
  let d x := dial (bs x) ProtoTCP (fun _ _ => true) [] false s in
  d "rtsp://c%61m/live"%string = ([], s, None) /\ d "rtsp://joe@cam%7F:8554/"%string = ([], s, None) /\
  d "rtsp://cam[1:8554/"%string = ([], s, None) /\ d "rtsp://cam]:8554/"%string = ([], s, None) /\
  d "*"%string = ([Connect [] 554], s, Some (dialled ProtoTCP None (bs "//:554/*"))).
Proof. intros s. cbv zeta. splits; vm_compute; reflexivity. Qed.

(* C84  a host name may have encoded bytes outside ASCII and encoded percent signs; the host with the decoded name is connected to, and the requests have it encoded, in capitals *)
Theorem C84_encoded : forall sch u who t v w port path q proto reach guid werr s,
  scheme_ok sch -> ruser_is u who -> host_name t v w -> t <> [] -> match port with Some p => rport_ok p | None => True end -> path_ok path -> match q with Some q => query_ok q | None => True end ->
  rport_number port <= 65535 -> proto <> ProtoHTTP ->
  dial (located sch (ruser_text u ++ t ++ rport_text port) path q) proto reach guid werr s =
  if reach v (rport_number port)
  then ([Connect v (rport_number port)], s,
        Some (dialled proto who (lowered sch ++ bs "://" ++ w ++ bs ":" ++ (match port with Some p => p | None => bs "554" end) ++ path ++ query_text q)))
  else ([], s, None).
Proof. exact dial_name. Qed.
Print Assumptions C84_encoded.

Example C84_encoded_case : forall s, dial (bs "rtsp://joe@caf%c3%A9%25%80.example/s") ProtoTCP (fun _ _ => true) [] false s =
  ([Connect (bs "caf" ++ [195; 169; 37; 128] ++ bs ".example") 554], s, Some (dialled ProtoTCP (Some (bs "joe", [])) (bs "rtsp://caf%C3%A9%25%80.example:554/s"))).
Proof. intros s. vm_compute. reflexivity. Qed.
