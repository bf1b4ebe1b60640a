(* C115: texts that are no URLs; C84: hosts with a zone. *)
From Coq Require Import String.
From Verif Require Import Base GoStrings M_conn M_message M_transport M_sdp M_session M_url M_dial S_message S_url S_badurl L_base L_strings L_message L_url L_badurl P_dial.

(* C115  Full statement: what is not an RTSP URL is refused, without connecting.  These are: *)
(* texts with a control character outside the fragment *)
Theorem C115_control_partial : forall a c b proto reach guid werr s, c < 32 \/ c = 127 -> ~ In 35 a ->
  dial (a ++ c :: b) proto reach guid werr s = ([], s, None).
Proof. intros a c b proto reach guid werr s C N. apply refused, control_refused; assumption. Qed.
Print Assumptions C115_control_partial.

(* a percent sign in the path without two hexadecimal digits, whatever the host *)
Theorem C115_percent_partial : forall sch auth path q proto reach guid werr s, scheme_ok sch -> Forall auth_char auth -> bad_percent path ->
  (path = [] \/ exists t, path = 47 :: t) -> Forall (fun c => 32 <= c /\ c <> 127 /\ c <> 35 /\ c <> 63) path -> match q with Some q => query_ok q | None => True end ->
  dial (located sch auth path q) proto reach guid werr s = ([], s, None).
Proof. exact bad_path. Qed.
Print Assumptions C115_percent_partial.

(* a port that is not a number; a bracket not closed, or followed by something else than a port; a zone with bytes that cannot be in it *)
Theorem C115_host_partial : forall sch u who h path q proto reach guid werr s, scheme_ok sch -> ruser_is u who -> Forall auth_char h -> ~ In 64 h ->
  (path = [] \/ exists t, path = 47 :: t) -> Forall (fun c => 32 <= c /\ c <> 127 /\ c <> 35 /\ c <> 63) path -> match q with Some q => query_ok q | None => True end ->
  (exists n p, h = n ++ bs ":" ++ p /\ (forall t, n <> 91 :: t) /\ ~ In 58 p /\ exists c, In c p /\ ~ (48 <= c <= 57)) \/
  (exists a p, h = bs "[" ++ a ++ bs "]:" ++ p /\ ~ In 93 p /\ exists c, In c p /\ ~ (48 <= c <= 57)) \/
  (exists a, h = bs "[" ++ a /\ ~ In 93 a) \/
  (exists a c t, h = bs "[" ++ a ++ bs "]" ++ c :: t /\ c <> 58 /\ ~ In 93 (c :: t)) \/
  (exists a z x y m n t p, h = bs "[" ++ a ++ bs "%25" ++ z ++ (37 :: x :: y :: t) ++ bs "]" ++ p /\ rhost_ok (V6 a) /\ zone_ok z /\
     hexit x m /\ hexit y n /\ zone_stray (m * 16 + n) /\ ~ In 93 p) ->
  dial (located sch (ruser_text u ++ h) path q) proto reach guid werr s = ([], s, None).
Proof.
  intros sch u who h path q proto reach guid werr s S U H N K C Q D. apply (bad_authority sch u who); try assumption.
  destruct D as [(n & p & -> & A & B & D)|[(a & p & -> & A & D)|[(a & -> & A)|[(a & c & t & -> & A & B)|(a & z & x & y & m & n & t & p & -> & A & B & X & Y & V & W)]]]].
  - apply host_port; assumption.
  - apply host_port6; assumption.
  - apply host_unclosed; assumption.
  - apply host_after; assumption.
  - eapply host_zone_stray; eassumption.
Qed.
Print Assumptions C115_host_partial.

(* But any scheme will do: every host is connected to, at the port for RTSP, in the clear. *)
Theorem C115_scheme_refuted : forall sch h proto (reach : bytes -> Z -> bool) guid werr s, scheme_ok sch -> lowered sch <> bs "rtsp" -> rhost_ok h -> proto <> ProtoHTTP ->
  reach (rhost_name h) 554 = true ->
  dial (sch ++ bs "://" ++ rhost_text h) proto reach guid werr s = ([Connect (rhost_name h) 554], s, Some (dialled proto None (lowered sch ++ bs "://" ++ rhost_text h ++ bs ":554"))).
Proof.
  intros sch h proto reach guid werr s S _ H NH R. pose proof (C84_open_partial sch NoUser None h None [] None proto reach guid werr s S I H I (or_introl eq_refl) I ltac:(cbn; lia) NH) as E.
  unfold url_text in E. cbn [ruser_text rport_text query_text app] in E. rewrite !app_nil_r in E. rewrite E. cbn [rport_number]. rewrite R. reflexivity.
Qed.
Print Assumptions C115_scheme_refuted.

Example C115_case : forall s,
  let d x := dial (bs x) ProtoTCP (fun _ _ => true) [] false s in
  d "rtsp://h:5x4/"%string = ([], s, None) /\ d "rtsp://[::1/"%string = ([], s, None) /\ d "rtsp://[::1]9/"%string = ([], s, None) /\
  d "rtsp://h/a%2"%string = ([], s, None) /\ d "rtsp://[fe80::1%25a%0a]/"%string = ([], s, None) /\
  d "rtsps://cam/live"%string = ([Connect (bs "cam") 554], s, Some (dialled ProtoTCP None (bs "rtsps://cam:554/live"))) /\
  d "mailto:x"%string = ([Connect [] 554], s, Some (dialled ProtoTCP None (bs "mailto:x"))).
Proof. intros s. cbv zeta. splits; vm_compute; reflexivity. Qed.

(* C84  an IPv6 address may have a zone; it is encoded again in the requests *)
Theorem C84_zone : forall sch u who a z port path q proto reach guid werr s,
  scheme_ok sch -> ruser_is u who -> rhost_ok (V6 a) -> zone_ok z -> match port with Some p => rport_ok p | None => True end -> path_ok path -> match q with Some q => query_ok q | None => True end ->
  rport_number port <= 65535 -> proto <> ProtoHTTP ->
  dial (located sch (ruser_text u ++ bs "[" ++ a ++ bs "%25" ++ z ++ bs "]" ++ rport_text port) path q) proto reach guid werr s =
  if reach (a ++ bs "%" ++ z) (rport_number port)
  then ([Connect (a ++ bs "%" ++ z) (rport_number port)], s,
        Some (dialled proto who (lowered sch ++ bs "://[" ++ a ++ bs "%25" ++ z ++ bs "]:" ++ (match port with Some p => p | None => bs "554" end) ++ path ++ query_text q)))
  else ([], s, None).
Proof. exact dial_zone. Qed.
Print Assumptions C84_zone.

Example C84_zone_case : forall s, dial (bs "rtsp://joe@[fe80::1%25en0]/s") ProtoTCP (fun _ _ => true) [] false s =
  ([Connect (bs "fe80::1%en0") 554], s, Some (dialled ProtoTCP (Some (bs "joe", [])) (bs "rtsp://[fe80::1%25en0]:554/s"))).
Proof. intros s. vm_compute. reflexivity. Qed.
