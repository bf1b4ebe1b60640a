(* C84, C85: what a URL stands for. *)
From Coq Require Import String.
From Verif Require Import Base GoStrings M_conn M_message M_transport M_sdp M_session M_url M_dial S_message S_url L_base L_strings L_message L_url.
From Coq Require Import ZifyBool.

(* C84  the host and port of the URL are connected to, 554 if it has no port; credentials are decoded; requests name the rest *)
Theorem C84_open_partial : forall sch u who h port path q proto reach guid werr s,
  scheme_ok sch -> ruser_is u who -> rhost_ok h -> match port with Some p => rport_ok p | None => True end -> path_ok path -> match q with Some q => query_ok q | None => True end ->
  rport_number port <= 65535 -> proto <> ProtoHTTP ->
  dial (url_text sch u h port path q) proto reach guid werr s =
  if reach (rhost_name h) (rport_number port)
  then ([Connect (rhost_name h) (rport_number port)], s,
        Some (dialled proto who (lowered sch ++ bs "://" ++ rhost_text h ++ bs ":" ++ (match port with Some p => p | None => bs "554" end) ++ path ++ query_text q)))
  else ([], s, None).
Proof.
  intros sch u who h port path q proto reach guid werr s S U H P K Q N NH. destruct (path_text path K) as (_ & _ & _ & d & D & _). destruct (dial_text sch u who h port path q d S U H P K Q D) as (v & E & DH & C & B).
  unfold dial. rewrite E, DH, (split_ok h (port_or port) H (port_or_ok port P)), C, B. assert (PN : port_number (port_or port) = rport_number port) by (destruct port; reflexivity). rewrite PN. cbv zeta.
  destruct (proto =? ProtoHTTP) eqn:PE; [lia|]. destruct (rport_number port >? 65535) eqn:G; [lia|]. cbn [orb]. destruct (reach (rhost_name h) (rport_number port)); reflexivity.
Qed.
Print Assumptions C84_open_partial.

(* a port number that is none leads nowhere *)
Theorem C84_port : forall sch u who h port path q proto reach guid werr s,
  scheme_ok sch -> ruser_is u who -> rhost_ok h -> match port with Some p => rport_ok p | None => True end -> path_ok path -> match q with Some q => query_ok q | None => True end ->
  rport_number port > 65535 -> dial (url_text sch u h port path q) proto reach guid werr s = ([], s, None).
Proof.
  intros sch u who h port path q proto reach guid werr s S U H P K Q N. destruct (path_text path K) as (_ & _ & _ & d & D & _). destruct (dial_text sch u who h port path q d S U H P K Q D) as (v & E & DH & C & B).
  unfold dial. rewrite E, DH, (split_ok h (port_or port) H (port_or_ok port P)). assert (PN : port_number (port_or port) = rport_number port) by (destruct port; reflexivity). rewrite PN. cbv zeta.
  destruct (rport_number port >? 65535) eqn:G; [reflexivity|lia].
Qed.
Print Assumptions C84_port.

(* over HTTP the tunnel is asked for first *)
Theorem C84_tunnel : forall sch u who h port path q reach guid s code reason fields rest,
  scheme_ok sch -> ruser_is u who -> rhost_ok h -> match port with Some p => rport_ok p | None => True end -> path_ok path -> match q with Some q => query_ok q | None => True end ->
  bytes_ok (url_text sch u h port path q) -> line_text guid -> rport_number port <= 65535 -> reach (rhost_name h) (rport_number port) = true ->
  100 <= code <= 999 -> line_text reason -> Forall sfield_ok fields -> s = map Some (response_text (bs "HTTP/1.0") code reason fields []) ++ rest ->
  exists get fs, dial (url_text sch u h port path q) ProtoHTTP reach guid false s =
    ([Connect (rhost_name h) (rport_number port); Wrote get], rest,
     Some (dialled ProtoHTTP who (lowered sch ++ bs "://" ++ rhost_text h ++ bs ":" ++ (match port with Some p => p | None => bs "554" end) ++ path ++ query_text q))) /\
    read_message get = Some (bs "GET " ++ lowered sch ++ bs "://" ++ rhost_text h ++ bs ":" ++ (match port with Some p => p | None => bs "554" end) ++ path ++ query_text q ++ bs " HTTP/1.0", fs, []) /\
    In (bs "X-SessionCookie", guid) fs.
Proof.
  intros sch u who h port path q reach guid s code reason fields rest S U H P K Q BO LG N R CC LR F ->. destruct (path_text path K) as (_ & _ & _ & d & D & _). destruct (dial_text sch u who h port path q d S U H P K Q D) as (v & E & DH & C & B).
  assert (LB : line_text (base_uri v)).
  { pose proof (base_calm _ v BO E) as CB. rewrite forallb_forall in CB. split; intros I; apply CB in I; discriminate I. }
  unfold dial. rewrite E, DH, (split_ok h (port_or port) H (port_or_ok port P)), C. assert (PN : port_number (port_or port) = rport_number port) by (destruct port; reflexivity). rewrite PN. cbv zeta.
  destruct (rport_number port >? 65535) eqn:G; [lia|]. rewrite R. cbn [orb negb]. change (ProtoHTTP =? ProtoHTTP) with true. cbv iota. rewrite receive_http_ok by assumption.
  do 2 eexists. split; [rewrite B; reflexivity|]. rewrite B in LB. split.
  - rewrite connect_http_read; [|split; intros I; cbn in I; lia|exact LB|exact LG]. change (match port with Some p => p | None => bs "554" end) with (port_or port). rewrite <- !app_assoc. reflexivity.
  - left. reflexivity.
Qed.
Print Assumptions C84_tunnel.

Example C84_case : forall s,
  dial (bs "RTSP://joe:p%40ss%3a@[fe80::1]:8554/live/a%2Fb?x=1") ProtoTCP (fun _ _ => true) [] false s =
  ([Connect (bs "fe80::1") 8554], s, Some (dialled ProtoTCP (Some (bs "joe", bs "p@ss:")) (bs "rtsp://[fe80::1]:8554/live/a%2Fb?x=1"))) /\
  url_text (bs "RTSP") (UserPass (bs "joe") (bs "p%40ss%3a")) (V6 (bs "fe80::1")) (Some (bs "8554")) (bs "/live/a%2Fb") (Some (bs "x=1")) = bs "RTSP://joe:p%40ss%3a@[fe80::1]:8554/live/a%2Fb?x=1" /\
  dial (bs "rtsp://cam.local") ProtoTCP (fun _ _ => true) [] false s = ([Connect (bs "cam.local") 554], s, Some (dialled ProtoTCP None (bs "rtsp://cam.local:554"))).
Proof. intros s. splits; vm_compute; reflexivity. Qed.

(* C85  no URL puts a control character into the requests *)
Theorem C85_control : forall uri proto reach guid werr s effects s' ses, bytes_ok uri ->
  dial uri proto reach guid werr s = (effects, s', Some ses) -> Forall (fun c => 32 <= c /\ c <> 127) (s_uri ses).
Proof.
  intros uri proto reach guid werr s effects s' ses B. unfold dial. destruct (parse uri) as [v|] eqn:P; [|discriminate]. pose proof (base_calm uri v B P) as C.
  assert (G : Forall (fun c => 32 <= c /\ c <> 127) (s_uri (dialled proto (credentials v) (base_uri v)))).
  { cbn [dialled s_uri]. apply Forall_forall. intros c I. rewrite forallb_forall in C. apply C in I. unfold calm in I. lia. }
  destruct (split_host_port (dial_host v)) as [[ho po]|]; [|discriminate]. cbv zeta. destruct ((port_number po >? 65535) || negb (reach ho (port_number po))); [discriminate|]. destruct (proto =? ProtoHTTP).
  - destruct werr; [discriminate|]. destruct (receive_http s) as [s2 [x|e| |]]; try discriminate. intros E. injection E as _ _ <-. exact G.
  - intros E. injection E as _ _ <-. exact G.
Qed.
Print Assumptions C85_control.

(* nor do credentials before a host get there *)
Theorem C85_credentials_partial : forall sch u1 u2 who1 who2 h port path q proto reach guid werr s effects s' ses,
  scheme_ok sch -> ruser_is u1 who1 -> ruser_is u2 who2 -> rhost_ok h -> match port with Some p => rport_ok p | None => True end -> path_ok path -> match q with Some q => query_ok q | None => True end ->
  proto <> ProtoHTTP -> dial (url_text sch u1 h port path q) proto reach guid werr s = (effects, s', Some ses) ->
  exists ses2, dial (url_text sch u2 h port path q) proto reach guid werr s = (effects, s', Some ses2) /\ s_uri ses2 = s_uri ses.
Proof.
  intros sch u1 u2 who1 who2 h port path q proto reach guid werr s effects s' ses S U1 U2 H P K Q NH. destruct (Z_le_gt_dec (rport_number port) 65535) as [N|N].
  - rewrite (C84_open_partial sch u1 who1 h port path q proto reach guid werr s S U1 H P K Q N NH), (C84_open_partial sch u2 who2 h port path q proto reach guid werr s S U2 H P K Q N NH).
    destruct (reach (rhost_name h) (rport_number port)); [|discriminate]. intros E. injection E as <- <- <-. eexists. split; reflexivity.
  - rewrite (C84_port sch u1 who1 h port path q proto reach guid werr s S U1 H P K Q N). discriminate.
Qed.
Print Assumptions C85_credentials_partial.

Example C85_case : forall s, exists v, dial (bs "rtsp://joe@h/a b%0a#c" ++ [13; 10]) ProtoTCP (fun _ _ => true) [] false s = ([Connect (bs "h") 554], s, Some v) /\ s_uri v = bs "rtsp://h:554/a%20b%0A#c%0D%0A".
Proof. intros s. eexists. split; vm_compute; reflexivity. Qed.

(* C110  a fragment is for the client alone (RFC 3986 3.5): false for every URL that has one, the requests name it *)
Theorem C110_fragment_refuted : forall sch u who h port path q f v proto reach guid werr s,
  scheme_ok sch -> ruser_is u who -> rhost_ok h -> match port with Some p => rport_ok p | None => True end -> path_ok path -> match q with Some q => query_ok q | None => True end ->
  pct fragment_char f v -> f <> [] -> rport_number port <= 65535 -> proto <> ProtoHTTP ->
  dial (url_text sch u h port path q ++ bs "#" ++ f) proto reach guid werr s =
  if reach (rhost_name h) (rport_number port)
  then ([Connect (rhost_name h) (rport_number port)], s,
        Some (dialled proto who ((lowered sch ++ bs "://" ++ rhost_text h ++ bs ":" ++ (match port with Some p => p | None => bs "554" end) ++ path ++ query_text q) ++ bs "#" ++ f)))
  else ([], s, None).
Proof.
  intros sch u who h port path q f v proto reach guid werr s S U H P K Q F NF N NH. destruct (path_text path K) as (_ & _ & _ & d & D & _).
  destruct (dial_fragment sch u who h port path q d f v S U H P K Q D F NF) as (w & E & DH & C & B).
  unfold dial. rewrite E, DH, (split_ok h (port_or port) H (port_or_ok port P)), C, B. assert (PN : port_number (port_or port) = rport_number port) by (destruct port; reflexivity). rewrite PN. cbv zeta.
  destruct (proto =? ProtoHTTP) eqn:PE; [lia|]. destruct (rport_number port >? 65535) eqn:G; [lia|]. cbn [orb]. destruct (reach (rhost_name h) (rport_number port)); reflexivity.
Qed.
Print Assumptions C110_fragment_refuted.

(* an empty one is dropped, with its number sign *)
Theorem C110_empty_partial : forall sch u who h port path q proto reach guid werr s,
  scheme_ok sch -> ruser_is u who -> rhost_ok h -> match port with Some p => rport_ok p | None => True end -> path_ok path -> match q with Some q => query_ok q | None => True end ->
  dial (url_text sch u h port path q ++ bs "#") proto reach guid werr s = dial (url_text sch u h port path q) proto reach guid werr s.
Proof.
  intros sch u who h port path q proto reach guid werr s S U H P K Q. unfold dial.
  assert (E : parse (url_text sch u h port path q ++ bs "#") = parse (url_text sch u h port path q)) by (apply (parse_fragment _ []); eapply url_text_35; eassumption).
  rewrite E. reflexivity.
Qed.
Print Assumptions C110_empty_partial.

Example C110_case : forall s,
  pct fragment_char (bs "t=10,20/a?b'%2f") (bs "t=10,20/a?b'/") /\
  dial (bs "rtsp://h/s?x#t=10,20/a?b'%2f") ProtoTCP (fun _ _ => true) [] false s = ([Connect (bs "h") 554], s, Some (dialled ProtoTCP None (bs "rtsp://h:554/s?x#t=10,20/a?b'%2f"))).
Proof.
  intros s. split; [|vm_compute; reflexivity].
  assert (L : forall c t w, fragment_char c -> pct fragment_char t w -> pct fragment_char (c :: t) (c :: w)) by (intros; apply pct_lit; assumption).
  cbn [bs map list_ascii_of_string].
  repeat (apply L; [unfold fragment_char, path_char, unreserved, sub_delim; cbn; lia|]).
  apply (pct_hex fragment_char 50 102 2 15 [] []); [left; lia|right; right; lia|apply pct_nil].
Qed.
