(* C84, C85, C86: URLs with an empty port, without a host, with blanks in the query; encoded slashes. *)
From Coq Require Import String.
From Verif Require Import Base GoStrings M_conn M_message M_transport M_sdp M_session M_url M_dial S_url S_badurl L_base L_strings L_url L_playlist L_odd P_dial.
From Coq Require Import ZifyBool.

(* C84  an empty port (RFC 3986 3.2.3: as if there were none) is port 0, whatever the rest of the URL *)
Theorem C84_empty_port_refuted : forall sch u who h path q proto (reach : bytes -> Z -> bool) guid werr s,
  scheme_ok sch -> ruser_is u who -> rhost_ok h -> path_ok path -> match q with Some q => query_ok q | None => True end -> proto <> ProtoHTTP ->
  dial (sch ++ bs "://" ++ ruser_text u ++ rhost_text h ++ bs ":" ++ path ++ query_text q) proto reach guid werr s =
  if reach (rhost_name h) 0
  then ([Connect (rhost_name h) 0], s, Some (dialled proto who (lowered sch ++ bs "://" ++ rhost_text h ++ bs ":" ++ path ++ query_text q)))
  else ([], s, None).
Proof. intros sch u who h path q proto reach guid werr s. apply dial_empty_port. Qed.
Print Assumptions C84_empty_port_refuted.
Example C84_empty_port_case : forall s, dial (bs "rtsp://joe@[::1]:/s") ProtoTCP (fun _ _ => true) [] false s =
  ([Connect (bs "::1") 0], s, Some (dialled ProtoTCP (Some (bs "joe", [])) (bs "rtsp://[::1]:/s"))).
Proof. intros s. vm_compute. reflexivity. Qed.

(* a text without a scheme is not refused: this machine is connected to, and what should be the host is asked for as a path *)
Theorem C84_no_host_refuted : forall path v q proto (reach : bytes -> Z -> bool) guid werr s,
  pct path_char path v -> path <> [] -> has_prefix (bs "/") path = false -> ~ colon_first path ->
  match q with Some q => query_ok q | None => True end -> proto <> ProtoHTTP -> reach [] 554 = true ->
  exists p, pct path_char p v /\ dial (path ++ query_text q) proto reach guid werr s =
    ([Connect [] 554], s, Some (dialled proto None (bs "//:554" ++ (if has_prefix (bs "/") p then [] else bs "/") ++ p ++ query_text q))).
Proof. exact dial_relative. Qed.
Print Assumptions C84_no_host_refuted.
(* nor is host:port/path, the host of which is taken for a scheme, or any other where a scheme is not followed by a slash *)
Theorem C84_no_slash_refuted : forall sch rest q proto (reach : bytes -> Z -> bool) guid werr s, scheme_ok sch -> rest <> [] -> has_prefix (bs "/") rest = false ->
  Forall (fun c => 32 <= c /\ c <> 127 /\ c <> 35 /\ c <> 63) rest -> match q with Some q => query_ok q | None => True end -> proto <> ProtoHTTP ->
  dial (sch ++ bs ":" ++ rest ++ query_text q) proto reach guid werr s =
  if reach [] 554 then ([Connect [] 554], s, Some (dialled proto None (lowered sch ++ bs ":" ++ rest ++ query_text q))) else ([], s, None).
Proof. exact dial_opaque. Qed.
Print Assumptions C84_no_slash_refuted.
Example C84_no_host_case : forall s,
  dial (bs "cam.local/s") ProtoTCP (fun _ _ => true) [] false s = ([Connect [] 554], s, Some (dialled ProtoTCP None (bs "//:554/cam.local/s"))) /\
  dial (bs "cam.local:554/s") ProtoTCP (fun _ _ => true) [] false s = ([Connect [] 554], s, Some (dialled ProtoTCP None (bs "cam.local:554/s"))).
Proof. intros s. split; vm_compute; reflexivity. Qed.

(* C85  credentials are in the requests whenever the slashes after the scheme are missing *)
Theorem C85_opaque_refuted : forall sch u who more q proto (reach : bytes -> Z -> bool) guid werr s, scheme_ok sch -> ruser_is u (Some who) ->
  Forall (fun c => 32 <= c /\ c <> 127 /\ c <> 35 /\ c <> 63) more -> match q with Some q => query_ok q | None => True end -> proto <> ProtoHTTP -> reach [] 554 = true ->
  dial (sch ++ bs ":" ++ (ruser_text u ++ more) ++ query_text q) proto reach guid werr s =
  ([Connect [] 554], s, Some (dialled proto None (lowered sch ++ bs ":" ++ (ruser_text u ++ more) ++ query_text q))).
Proof.
  intros sch u who more q proto reach guid werr s S U M Q NH R. pose proof (ruser_chars u (Some who) U) as C.
  assert (T : exists c t, ruser_text u = c :: t /\ c <> 47).
  { destruct u as [|n|n p]; destruct who as [a b]; [destruct U| |]; cbn [ruser_text] in *; (destruct n as [|c n]; [eexists; eexists; split; [reflexivity|intros X; vm_compute in X; discriminate X]|]; eexists; eexists; split; [reflexivity|]);
    cbn [app forallb] in C; apply andb_prop in C as (C & _); intros ->; discriminate C. }
  destruct T as (c & t & ET & NC). rewrite dial_opaque; [rewrite R; reflexivity|exact S|rewrite ET; discriminate| | |exact Q|exact NH].
  - rewrite ET. change (bs "/") with [47]. unfold has_prefix. cbn [length firstn app beq]. destruct (c =? 47) eqn:X; [lia|reflexivity].
  - apply Forall_app. split; [|exact M]. apply Forall_forall. intros x I. rewrite forallb_forall in C. specialize (C x I). apply orb_prop in C as [C|C]; [|lia].
    apply ptext_ktext, ktext_facts in C. lia.
Qed.
Print Assumptions C85_opaque_refuted.
Example C85_opaque_case : forall s, dial (bs "rtsp:joe:secret@h/s") ProtoTCP (fun _ _ => true) [] false s = ([Connect [] 554], s, Some (dialled ProtoTCP None (bs "rtsp:joe:secret@h/s"))).
Proof. intros s. vm_compute. reflexivity. Qed.
(* and there is a blank in them just if there is one in the query, so that the request line has a fourth word *)
Theorem C85_blank_refuted : forall sch u who h port path q proto reach guid werr s effects s' ses,
  scheme_ok sch -> ruser_is u who -> rhost_ok h -> match port with Some p => rport_ok p | None => True end -> path_ok path -> match q with Some q => query_ok q | None => True end ->
  proto <> ProtoHTTP -> dial (url_text sch u h port path q) proto reach guid werr s = (effects, s', Some ses) ->
  (In 32 (s_uri ses) <-> exists t, q = Some t /\ In 32 t).
Proof.
  intros sch u who h port path q proto reach guid werr s effects s' ses S U H P K Q NH D.
  destruct (Z_le_gt_dec (rport_number port) 65535) as [L|G]; [|rewrite (C84_port _ _ _ _ _ _ _ _ _ _ _ _ S U H P K Q G) in D; discriminate D].
  rewrite (C84_open_partial _ _ _ _ _ _ _ _ _ _ _ _ S U H P K Q L NH) in D. destruct (reach (rhost_name h) (rport_number port)); [|discriminate D]. match type of D with (_, _, Some ?v) = _ => assert (E : ses = v) by congruence end. clear D. subst ses. cbn [s_uri dialled].
  assert (N1 : ~ In 32 (lowered sch)).
  { intros I. apply in_map_iff in I as (c & E & I). destruct (scheme_chars sch S) as (F & _). rewrite forallb_forall in F. specialize (F c I). destruct ((65 <=? c) && (c <=? 90)); lia. }
  assert (N2 : ~ In 32 (rhost_text h)) by (intros I; pose proof (rhost_chars h H) as F; rewrite forallb_forall in F; apply F, host_facts in I; lia).
  assert (N3 : ~ In 32 (match port with Some p => p | None => bs "554" end)).
  { intros I. pose proof (port_digits _ (port_or_ok port P)) as F. rewrite forallb_forall in F. specialize (F 32 I). discriminate F. }
  assert (N4 : ~ In 32 path) by (intros I; destruct (path_text path K) as (F & _); rewrite forallb_forall in F; apply F, ktext_facts in I; lia).
  assert (N5 : ~ In 32 (bs "://")) by (cbn; lia). assert (N6 : ~ In 32 (bs ":")) by (cbn; lia).
  rewrite !in_app_iff. split.
  - intros I. repeat (match type of I with _ \/ _ => destruct I as [I|I]; [contradiction|] end). destruct q as [t|]; [|destruct I]. exists t. split; [reflexivity|]. destruct I as [I|I]; [discriminate I|exact I].
  - intros (t & -> & I). repeat right. exact I.
Qed.
Print Assumptions C85_blank_refuted.
Example C85_blank_case : forall s, dial (bs "rtsp://h/s?a b") ProtoTCP (fun _ _ => true) [] false s = ([Connect (bs "h") 554], s, Some (dialled ProtoTCP None (bs "rtsp://h:554/s?a b"))).
Proof. intros s. vm_compute. reflexivity. Qed.

(* C86  a slash that is part of a name becomes one between names: how slashes are written in the base makes no difference *)
Theorem C86_slash_refuted : forall sch u who h port path path' q segs dir f,
  scheme_ok sch -> ruser_is u who -> rhost_ok h -> match port with Some p => rport_ok p | None => True end -> path_ok path -> path_ok path' -> match q with Some q => query_ok q | None => True end ->
  Forall seg_ok segs -> pct path_char path (slashed segs) -> pct path_char path' (slashed segs) -> name_ok f -> (dir = [] \/ exists d, dir = d ++ [47]) ->
  playlist_uri (url_text sch u h port path q) (dir ++ f) = playlist_uri (url_text sch u h port path' q) (dir ++ f).
Proof. exact playlist_same. Qed.
Print Assumptions C86_slash_refuted.
Example C86_slash_case : playlist_uri (bs "http://h/a%2Fb") (bs "/tmp/x.ts") = Some (bs "http://h/a/b/x.ts") /\
  pct path_char (bs "/a%2Fb") (slashed [bs "a"; bs "b"]) /\ pct path_char (bs "/a/b") (slashed [bs "a"; bs "b"]).
Proof.
  splits; [vm_compute; reflexivity| |].
  - apply pct_lit; [right; right; cbn; lia|]. apply pct_lit; [left; unfold unreserved; cbn; lia|]. apply (pct_hex _ 50 70 2 15); [left; lia|right; left; lia|]. apply pct_lit; [left; unfold unreserved; cbn; lia|constructor].
  - apply pct_lit; [right; right; cbn; lia|]. apply pct_lit; [left; unfold unreserved; cbn; lia|]. apply pct_lit; [right; right; cbn; lia|]. apply pct_lit; [left; unfold unreserved; cbn; lia|constructor].
Qed.
