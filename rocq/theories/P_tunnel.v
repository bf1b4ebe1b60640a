(* C159: the tunnel through HTTP is opened only when the server agrees. *)
From Coq Require Import String.
From Verif Require Import Base GoStrings M_conn M_message M_transport M_sdp M_session M_url M_dial S_message S_url S_ends S_tunnel L_base L_strings L_message L_bufio L_lines L_ends L_url L_tunnel P_dial.
From Coq Require Import ZifyBool ZifyNat.

(* C159  whatever status the server answers with, the session is opened: 401 and 404 like 200 *)
Theorem C159_status_refuted : forall sch u who h port path q reach guid code reason fields rest,
  scheme_ok sch -> ruser_is u who -> rhost_ok h -> match port with Some p => rport_ok p | None => True end -> path_ok path -> match q with Some q => query_ok q | None => True end ->
  bytes_ok (url_text sch u h port path q) -> line_text guid -> rport_number port <= 65535 -> reach (rhost_name h) (rport_number port) = true ->
  100 <= code <= 999 -> code <> 200 -> line_text reason -> Forall sfield_ok fields ->
  exists effects ses, dial (url_text sch u h port path q) ProtoHTTP reach guid false (map Some (response_text (bs "HTTP/1.0") code reason fields []) ++ rest) = (effects, rest, Some ses).
Proof.
  intros sch u who h port path q reach guid code reason fields rest S U H P K Q BO LG N R CC _ LR F.
  destruct (C84_tunnel sch u who h port path q reach guid _ code reason fields rest S U H P K Q BO LG N R CC LR F eq_refl) as (get & fs & E & _).
  rewrite E. do 2 eexists. reflexivity.
Qed.
Print Assumptions C159_status_refuted.

(* and a server of any other version is refused although it agrees: HTTP/1.1 200 too, which is what servers of HTTP/1.1 answer requests of
   HTTP/1.0 with (RFC 7230 2.6) *)
Theorem C159_version_refuted : forall uri reach guid version code reason fields rest,
  ~ In 32 version -> ~ In 10 version -> version <> bs "HTTP/1.0" -> 100 <= code <= 999 -> line_text reason ->
  snd (dial uri ProtoHTTP reach guid false (map Some (response_text version code reason fields []) ++ rest)) = None.
Proof.
  intros uri reach guid version code reason fields rest V1 V2 V3 CC LR. unfold dial. destruct (parse uri) as [v|]; [|reflexivity].
  destruct (split_host_port (dial_host v)) as [[host port]|]; [|reflexivity]. cbv zeta. destruct (_ || _); [reflexivity|]. change (ProtoHTTP =? ProtoHTTP) with true. cbv iota.
  fold (sent (response_text version code reason fields [])). rewrite response_sent. unfold receive_http. rewrite first_line_read by assumption.
  assert (E : status_line (bs "HTTP/1.0") (version ++ 32 :: itoa code ++ 32 :: reason ++ [13; 10]) = Err ErrNotSupported).
  { unfold status_line. rewrite cut_app by exact V1. rewrite (proj2 (beq_neq _ _) V3). reflexivity. }
  rewrite E. reflexivity.
Qed.
Print Assumptions C159_version_refuted.

(* a server of HTTP/1.0 that agrees has the session opened, however its lines end, and what follows the head is left for RTSP *)
Theorem C159_agreed_partial : forall sch u who h port path q reach guid reason e fields last rest,
  scheme_ok sch -> ruser_is u who -> rhost_ok h -> match port with Some p => rport_ok p | None => True end -> path_ok path -> match q with Some q => query_ok q | None => True end ->
  rport_number port <= 65535 -> reach (rhost_name h) (rport_number port) = true ->
  line_text reason -> Forall one_line fields -> Forall (fun l => trim_space (fst l) <> [] /\ In 58 (trim_space (fst l))) fields ->
  exists effects ses, dial (url_text sch u h port path q) ProtoHTTP reach guid false
      (map Some (text_of ((bs "HTTP/1.0 200 " ++ reason, e) :: fields ++ [([], last)])) ++ rest) = (effects, rest, Some ses).
Proof.
  intros sch u who h port path q reach guid reason e fields last rest S U H P K Q N R LR F1 F2. destruct (path_text path K) as (_ & _ & _ & d & D & _).
  destruct (dial_text sch u who h port path q d S U H P K Q D) as (v & E & DH & C & B).
  unfold dial. rewrite E, DH, (split_ok h (port_or port) H (port_or_ok port P)). assert (PN : port_number (port_or port) = rport_number port) by (destruct port; reflexivity). rewrite PN. cbv zeta.
  destruct (rport_number port >? 65535) eqn:G; [lia|]. rewrite R. cbn [orb negb]. change (ProtoHTTP =? ProtoHTTP) with true. cbv iota.
  cbn [text_of flat_map]. fold (text_of (fields ++ [([], last)])). unfold ended. cbn [fst snd]. fold (sent ((((bs "HTTP/1.0 200 " ++ reason) ++ end_text e)) ++ text_of (fields ++ [([], last)]))).
  rewrite sent_app, <- app_assoc. unfold receive_http. destruct LR as [L1 L2]. rewrite read_line_ended by (rewrite in_app_iff; intros [I|I]; [cbn in I; lia|contradiction]).
  rewrite status_line_end. replace ((bs "HTTP/1.0 200 " ++ reason) ++ [13; 10]) with (bs "HTTP/1.0" ++ 32 :: itoa 200 ++ 32 :: reason ++ [13; 10]) by (rewrite <- app_assoc; reflexivity).
  rewrite status_line_ok by (try lia; vm_compute; intuition discriminate). rewrite http_lines_text.
  - do 2 eexists. reflexivity.
  - exact F1.
  - exact F2.
  - rewrite app_length. unfold sent. rewrite map_length. enough (length fields <= length (text_of (fields ++ [([], last)])))%nat by lia.
    clear. induction fields as [|f fs IH]; [apply Nat.le_0_l|]. cbn [app text_of flat_map length]. fold (text_of (fs ++ [([], last)])). rewrite app_length. unfold ended. rewrite app_length. destruct (snd f); cbn [end_text length]; lia.
Qed.
Print Assumptions C159_agreed_partial.

(* and none is opened without a whole head of HTTP/1.0: whenever a session is opened, exactly the head has been taken *)
Theorem C159_whole_partial : forall uri reach guid werr s effects rest ses, dial uri ProtoHTTP reach guid werr s = (effects, rest, Some ses) ->
  exists status fields blank, s = map Some (head_text (bs "HTTP/1.0 " ++ status) fields blank) ++ rest /\
    ~ In 10 status /\ Forall (fun l => ~ In 10 l) (fields ++ [blank]) /\ Forall (fun l => In 58 l /\ trim_space l <> []) fields /\ trim_space blank = [].
Proof.
  intros uri reach guid werr s effects rest ses. unfold dial. destruct (parse uri) as [v|]; [|discriminate]. destruct (split_host_port (dial_host v)) as [[host port]|]; [|discriminate]. cbv zeta.
  destruct (_ || _); [discriminate|]. change (ProtoHTTP =? ProtoHTTP) with true. cbv iota. destruct werr; [discriminate|]. destruct (receive_http s) as [s' [t| | |]] eqn:E; try discriminate.
  intros X. assert (s' = rest) by congruence. subst s'. destruct t. destruct (receive_http_inv s rest E) as (line & status & tail & code & _ & R & _). unfold receive_http in E.
  destruct (read_line s) as [s1 [l| | |]] eqn:RL; try discriminate. cbn [snd] in R. injection R as R.
  destruct (status_line (bs "HTTP/1.0") l) as [[st n]| | |]; try discriminate. destruct (http_lines_inv _ _ _ E) as (fields & blank & Es & F1 & F2 & F3).
  destruct (read_line_used s s1 l RL) as [Us _]. destruct (read_line_flat s s1 l RL) as (l0 & El & FL). assert (L : exists st', line = st' ++ [10] /\ l0 = bs "HTTP/1.0 " ++ st').
  { rewrite R in El. destruct (exists_last (l := line)) as (st' & x & Hx).
    { intros ->. apply (app_inj_tail (bs "HTTP/1.0") l0 32 10) in El as [_ El]. discriminate El. }
    subst line. exists st'. assert (Eb : (bs "HTTP/1.0 " ++ st') ++ [x] = l0 ++ [10]) by (rewrite <- El, <- app_assoc; reflexivity). apply app_inj_tail in Eb as [Eb ->]. split; [reflexivity|]. rewrite <- Eb. reflexivity. }
  destruct L as (st' & -> & ->). exists st', fields, blank. splits; try assumption.
  - unfold head_text. cbn [flat_map]. rewrite Us, Es, El. unfold sent. rewrite !map_app, <- !app_assoc. reflexivity.
  - intros I. apply FL. rewrite in_app_iff. right. exact I.
Qed.
Print Assumptions C159_whole_partial.

(* a camera that refuses the tunnel, one that agrees with newlines alone, one of HTTP/1.1, and one that stops in the middle *)
Example C159_case : let try_ := fun text => let '(eff, left_, ses) := dial (bs "rtsp://cam/live") ProtoHTTP (fun _ _ => true) (bs "g") false (map Some (bs text)) in (zlen eff, left_, match ses with Some _ => true | None => false end) in
  let cr := String (Ascii.Ascii true false true true false false false false) (String (Ascii.Ascii false true false true false false false false) EmptyString) in
  let lf := String (Ascii.Ascii false true false true false false false false) EmptyString in
  try_ ("HTTP/1.0 404 Not Found" ++ cr ++ "Server: x" ++ cr ++ cr ++ "R")%string = (2, map Some (bs "R"), true) /\
  try_ ("HTTP/1.0 200 OK" ++ lf ++ "Server: x" ++ lf ++ lf ++ "R")%string = (2, map Some (bs "R"), true) /\
  try_ ("HTTP/1.1 200 OK" ++ cr ++ cr)%string = (2, map Some (bs cr), false) /\
  try_ ("HTTP/1.0 200 OK" ++ cr ++ "Server: x" ++ cr)%string = (2, [], false).
Proof. cbv zeta. splits; vm_compute; reflexivity. Qed.
