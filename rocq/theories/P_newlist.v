(* Property C157: a playlist that was made can be used. *)
From Coq Require Import String.
From Verif Require Import Base GoStrings M_hls M_url M_dial M_newlist S_hls S_url L_base L_hls L_badurl P_playlist P_hls.
From Coq Require Import ZifyBool.

(* Full statement: NewPlaylist fails with an error unless the file can be read and there is room for segments, and the playlist it makes otherwise
   can be used.  With room, a base that is a URL and a file name, it makes one that takes every history of segments and shows them under the
   file's own name (until the ring has come round twice, C39).  Missing: the file, and calls without room. *)
Theorem C157_made_partial : forall readable sch u who h port path q segs dir f nseg size fmt hist,
  scheme_ok sch -> ruser_is u who -> rhost_ok h -> match port with Some p => rport_ok p | None => True end -> path_ok path -> match q with Some q => query_ok q | None => True end ->
  Forall seg_ok segs -> pct path_char path (slashed segs) -> name_ok f -> (dir = [] \/ exists d, dir = d ++ [47]) ->
  0 < nseg -> nseg * 24 <= 2 ^ 48 -> file_ok hist -> (1 <= length hist < 2 * Z.to_nat nseg)%nat ->
  exists pl pl' u' p,
    create readable (url_text sch u h port path q) (dir ++ f) nseg size = Created pl (dir ++ f) size /\ ruser_is u' who /\ pct path_char p (slashed (resolved segs ++ [f])) /\
    render fmt pl = Ok (playlist_text fmt (url_text (lowered sch) u' h port p q) []) /\
    add_all pl hist = Ok pl' /\
    render fmt pl' = Ok (playlist_text fmt (url_text (lowered sch) u' h port p q) (map (entry hist) (shown (length hist) (Z.to_nat nseg)))).
Proof.
  intros readable sch u who h port path q segs dir f nseg size fmt hist S W H P K Q F PC N D R B FO L.
  destruct (C86_uri_partial sch u who h port path q segs dir f S W H P K Q F PC N D) as (u' & p & E & W' & PC').
  destruct (C39_listing_partial (Z.to_nat nseg) (url_text (lowered sch) u' h port p q) hist fmt ltac:(lia) FO L) as (pl' & A & T).
  exists (new_playlist (url_text (lowered sch) u' h port p q) (Z.to_nat nseg)), pl', u', p. unfold create. rewrite E.
  replace ((nseg <? 0) || (2 ^ 48 <? nseg * 24)) with false by lia. repeat (split; [first [reflexivity|assumption]|]). exact T.
Qed.
Print Assumptions C157_made_partial.

(* An error is returned exactly when the base is no URL for net/url, for example when there is a control character before the fragment. *)
Theorem C157_error : forall readable uri name nseg size, create readable uri name nseg size = Rejected <-> parse uri = None.
Proof.
  intros readable uri name nseg size. unfold create, playlist_uri. destruct (parse uri); [|split; reflexivity].
  destruct ((nseg <? 0) || _); split; discriminate.
Qed.
Print Assumptions C157_error.
Theorem C157_control : forall readable a c b name nseg size, c < 32 \/ c = 127 -> ~ In 35 a -> create readable (a ++ c :: b) name nseg size = Rejected.
Proof. intros readable a c b name nseg size C N. apply C157_error, control_refused; assumption. Qed.
Print Assumptions C157_control.

(* The comment says the file is verified to exist and to be readable.  Whether it is makes no difference to any call. *)
Theorem C157_file_refuted : forall readable readable' uri name nseg size, create readable uri name nseg size = create readable' uri name nseg size.
Proof. reflexivity. Qed.
Print Assumptions C157_file_refuted.

(* No room: whatever base is accepted, the playlist is made and every addition to it crashes; with fewer than no segments NewPlaylist does. *)
Theorem C157_room_refuted : forall readable uri name nseg size, parse uri <> None -> nseg <= 0 ->
  (nseg = 0 /\ exists pl, create readable uri name nseg size = Created pl name size /\ forall d l, add_segment pl d l = Panic) \/
  (nseg < 0 /\ create readable uri name nseg size = Crashed).
Proof.
  intros readable uri name nseg size U L. unfold create. destruct (playlist_uri uri name) as [t|] eqn:E.
  2: { unfold playlist_uri in E. destruct (parse uri); [discriminate E|contradiction]. }
  destruct (Z.eq_dec nseg 0) as [->|NZ]; [left|right].
  - split; [reflexivity|]. exists (new_playlist t 0). split; [reflexivity|]. intros d l. apply C40_no_segments.
  - split; [lia|]. replace (nseg <? 0) with true by lia. reflexivity.
Qed.
Print Assumptions C157_room_refuted.

Example C157_case :
  let files := fun n => beq n (bs "/tmp/cam 1.ts") in
  let uri r := match r with Created pl _ _ => pl_uri pl | _ => [] end in
  uri (create files (bs "http://h/live/") (bs "/tmp/cam 1.ts") 5 0) = bs "http://h/live/cam%201.ts" /\
  uri (create files (bs "http://h/live/") (bs "/tmp/gone.ts") 5 0) = bs "http://h/live/gone.ts" /\
  create files (bs "http://h/%zz") (bs "/tmp/cam 1.ts") 5 0 = Rejected /\ create files (bs "http://h/") (bs "/tmp/cam 1.ts") (-1) 0 = Crashed.
Proof. repeat split; vm_compute; reflexivity. Qed.
