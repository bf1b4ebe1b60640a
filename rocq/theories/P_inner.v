(* C115: brackets inside brackets. *)
From Coq Require Import String.
From Verif Require Import Base GoStrings M_conn M_message M_transport M_sdp M_session M_url M_dial S_message S_url S_badurl L_base L_url L_badurl L_inner.

(* C115  Hosts that begin with a bracket and have another opening or a second closing one (and no percent sign). *)
Theorem C115_inner_partial : forall sch u who a path q proto reach guid werr s, scheme_ok sch -> ruser_is u who -> Forall auth_char (91 :: a) -> ~ In 64 a -> ~ In 37 a ->
  In 91 a \/ (exists x y, a = x ++ 93 :: y /\ In 93 y) ->
  (path = [] \/ exists t, path = 47 :: t) -> Forall (fun c => 32 <= c /\ c <> 127 /\ c <> 35 /\ c <> 63) path -> match q with Some q => query_ok q | None => True end ->
  dial (located sch (ruser_text u ++ 91 :: a) path q) proto reach guid werr s = ([], s, None).
Proof. intros sch u who a path q proto reach guid werr s. apply dial_inner. Qed.
Print Assumptions C115_inner_partial.
Example C115_inner_case : forall s,
  let d x := dial (bs x) ProtoTCP (fun _ _ => true) [] false s in
  d "rtsp://[[::1]:554/"%string = ([], s, None) /\ d "rtsp://[::[1]/live"%string = ([], s, None) /\ d "rtsp://[::1]]:554/"%string = ([], s, None) /\
  d "rtsp://[::1]:554/"%string = ([Connect (bs "::1") 554], s, Some (dialled ProtoTCP None (bs "rtsp://[::1]:554/"))).
Proof. intros s. vm_compute. splits; reflexivity. Qed.
