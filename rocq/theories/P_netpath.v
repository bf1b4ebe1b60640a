(* C86: base URIs without a scheme that name a host or a user. *)
From Coq Require Import String.
From Verif Require Import Base GoStrings M_url M_dial S_url L_base L_url L_playlist L_netpath.

(* The same as C86_uri_partial for a base without a scheme, //host/path or //user@/path: the file stands under its own name in the directory
   the base leads to, and user, host, port and query stay. *)
Theorem C86_network_partial : forall u who h port path q segs dir f,
  ruser_is u who -> rhost_ok h -> match port with Some p => rport_ok p | None => True end -> path_ok path -> match q with Some q => query_ok q | None => True end ->
  Forall seg_ok segs -> pct path_char path (slashed segs) -> name_ok f -> (dir = [] \/ exists d, dir = d ++ [47]) ->
  (exists u' p, playlist_uri (bs "//" ++ ruser_text u ++ rhost_text h ++ rport_text port ++ path ++ query_text q) (dir ++ f) =
     Some (bs "//" ++ ruser_text u' ++ rhost_text h ++ rport_text port ++ p ++ query_text q) /\ ruser_is u' who /\ pct path_char p (slashed (resolved segs ++ [f]))) /\
  (who <> None -> path <> [] ->
   exists u' p, playlist_uri (bs "//" ++ ruser_text u ++ path ++ query_text q) (dir ++ f) = Some (bs "//" ++ ruser_text u' ++ p ++ query_text q) /\
     ruser_is u' who /\ pct path_char p (slashed (resolved segs ++ [f]))).
Proof.
  intros u who h port path q segs dir f W H P K Q F PC N D. split; [exact (playlist_net_host u who h port path q segs dir f W H P K Q F PC N D)|].
  intros NW NP. exact (playlist_net_user u who path q segs dir f W NW K NP Q F PC N D).
Qed.
Print Assumptions C86_network_partial.
Example C86_network_case : playlist_uri (bs "//cdn:8080/live/../cam%201/?k=v") (bs "/tmp/a b.ts") = Some (bs "//cdn:8080/cam%201/a%20b.ts?k=v") /\
  playlist_uri (bs "//me:x@[::1]") (bs "x.ts") = Some (bs "//me:x@[::1]/x.ts") /\ playlist_uri (bs "//me@/var/www") (bs "x.ts") = Some (bs "//me@/var/www/x.ts") /\
  playlist_uri (bs "///var/www") (bs "x.ts") = Some (bs "/var/www/x.ts").
Proof. splits; vm_compute; reflexivity. Qed.
