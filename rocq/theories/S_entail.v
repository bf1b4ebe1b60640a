(* Specification: what the client sends without having been told to by its application. *)
From Coq Require Import String.
From Verif Require Import Base GoStrings M_conn M_message M_session S_session S_tally.

(* how often the application has made this call *)
Definition is_call (c : cmd) (e : event) : bool :=
  match e, c with
  | App COptions, COptions | App CDescribe, CDescribe | App CSetup, CSetup | App CPlay, CPlay | App CPause, CPause | App CTeardown, CTeardown => true
  | _, _ => false
  end.
Definition times_called (c : cmd) (es : list event) : Z := zlen (filter (is_call c) es).
(* the requests that are sent again with credentials *)
Definition times_repeated (log : list effect) : Z := zlen (filter (fun e => match e with Sent again _ => again | _ => false end) log).
(* how often the time has come to keep the session alive *)
Definition times_kept_alive (log : list effect) : Z := zlen (filter (fun e => match e with Alive _ _ => true | _ => false end) log).

(* how often one text stands in another *)
Fixpoint starts (p s : bytes) : bool :=
  match p, s with
  | [], _ => true
  | a :: p', b :: s' => (a =? b) && starts p' s'
  | _ :: _, [] => false
  end.
Fixpoint mentions (p s : bytes) : Z :=
  match s with
  | [] => 0
  | _ :: r => (if starts p s then 1 else 0) + mentions p r
  end.
(* the video streams described in the responses so far, and one at most for every mention *)
Definition streams_in (r : response) : Z := match p_body r with Some b => mentions (bs "m=video") b | None => 0 end.
Definition streams_described (log : list effect) : Z := fold_right (fun e n => match e with Got r => streams_in r + n | _ => n end) 0 log.
