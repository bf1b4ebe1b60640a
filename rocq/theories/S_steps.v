(* Specification: the command-line client takes each of its steps once. *)
From Coq Require Import String.
From Verif Require Import Base GoStrings M_conn M_message M_transport M_sdp M_session M_main.

(* the requests, without those that are sent again with credentials *)
Definition verbs_asked (log : list effect) : list bytes := flat_map (fun e => match e with Sent false r => [q_verb r] | _ => [] end) log.
(* what is asked in a session with n streams *)
Definition errands (n : nat) : list bytes := [bs "OPTIONS"; bs "DESCRIBE"] ++ repeat (bs "SETUP") n ++ [bs "PLAY"; bs "PAUSE"; bs "TEARDOWN"].
Definition begins {A} (l whole : list A) : Prop := exists rest, whole = l ++ rest.
(* no description the server gave has 2^62 streams: the client counts them in 64 bits *)
Definition countable (log : list effect) : Prop :=
  Forall (fun e => match e with Got r => forall body ms, p_body r = Some body -> sdp_parse body = Ok ms -> zlen ms < 2 ^ 62 | _ => True end) log.
(* the stages the client has taken from the session *)
Fixpoint stages_taken (y : system) (es : list yevent) : list Z :=
  match es with
  | [] => []
  | e :: r => match ystep y e with
              | Some y' => match e, y_stage y with YStage, Some n => [n] | _, _ => [] end ++ stages_taken y' r
              | None => []
              end
  end.
