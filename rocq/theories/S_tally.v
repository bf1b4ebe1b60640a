(* Specification: how often a stage is announced. *)
From Coq Require Import String.
From Verif Require Import Base GoStrings M_conn M_message M_session S_session.

(* the request a stage answers: SETUP makes ready, PLAY plays, PAUSE pauses, TEARDOWN ends *)
Definition asks_for (verb : bytes) (stage : Z) : Prop :=
  (verb, stage) = (bs "SETUP", 1) \/ (verb, stage) = (bs "PLAY", 2) \/ (verb, stage) = (bs "PAUSE", 3) \/ (verb, stage) = (bs "TEARDOWN", 4).
Definition times_announced (stage : Z) (log : list effect) : Z := zlen (filter (fun e => match e with Notified n => n =? stage | _ => false end) log).
(* without the requests that are sent again with credentials *)
Definition times_asked (verb : bytes) (log : list effect) : Z := zlen (filter (fun e => match e with Sent false r => beq (q_verb r) verb | _ => false end) log).
(* the responses with this status *)
Definition times_answered (code : Z) (log : list effect) : Z := zlen (filter (fun e => match e with Got r => p_code r =? code | _ => false end) log).
