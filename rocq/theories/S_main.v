(* Specification: the order in which the command-line client is to act. *)
From Coq Require Import String.
From Verif Require Import Base GoStrings S_rtp S_nal M_annexb M_message M_session S_session.

(* the stage a new request waits for: PLAY for Ready, PAUSE for Play, TEARDOWN for Pause *)
Definition waits_for (verb : bytes) : option Z :=
  if beq verb (bs "PLAY") then Some 1 else if beq verb (bs "PAUSE") then Some 2 else if beq verb (bs "TEARDOWN") then Some 3 else None.
(* every request of the client comes after the announcement it waits for *)
Definition in_order (log : list effect) : Prop :=
  forall a r b n, log = a ++ Sent false r :: b -> waits_for (q_verb r) = Some n -> In (Notified n) a.
(* something for the application: a stage or a packet *)
Definition signals (es : list effect) : list effect := filter (fun e => match e with Notified _ | Delivered _ _ => true | _ => false end) es.

(* a sender report that announces more than there is *)
Definition cut_report (p : bytes) : Prop := exists a r, p = a :: 200 :: r /\ zlen p < 28 + a mod 32 * 24.
(* packets the client cannot get past: empty or incomplete ones crash it, others make it leave *)
Definition control_crash (p : bytes) : Prop := zlen p < 4.
Definition control_leave (p : bytes) : Prop := 4 <= zlen p /\ (~ version2 p \/ cut_report p).
(* a media packet the client can look into: whole, and no aggregate that runs over the sink's 16-bit
   arithmetic (C22); the units are those of the splitter (C13, C14) *)
Definition media_safe (p : bytes) : Prop :=
  p <> [] /\ (version2 p -> exists h payload, rtp_legal h /\ p = rtp_layout h payload /\ (forall nals, split_annexb payload = Ok nals -> Forall (fun n => ~ crash n) nals)).
Definition control_safe (p : bytes) : Prop := 4 <= zlen p.
