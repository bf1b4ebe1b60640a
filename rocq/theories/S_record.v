(* Specification: the output of the client as a record of the session (property C155). *)
From Coq Require Import String.
From Verif Require Import Base GoStrings M_message M_session M_main.

(* [c] has the members of [a] and those of [b], each in their order *)
Inductive merged {A} : list A -> list A -> list A -> Prop :=
| mg_nil : merged [] [] []
| mg_left x a b c : merged a b c -> merged (x :: a) b (x :: c)
| mg_right x a b c : merged a b c -> merged a (x :: b) (x :: c).

(* the entry of a message that was exchanged *)
Definition message_entries (ord : header -> header) (es : list effect) : list bytes :=
  flat_map (fun e => match e with
                     | Sent _ r => [pack_request r (ord (q_header r)) ++ [10]]
                     | Got r => [pack_response r (ord (p_header r)) ++ [10]]
                     | _ => []
                     end) es.
(* any other entry: a notice or the text of an error, on a line of its own *)
Definition error_entry (txt : goerr -> bytes) (l : bytes) : Prop := exists e, l = txt e ++ [10] \/ (l = txt e /\ last l 0 = 10).
Definition notice (txt : goerr -> bytes) (l : bytes) : Prop :=
  Exists (fun p => has_prefix p l = true) [bs "Stage: "; bs "Timer: stage="; bs "RTP ["; bs "RTCP ["; bs "NAL Zero="] \/ error_entry txt l.

(* the entry of a stage, and those of a tick of the timer at a stage *)
Definition stage_text (n : Z) : bytes :=
  bs "Stage: " ++
  match n with 1 => bs "Ready" | 2 => bs "Playing" | 3 => bs "Pausing" | 4 => bs "Done" | _ => itoa n end ++ [10].
Definition tick_texts (n : Z) : list bytes :=
  (bs "Timer: stage=" ++ itoa n ++ [10]) :: match n with 3 => [bs "Stage: Closing" ++ [10]] | _ => [] end.

(* the stages the client takes in an execution, and the stage it is in at each tick: the last one taken *)
Fixpoint taken (y : system) (es : list yevent) : list Z :=
  match es with
  | [] => []
  | e :: rest => match ystep y e with
                 | Some y' => match e, y_stage y with YStage, Some n => [n] | _, _ => [] end ++ taken y' rest
                 | None => []
                 end
  end.
Fixpoint at_ticks (now : Z) (y : system) (es : list yevent) : list Z :=
  match es with
  | [] => []
  | e :: rest => match ystep y e with
                 | Some y' => match e, y_stage y with
                              | YStage, Some n => at_ticks n y' rest
                              | YTick, _ => now :: at_ticks now y' rest
                              | _, _ => at_ticks now y' rest
                              end
                 | None => []
                 end
  end.
(* the notices among the entries printed in one kind of step *)
Definition is_notice (l : bytes) : bool := has_prefix (bs "Stage: ") l || has_prefix (bs "Timer: ") l.
Definition notices_at (k : yevent -> bool) (out : list (yevent * bytes)) : list bytes := filter is_notice (map snd (filter (fun x => k (fst x)) out)).
Definition at_stage (e : yevent) : bool := match e with YStage => true | _ => false end.
Definition at_tick (e : yevent) : bool := match e with YTick => true | _ => false end.
