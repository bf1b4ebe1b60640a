(* Model of the standard output of the client: what M_log.v has, and what Start prints past package log
   (/repo/net/rtsp/connection.go:202; main.go:104 sends the log to standard output too).

   Start runs after the change of stage has been taken (session.go:314-315), next to the client: where its texts stand among the entries is left
   open, their own order is not.  Listeners are only closed by Stop, which nothing calls (C122). *)
From Coq Require Import String.
From Verif Require Import Base GoStrings M_message M_session M_main M_log S_record S_stdout.

(* connection.go:201-202  one text per listener, without a newline *)
Definition start_texts (s : session) : list bytes := map (fun l => bs "Reading from UDP sink " ++ itoa (fst l)) (s_sinks s).
Definition is_started (e : effect) : bool := match e with Started => true | _ => false end.
(* session.go:313-316  in a turn of the loop; Start is the last thing it does *)
Definition turn_texts (w w' : world) : list bytes := if existsb is_started (news w w') then start_texts (w_s w') else [].
(* in an execution *)
Fixpoint ybare (y : system) (es : list yevent) : list bytes :=
  match es with
  | [] => []
  | e :: rest =>
      match ystep y e with
      | Some y' => match e with YTurn _ _ => turn_texts (y_w y) (y_w y') | _ => [] end ++ ybare y' rest
      | None => []
      end
  end.
(* the pieces of standard output after an execution *)
Definition standard_output (ord : header -> header) (txt : goerr -> bytes) (y : system) (es : list yevent) (ps : list piece) : Prop :=
  merged (map (fun x => Logged (snd x)) (youtput ord txt y es)) (map Bare (ybare y es)) ps.
