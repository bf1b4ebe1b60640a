(* Model of the timer of /repo/cmd/ouro/main.go: lines 19, 20, 22, 43, 46 and 49.

   Times are nanoseconds of a clock that does not go back.  M_main.v says when the timer runs; here it is also said when it is due.  The
   runtime may let it expire at any time from then on (never before), and the client may take the tick later still. *)
From Verif Require Import Base M_session M_main.

(* main.go:43, 46, 49  time.Second * 5 *)
Definition five_seconds : Z := 5 * 10 ^ 9.

(* the program, the time of the last event and the time the timer is due (if it runs) *)
Record clocked := mkK { k_y : system; k_now : Z; k_due : Z }.

(* main.go:41-50  the stages that reset the timer *)
Definition resets (stage : Z) : bool := (stage =? StagePlay) || (stage =? StagePause) || (stage =? StageDone).

(* an event at time t; None: not possible (then) *)
Definition kstep (x : clocked) (e : yevent) (t : Z) : option clocked :=
  if t <? k_now x then None
  else if match e with YExpire => t <? k_due x | _ => false end then None
  else match ystep (k_y x) e with
       | Some y => Some (mkK y t (match e, y_stage (k_y x) with
                                  | YStage, Some n => if resets n then t + five_seconds else k_due x
                                  | _, _ => k_due x
                                  end))
       | None => None
       end.
Fixpoint krun (x : clocked) (es : list (yevent * Z)) : option clocked :=
  match es with
  | [] => Some x
  | (e, t) :: r => match kstep x e t with Some x' => krun x' r | None => None end
  end.
(* main.go:19-20  the timer is stopped at once: it is not due at any time *)
Definition klaunch (w : world) (t : Z) : clocked := mkK (launch w) t t.
