(* Specification: the times of the command-line client. *)
From Verif Require Import Base M_session M_main M_timer S_steps.

(* the stages the client took, with the time *)
Fixpoint taken_when (x : clocked) (es : list (yevent * Z)) : list (Z * Z) :=
  match es with
  | [] => []
  | (e, t) :: r => match kstep x e t with
                   | Some x' => match e, y_stage (k_y x) with YStage, Some n => [(n, t)] | _, _ => [] end ++ taken_when x' r
                   | None => []
                   end
  end.
(* the requests sent (without those sent again), with the time *)
Fixpoint asked_when (x : clocked) (es : list (yevent * Z)) : list (bytes * Z) :=
  match es with
  | [] => []
  | (e, t) :: r => match kstep x e t with
                   | Some x' => map (fun v => (v, t)) (verbs_asked (news (y_w (k_y x)) (y_w (k_y x')))) ++ asked_when x' r
                   | None => []
                   end
  end.
