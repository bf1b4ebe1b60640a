(* Specification: schedules that keep the numbering of one command apart from that of another. *)
From Verif Require Import Base M_message M_session M_race.

Definition numbering (p : point) : bool := match p with Loaded _ _ | Stored _ => true | _ => false end.
(* whoever begins a command does so while no other goroutine is between the increment of cseq and its use *)
Fixpoint exclusive (x : racing) (schedule : list nat) : Prop :=
  match schedule with
  | [] => True
  | i :: rest => (r_at x i = Idle -> forall j, numbering (r_at x j) = false) /\ exclusive (race_step x i) rest
  end.
