(* Specification: two goroutines at the same part of a session. *)
From Verif Require Import Base M_access.

Definition touches (a : act) (v : shared) : Prop := a = Rd v \/ a = Wr v.
(* two goroutines, the next thing the one does is to change v, the next thing the other does is to change or read it *)
Definition clash (c : crowd) (v : shared) : Prop :=
  exists i j b r s, i <> j /\ c_rest c i = Wr v :: r /\ c_rest c j = b :: s /\ touches b v.
(* the session's loop is goroutine 0; the others call the session's methods; nobody has the lock *)
Definition starts (c : crowd) : Prop :=
  c_lock c = None /\ loop_does (c_rest c 0%nat) /\ forall i, app_does (c_rest c (Datatypes.S i)).
(* two goroutines: the loop and one of the application's *)
Definition pair_of (loop app : list act) : crowd := mkCrowd (fun i => match i with 0%nat => loop | 1%nat => app | _ => [] end) None.
