(* C114: the fragments a sink holds. *)
From Verif Require Import Base S_annexb S_nal M_nal S_frags L_base L_frags.

(* After any payloads the sink holds the fragments since the last that starts a unit, in order, with the marks of their packets. *)
Theorem C114_exact : forall ps : list (bytes * Z), Forall (fun p => bytes_ok (fst p) /\ plain (fst p)) ps ->
  exists before held, flat_map (fun p => fu_of (fst p)) ps = before ++ held /\
  map (fun f => (is_start f, is_end f, u_data (f_unit f))) (s_frags (fst (push_all new_sink ps))) = held /\
  (before = [] \/ exists e d t, held = (true, e, d) :: t) /\ Forall (fun f => fst (fst f) = false) (tl held).
Proof. intros ps F. destruct (held_exact ps F) as (pre & E & P & T). exists pre. eexists. split; [exact E|]. split; [reflexivity|]. split; assumption. Qed.
Print Assumptions C114_exact.

(* So while a unit is under way it holds the fragments of that unit; but it also keeps them when the unit is complete, until another
   begins: for every unit sent in fragments. *)
Theorem C114_kept_refuted : forall (h ts : Z) (c d : bytes), byte_ok h -> bytes_ok c -> bytes_ok d ->
  plain (fu_a h true false c) -> plain (fu_a h false true d) ->
  let s := fst (push_all new_sink [(fu_a h true false c, ts); (fu_a h false true d, ts)]) in
  map u_data (s_units s) = [c ++ d] /\ map (fun f => (is_start f, is_end f, u_data (f_unit f))) (s_frags s) = [(true, false, c); (false, true, d)].
Proof. exact kept_after_end. Qed.
Print Assumptions C114_kept_refuted.

(* And fragments of which the first is lost pile up without bound. *)
Theorem C114_unbounded_refuted : forall n : nat, exists ps : list (bytes * Z), Forall (fun p => bytes_ok (fst p) /\ plain (fst p) /\ (length (fst p) <= 3)%nat) ps /\
  length (s_frags (fst (push_all new_sink ps))) = n.
Proof. exact held_unbounded. Qed.
Print Assumptions C114_unbounded_refuted.

(* a unit in three fragments, seen before its last *)
Example C114_case :
  let s := fst (push_all new_sink [(fu_a 101 true false [7], 90); (fu_a 101 false true [8], 90); (fu_a 101 true false [1; 2], 91); (fu_a 101 false false [3], 91)]) in
  map (fun f => (is_start f, is_end f, u_data (f_unit f))) (s_frags s) = [(true, false, [1; 2]); (false, false, [3])].
Proof. vm_compute. reflexivity. Qed.
