(* Specification: how much comes out of a sink for what is put in. *)
From Verif Require Import Base S_nal M_nal.

(* the bytes of a unit with its header *)
Definition unit_bytes (u : nal_unit) : Z := 1 + zlen (u_data u).
Definition units_bytes (us : list nal_unit) : Z := fold_right (fun u n => unit_bytes u + n) 0 us.
(* all the units an application is shown that looks at Units after each Push *)
Fixpoint came_out (s : sink) (ps : list (bytes * Z)) : Z :=
  match ps with
  | [] => 0
  | (p, ts) :: r => let s' := fst (push s p ts) in units_bytes (s_units s') + came_out s' r
  end.
Definition put_in (ps : list (bytes * Z)) : Z := fold_right (fun p n => zlen (fst p) + n) 0 ps.
(* of the fragments (S bit, E bit, piece) each one behind a last one is a first one *)
Fixpoint starts_anew (fs : list (bool * bool * bytes)) : Prop :=
  match fs with
  | (_, e, _) :: t => (e = true -> match t with (s, _, _) :: _ => s = true | [] => True end) /\ starts_anew t
  | [] => True
  end.
