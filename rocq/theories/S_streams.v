(* Specification: several streams whose payloads go into one sink. *)
From Verif Require Import Base S_nal M_nal S_frags.

(* what is seen of a unit, its decoding order number aside *)
Definition seen (u : nal_unit) : Z * Z * bytes := (u_header u, u_ts u, u_data u).

(* Payloads with their times in the order they are pushed; true: of the stream looked at.  What comes of its payloads: the units found after
   each Push, and what Push returns.  After a crash nothing comes. *)
Fixpoint yields (s : sink) (l : list (bool * (bytes * Z))) : list (list (Z * Z * bytes) * res unit) :=
  match l with
  | [] => []
  | (mine, (p, ts)) :: r =>
      let (s', o) := push s p ts in
      (if mine then [(map seen (s_units s'), o)] else []) ++ (match o with Ok _ | Err _ => yields s' r | _ => [] end)
  end.

(* the next fragment of the stream, if one comes, is the first of its unit *)
Fixpoint resumes (l : list (bool * (bytes * Z))) : Prop :=
  match l with
  | [] => True
  | (mine, (p, _)) :: r =>
      if mine then match fu_of p with (st, _, _) :: _ => st = true | [] => resumes r end else resumes r
  end.
(* no fragment of another stream comes between two of a unit *)
Fixpoint apart (l : list (bool * (bytes * Z))) : Prop :=
  match l with
  | [] => True
  | (mine, (p, _)) :: r => (mine = false -> fu_of p <> [] -> resumes r) /\ apart r
  end.
