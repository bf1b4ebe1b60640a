(* Specification: a session with and without what comes between the responses. *)
From Verif Require Import Base M_session S_session.

Definition answers (i : item) : bool := match i with Resp _ _ _ _ => true | _ => false end.
(* the history without the turns of the loop in which a frame or a silence is met *)
Fixpoint without (items : list item) (es : list event) : list event :=
  match es with
  | [] => []
  | App c :: es => App c :: without items es
  | Turn t1 t2 :: es =>
      match items with
      | [] => Turn t1 t2 :: without [] es
      | i :: r => (if answers i then [Turn t1 t2] else []) ++ without r es
      end
  end.
