(* Specification: the standard output of the client, line by line (property C156). *)
From Verif Require Import Base.

(* what reaches standard output: entries of package log, and texts printed past it *)
Inductive piece := Logged (m : bytes) | Bare (m : bytes).
Definition piece_text (p : piece) : bytes := match p with Logged m | Bare m => m end.
Definition out_text (ps : list piece) : bytes := flat_map piece_text ps.

(* every entry begins a line: there is nothing before it, or a newline *)
Definition on_own_lines (ps : list piece) : Prop :=
  forall pre m post, ps = pre ++ Logged m :: post -> out_text pre = [] \/ last (out_text pre) 0 = 10.
