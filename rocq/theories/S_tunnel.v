(* Specification: how a tunnel through HTTP is answered (property C159). *)
From Verif Require Import Base.

(* the head of an answer: its first line, its fields, and a line with nothing on it; every line ends in LF, a CR before it is part of
   the line *)
Definition head_text (first : bytes) (fields : list bytes) (blank : bytes) : bytes :=
  flat_map (fun l => l ++ [10]) (first :: fields ++ [blank]).
