(* Specification: how lines end (properties C151 and C152). *)
From Verif Require Import Base.

(* RFC 2326 4: "Lines are terminated by CRLF, but receivers should be prepared to also interpret CR and LF by themselves as line
   terminators."  RFC 4566 5: a record ends in CRLF, but parsers should accept a single newline. *)
Inductive line_end := CrLf | Lf.
Definition end_text (e : line_end) : bytes := match e with CrLf => [13; 10] | Lf => [10] end.
Definition ended (l : bytes * line_end) : bytes := fst l ++ end_text (snd l).
Definition text_of (ls : list (bytes * line_end)) : bytes := flat_map ended ls.
(* the same lines with other ends *)
Definition same_lines (ls ms : list (bytes * line_end)) : Prop := map fst ls = map fst ms.
Definition one_line (l : bytes * line_end) : Prop := ~ In 10 (fst l).
(* lines that end in CR alone *)
Definition text_cr (ls : list bytes) : bytes := flat_map (fun l => l ++ [13]) ls.
