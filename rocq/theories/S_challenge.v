(* Specification: challenges as HTTP authentication writes them (RFC 2617 1.2 and 3.2.1, with the tokens and quoted strings of RFC 2616 2.2).
   Escapes inside quoted strings are left out. *)
From Coq Require Import String.
From Verif Require Import Base GoStrings.

(* a parameter: a name and a value, the value as a token or in quotes; blanks around it *)
Record cparam := mkParam { cp_before : bytes; cp_name : bytes; cp_quoted : bool; cp_value : bytes; cp_after : bytes }.
(* a character of a token: printing ASCII other than parentheses, angle, square and curly brackets, @ , ; : / ? = backslash and quotation mark *)
Definition token_char (c : Z) : Prop := 33 <= c <= 126 /\ ~ In c [40; 41; 60; 62; 64; 44; 59; 58; 92; 34; 47; 91; 93; 63; 61; 123; 125].
Definition spaces (b : bytes) : Prop := Forall (fun c => c = 32) b.
Definition cparam_ok (p : cparam) : Prop :=
  spaces (cp_before p) /\ spaces (cp_after p) /\ cp_name p <> [] /\ Forall token_char (cp_name p) /\
  if cp_quoted p then ~ In 34 (cp_value p) /\ ~ In 92 (cp_value p) else cp_value p <> [] /\ Forall token_char (cp_value p).
Definition cparam_text (p : cparam) : bytes :=
  cp_before p ++ cp_name p ++ bs "=" ++ (if cp_quoted p then bs """" ++ cp_value p ++ bs """" else cp_value p) ++ cp_after p.
Fixpoint cparams_text (l : list cparam) : bytes :=
  match l with [] => [] | [p] => cparam_text p | p :: r => cparam_text p ++ bs "," ++ cparams_text r end.
(* one challenge *)
Definition challenge_text (sch : bytes) (l : list cparam) : bytes := sch ++ bs " " ++ cparams_text l.

(* the value of a parameter, the names being compared without regard to case *)
Definition value_of (k dflt : bytes) (l : list cparam) : bytes :=
  fold_left (fun v p => if beq (to_lower (cp_name p)) k then cp_value p else v) l dflt.
