(* How a server takes the bytes of a connection apart, stated without the code (RFC 2326 4 and 15, as for HTTP). *)
From Coq Require Import Permutation.
From Verif Require Import Base GoStrings M_message M_session.

(* a line that holds nothing but perhaps a carriage return *)
Definition blank_line (l : bytes) : bool := beq l [] || beq l [13].
(* the lines of a message without content, up to the blank one, and what is after it *)
Fixpoint message_lines (fuel : nat) (s : bytes) : option (list bytes * bytes) :=
  match fuel with
  | O => None
  | S f => match cut 10 s with
           | None => None
           | Some (l, rest) => if blank_line l then Some ([], rest)
                               else match message_lines f rest with Some (ls, t) => Some (l :: ls, t) | None => None end
           end
  end.
(* the messages one after the other, and what is left that is no whole message *)
Fixpoint messages (fuel : nat) (s : bytes) : list (list bytes) * bytes :=
  match fuel with
  | O => ([], s)
  | S f => match message_lines (S (length s)) s with
           | None => ([], s)
           | Some (m, t) => let '(ms, t') := messages f t in (m :: ms, t')
           end
  end.
Definition received (s : bytes) : list (list bytes) * bytes := messages (S (length s)) s.
(* the lines of one message *)
Definition lines_of (t : bytes) : list bytes := match message_lines (S (length t)) t with Some (ls, _) => ls | None => [] end.

(* the requests of a log, and their texts in some order of the fields *)
Definition requests (log : list effect) : list request := flat_map (fun e => match e with Sent _ rq => [rq] | _ => [] end) log.
Definition text_for (rq : request) (t : bytes) : Prop := exists order, Permutation (q_header rq) order /\ t = pack_request rq order.
