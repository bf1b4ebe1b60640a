(* What the reads of a connection owe their caller in time, stated without the code. *)
From Verif Require Import Base M_conn M_clock.

(* the bytes that come before a moment and before the end of the connection, in the order of arrival *)
Fixpoint before (d : Z) (net : list arrival) : bytes :=
  match net with
  | Bytes t l :: r => if t <? d then l ++ before d r else []
  | _ => []
  end.
(* all bytes that ever come *)
Fixpoint ever (net : list arrival) : bytes :=
  match net with
  | Bytes _ l :: r => l ++ ever r
  | _ => []
  end.
(* the connection ends before a moment, everything before the end having come before it too *)
Fixpoint ends_before (d : Z) (net : list arrival) : Prop :=
  match net with
  | Bytes t _ :: r => t < d /\ ends_before d r
  | End t :: _ => t < d
  | [] => False
  end.

(* what a read asks for: the bytes it returns, given all that could be there *)
Inductive asked : op -> bytes -> bytes -> Prop :=
| asked_peek v rest : asked (OPeek (length v)) (v ++ rest) v
| asked_bytes v rest : asked (OBytes (length v)) (v ++ rest) v
| asked_line l rest : ~ In 10 l -> asked OLine (l ++ 10 :: rest) (l ++ [10])
| asked_byte b rest : asked OByte (b :: rest) [b]
| asked_short a b rest : asked OShort (a :: b :: rest) [a; b].

(* Timeout is never made positive *)
Definition unset (e : Z * tevent) : Prop := 0 <= fst e /\ match snd e with SetTimeout t => t <= 0 | Call _ => True end.
(* a read that needs at least one byte *)
Definition needs (o : op) : Prop := match o with OPeek O | OBytes O => False | _ => True end.
Definition needy (e : Z * tevent) : Prop := match snd e with Call o => needs o | SetTimeout _ => True end.
(* Timeout stays positive, and no more is asked for than the reader's buffer holds *)
Definition positive (e : Z * tevent) : Prop :=
  0 <= fst e /\ match snd e with SetTimeout t => 0 < t | Call (OPeek n) | Call (OBytes n) => (n <= Z.to_nat bufio_size)%nat | Call _ => True end.

(* the same reads without a clock, on a stream with pauses (M_conn) *)
Definition conn_call (o : op) (s : stream) : stream * res bytes :=
  match o with
  | OPeek n => peek (Z.of_nat n) s
  | OBytes n => read_bytes (Z.of_nat n) s
  | OLine => read_line s
  | OByte => let '(s', r) := read_byte s in (s', let! b := r in Ok [b])
  | OShort => let '(s', r) := read_uint16 s in (s', let! n := r in Ok [n])
  end.
Fixpoint conn_calls (s : stream) (es : list (Z * tevent)) : list (res bytes) :=
  match es with
  | [] => []
  | (_, SetTimeout _) :: r => conn_calls s r
  | (_, Call o) :: r => let '(s', out) := conn_call o s in out :: conn_calls s' r
  end.
(* an outcome on the clock and a result without *)
Definition shown (out : outcome) (r : res bytes) : Prop :=
  match out with
  | TOk v => r = Ok v \/ r = Ok [be_of v] /\ length v = 2%nat
  | TTimeout => r = Err ErrTimeout
  | TEnd => r = Err ErrEOF
  | THang => False
  end.
(* the bytes of a stream, and its pauses *)
Definition stream_bytes (s : stream) : bytes := flat_map (fun x => match x with Some b => [b] | None => [] end) s.
Definition pauses (s : stream) : nat := length (filter (fun x => match x with None => true | Some _ => false end) s).
(* how many of some reads ended with a timeout *)
Definition timeouts (rs : list reading) : nat :=
  length (filter (fun r => match rd_out r with TTimeout => true | _ => false end) rs).
