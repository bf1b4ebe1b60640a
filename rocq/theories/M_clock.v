(* Model of the deadlines of /repo/net/rtsp/connection.go: the same reads as M_conn, on a clock.

   Times are in nanoseconds.  The network is the list of what successive reads of the connection return, with the time of arrival; the
   last entry may be the end of the connection.  A deadline (net.Conn, SetReadDeadline) is a moment: from then on every read of
   the connection fails with a timeout, whether bytes have come or not, until another deadline is set.  What arrives at the very
   moment of the deadline comes too late.  Running the code takes no time; waiting does.
   Simplification: the reader's buffer has room for whatever one read returns; the limit of Peek is in M_conn. *)
From Verif Require Import Base.

Inductive arrival := Bytes (at_ : Z) (l : bytes) | End (at_ : Z).

(* connection.go:18-31  the buffered bytes, the deadline in force, what is to come, and the exported field Timeout *)
Record tconn := mkT { t_buf : bytes; t_deadline : option Z; t_net : list arrival; t_timeout : Z }.

(* the bytes a read waits for are there; the deadline passed; the connection ended; nothing will ever happen *)
Inductive outcome := TOk (v : bytes) | TTimeout | TEnd | THang.

(* the deadline has passed at that time *)
Definition late (d : option Z) (at_ : Z) : bool := match d with Some d => d <=? at_ | None => false end.

(* bufio.Reader: read the connection until there is enough.  The time it is then, what is buffered, what is to come. *)
Fixpoint wait (enough : bytes -> bool) (d : option Z) (now : Z) (buf : bytes) (net : list arrival) : Z * bytes * list arrival * outcome :=
  if enough buf then (now, buf, net, TOk [])
  else if late d now then (now, buf, net, TTimeout)
  else match net with
       | [] => (match d with Some d => d | None => now end, buf, [], match d with Some _ => TTimeout | None => THang end)
       | Bytes t l :: r => if late d t then (match d with Some d => d | None => now end, buf, net, TTimeout)
                           else wait enough d (Z.max now t) (buf ++ l) r
       | End t :: _ => if late d t then (match d with Some d => d | None => now end, buf, net, TTimeout)
                       else (Z.max now t, buf, net, TEnd)
       end.

(* connection.go:130-175  Peek, ReadBytes, ReadLine, ReadByte, ReadUint16 *)
Inductive op := OPeek (n : nat) | OBytes (n : nat) | OLine | OByte | OShort.
Definition enough (o : op) (buf : bytes) : bool :=
  match o with
  | OPeek n | OBytes n => (n <=? length buf)%nat
  | OLine => existsb (Z.eqb 10) buf
  | OByte => (1 <=? length buf)%nat
  | OShort => (2 <=? length buf)%nat
  end.
(* how long the line is *)
Fixpoint line_len (buf : bytes) : nat := match buf with [] => 0 | b :: r => if b =? 10 then 1 else S (line_len r) end.
(* how much of the buffer the read gives, and how much it takes away *)
Definition gives (o : op) (buf : bytes) : nat :=
  match o with OPeek n | OBytes n => n | OLine => line_len buf | OByte => 1 | OShort => 2 end.
Definition takes (o : op) (buf : bytes) : nat := match o with OPeek _ => 0 | _ => gives o buf end.
(* what a failed read leaves in the buffer: ReadString and binary.Read have taken what there was *)
Definition leaves (o : op) (buf : bytes) : bytes := match o with OLine | OShort => [] | _ => buf end.

(* connection.go:131-133, 140-142, 148-150, 162-164  a deadline only if Timeout is positive *)
Definition arm (c : tconn) (now : Z) : option Z := if t_timeout c >? 0 then Some (now + t_timeout c) else t_deadline c.
Definition call (c : tconn) (now : Z) (o : op) : tconn * Z * outcome :=
  let d := arm c now in
  match wait (enough o) d now (t_buf c) (t_net c) with
  | (now', buf, net, TOk _) => (mkT (skipn (takes o buf) buf) d net (t_timeout c), now', TOk (firstn (gives o buf) buf))
  | (now', buf, net, e) => (mkT (leaves o buf) d net (t_timeout c), now', e)
  end.

(* A history: reads, and assignments to Timeout, each some time after the end of what was before it.
   The result of a read: when it began, when it ended, and its outcome.  A read that hangs is the last. *)
Inductive tevent := Call (o : op) | SetTimeout (t : Z).
Record reading := mkRd { rd_from : Z; rd_to : Z; rd_out : outcome }.
Fixpoint trun (c : tconn) (now : Z) (es : list (Z * tevent)) : tconn * Z * list reading :=
  match es with
  | [] => (c, now, [])
  | (gap, SetTimeout t) :: r => trun (mkT (t_buf c) (t_deadline c) (t_net c) t) (now + gap) r
  | (gap, Call o) :: r =>
      match call c (now + gap) o with
      | (c', now', THang) => (c', now', [mkRd (now + gap) now' THang])
      | (c', now', out) => let '(c'', now'', l) := trun c' now' r in (c'', now'', mkRd (now + gap) now' out :: l)
      end
  end.
(* connection.go:79-86  a connection just made *)
Definition tconn0 (net : list arrival) : tconn := mkT [] None net 2000000000.
