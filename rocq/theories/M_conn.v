(* Model of the reading side of /repo/net/rtsp/connection.go: a bufio.Reader of 2048 bytes over a TCP connection.

   The incoming stream is the list of what is still to be read, buffered or not: [Some b] a byte, [None] a point
   where the data pauses for longer than the read timeout (one read that needs the byte after it fails with a
   timeout, and the next read starts afresh), end of list the end of the connection (every further read fails).
   bufio keeps the bytes it has already fetched, so buffering is visible only in the limit of Peek.
   Simplification: io.ErrUnexpectedEOF (one byte read of two) is represented by ErrEOF. *)
From Verif Require Import Base.

Definition stream := list (option Z).

Definition bufio_size : Z := 2048.                                         (* connection.go:81 *)

(* the next n bytes, without advancing; a pause met on the way is spent *)
Fixpoint take_bytes (n : nat) (s : stream) : stream * res bytes :=
  match n with
  | O => (s, Ok [])
  | S k => match s with
           | [] => ([], Err ErrEOF)
           | None :: r => (r, Err ErrTimeout)
           | Some b :: r => match take_bytes k r with
                            | (r', Ok l) => (Some b :: r', Ok (b :: l))
                            | (r', e) => (Some b :: r', e)
                            end
           end
  end.

(* connection.go:130-135  Peek (bufio.Reader.Peek: a negative count does not occur) *)
Definition peek (n : Z) (s : stream) : stream * res bytes :=
  if n >? bufio_size then (s, Err ErrBufferFull) else take_bytes (Z.to_nat n) s.

(* connection.go:139-144  ReadLine: the bytes before a pause or the end are consumed, and lost to the callers *)
Fixpoint read_line (s : stream) : stream * res bytes :=
  match s with
  | [] => ([], Err ErrEOF)
  | None :: r => (r, Err ErrTimeout)
  | Some b :: r => if b =? 10 then (r, Ok [b])
                   else match read_line r with
                        | (r', Ok l) => (r', Ok (b :: l))
                        | (r', e) => (r', e)
                        end
  end.

(* connection.go:161-166  ReadByte *)
Definition read_byte (s : stream) : stream * res Z :=
  match s with
  | [] => ([], Err ErrEOF)
  | None :: r => (r, Err ErrTimeout)
  | Some b :: r => (r, Ok b)
  end.

(* connection.go:147-153  ReadUint16 (binary.Read, big endian): a byte read before a pause is lost *)
Definition read_uint16 (s : stream) : stream * res Z :=
  match read_byte s with
  | (r, Ok a) => match read_byte r with
                 | (r', Ok b) => (r', Ok (a * 256 + b))
                 | (r', Err e) => (r', Err e)
                 | (r', Panic) => (r', Panic)
                 | (r', Fuel) => (r', Fuel)
                 end
  | (r, e) => (r, e)
  end.

(* connection.go:156-158  Discard, of bytes known to be buffered *)
Definition discard (n : nat) (s : stream) : stream := skipn n s.

(* connection.go:169-175  ReadBytes *)
Definition read_bytes (n : Z) (s : stream) : stream * res bytes :=
  match peek n s with
  | (s', Ok l) => (discard (length l) s', Ok l)
  | r => r
  end.
