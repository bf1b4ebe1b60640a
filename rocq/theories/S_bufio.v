(* What a connection delivers, without how it is cut into pieces. *)
From Verif Require Import Base M_conn M_message M_bufio.

(* The bytes and the pauses in order. *)
Definition flow (net : list piece) : stream :=
  flat_map (fun p => match p with Data l => map Some l | Pause => [None] end) net.

(* A Read never returns without a byte. *)
Definition pieces_ok (net : list piece) : Prop := ~ In (Data []) net.

(* The same bytes cut one by one. *)
Fixpoint singly (s : stream) : list piece :=
  match s with
  | [] => []
  | Some b :: r => Data [b] :: singly r
  | None :: r => Pause :: singly r
  end.

(* The exported ways to read from a connection (connection.go, message.go, http.go). *)
Inductive rop := RPeek (n : Z) | RLine | RByte | RUint16 | RBytes (n : Z) | RUnpack | RHttp.
Definition good {A} (o : res A) : bool := match o with Ok _ => true | _ => false end.
Definition b_do (op : rop) (b : reader) : reader :=
  match op with
  | RPeek n => fst (b_peek n b) | RLine => fst (b_read_line b) | RByte => fst (b_read_byte b) | RUint16 => fst (b_read_uint16 b)
  | RBytes n => fst (b_read_bytes n b) | RUnpack => fst (b_unpack b) | RHttp => fst (b_receive_http b)
  end.
Definition s_do (op : rop) (s : stream) : stream * bool :=
  match op with
  | RPeek n => let '(s', o) := peek n s in (s', good o)
  | RLine => let '(s', o) := read_line s in (s', good o)
  | RByte => let '(s', o) := read_byte s in (s', good o)
  | RUint16 => let '(s', o) := read_uint16 s in (s', good o)
  | RBytes n => let '(s', o) := read_bytes n s in (s', good o)
  | RUnpack => let '(s', o) := unpack_response s in (s', good o)
  | RHttp => let '(s', o) := receive_http s in (s', good o)
  end.
(* the calls all succeed on these bytes *)
Fixpoint enough (ops : list rop) (s : stream) : Prop :=
  match ops with
  | [] => True
  | op :: r => snd (s_do op s) = true /\ enough r (fst (s_do op s))
  end.
(* the bytes fetched and not yet read (bufio.Reader.Buffered) *)
Definition fetched (b : reader) : bytes := firstn (b_w b - b_r b) (skipn (b_r b) (b_buf b)).
(* a slice of the reader's memory, as it reads now *)
Definition content (b : reader) (s : nat * nat) : bytes := firstn (snd s) (skipn (fst s) (b_buf b)).
