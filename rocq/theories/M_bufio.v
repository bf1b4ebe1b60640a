(* Model of the reading side of /repo/net/rtsp/connection.go one level below M_conn: the bufio.Reader of connection.go:81
   with its array of 2048 bytes, over a TCP connection that hands out the bytes in pieces.  The bufio functions follow
   the Go standard library (bufio/bufio.go, io/io.go, encoding/binary/binary.go), which is the same in Go 1.19 to 1.24
   in what is modelled here.

   Simplifications: a Read of the connection returns either bytes or an error, never both and never nothing (as
   net.TCPConn does for a non-empty buffer); errors other than a timeout are all ErrEOF and last for ever; a deadline
   that passes is a [Pause] among the pieces. *)
From Coq Require Import String.
From Verif Require Import Base GoStrings M_conn M_message M_session.

(* What successive calls of Read on the connection meet. *)
Inductive piece := Data (l : bytes) | Pause.

(* bufio.Reader: buf, r, w, err; and the pieces still to come *)
Record reader := mkB { b_buf : bytes; b_r : nat; b_w : nat; b_err : option goerr; b_net : list piece }.

(* connection.go:81  bufio.NewReaderSize(conn, 2048) *)
Definition new_reader (net : list piece) : reader := mkB (repeat 0 (Z.to_nat bufio_size)) 0 0 None net.

(* buf[off : off+len] *)
Definition sub (buf : bytes) (off len : nat) : bytes := firstn len (skipn off buf).
(* copy(buf[off:], l), where l fits *)
Definition put (buf : bytes) (off : nat) (l : bytes) : bytes := firstn off buf ++ l ++ skipn (off + length l) buf.
Definition avail (b : reader) : nat := b_w b - b_r b.
Definition size (b : reader) : nat := length (b_buf b).

(* net.TCPConn.Read into a slice of room > 0 bytes *)
Definition conn_read (room : nat) (net : list piece) : list piece * bytes * option goerr :=
  match net with
  | [] => ([], [], Some ErrEOF)
  | Pause :: r => (r, [], Some ErrTimeout)
  | Data l :: r => (if (length l <=? room)%nat then r else Data (skipn room l) :: r, firstn room l, None)
  end.

(* bufio.Reader.fill *)
Definition fill (b : reader) : reader * res unit :=
  let b := if (0 <? b_r b)%nat then mkB (put (b_buf b) 0 (sub (b_buf b) (b_r b) (avail b))) 0 (avail b) (b_err b) (b_net b) else b in
  if (size b <=? b_w b)%nat then (b, Panic)
  else let '(net, l, e) := conn_read (size b - b_w b) (b_net b) in
       (mkB (put (b_buf b) (b_w b) l) (b_r b) (b_w b + length l) (match e with Some _ => e | None => b_err b end) net, Ok tt).

(* bufio.Reader.readErr, and the result of a function that returns what it gives *)
Definition clear (b : reader) : reader := mkB (b_buf b) (b_r b) (b_w b) None (b_net b).
Definition advance (b : reader) (n : nat) : reader := mkB (b_buf b) (b_r b + n) (b_w b) (b_err b) (b_net b).

(* bufio.Reader.Peek, the loop.  Every turn uses up a piece, fills the buffer, or meets an error. *)
Fixpoint peek_loop (fuel : nat) (n : Z) (b : reader) : reader * res unit :=
  match fuel with
  | O => (b, Fuel)
  | S f =>
      if (Z.of_nat (avail b) <? n) && (avail b <? size b)%nat && match b_err b with None => true | Some _ => false end then
        match fill b with
        | (b', Ok _) => peek_loop f n b'
        | r => r
        end
      else (b, Ok tt)
  end.

(* bufio.Reader.Peek, n not negative: the slice buf[off : off+len], or the error.  connection.go:130-135 *)
Definition b_peek (n : Z) (b : reader) : reader * res (nat * nat) :=
  match peek_loop (S (S (length (b_net b)))) n b with
  | (b, Ok _) =>
      if n >? Z.of_nat (size b) then (b, Err ErrBufferFull)
      else if Z.of_nat (avail b) <? n then
        match b_err b with Some e => (clear b, Err e) | None => (b, Err ErrBufferFull) end
      else (b, Ok (b_r b, Z.to_nat n))
  | (b, Err e) => (b, Err e)
  | (b, Panic) => (b, Panic)
  | (b, Fuel) => (b, Fuel)
  end.

(* bufio.Reader.Discard, n not negative.  connection.go:156-158; its results are not used by any caller *)
Fixpoint discard_loop (fuel remain : nat) (b : reader) : reader * res unit :=
  match fuel with
  | O => (b, Fuel)
  | S f =>
      match (if (avail b =? 0)%nat then fill b else (b, Ok tt)) with
      | (b, Ok _) =>
          let skip := Nat.min (avail b) remain in
          let b := advance b skip in
          if (remain =? skip)%nat then (b, Ok tt)
          else match b_err b with
               | Some e => (clear b, Err e)
               | None => discard_loop f (remain - skip) b
               end
      | r => r
      end
  end.
Definition b_discard (n : nat) (b : reader) : reader * res unit :=
  if (n =? 0)%nat then (b, Ok tt) else discard_loop (S (S (length (b_net b)))) n b.

(* connection.go:169-175  ReadBytes: the slice returned is the reader's own memory *)
Definition b_read_bytes (n : Z) (b : reader) : reader * res (nat * nat) :=
  match b_peek n b with
  | (b', Ok s) => match b_discard (Z.to_nat n) b' with
                  | (b'', Ok _) | (b'', Err _) => (b'', Ok s)
                  | (b'', Panic) => (b'', Panic)
                  | (b'', Fuel) => (b'', Fuel)
                  end
  | r => r
  end.

(* bufio.Reader.ReadByte.  connection.go:161-166.  One fill gives a byte or an error. *)
Fixpoint byte_loop (fuel : nat) (b : reader) : reader * res Z :=
  match fuel with
  | O => (b, Fuel)
  | S f =>
      if (avail b =? 0)%nat then
        match b_err b with
        | Some e => (clear b, Err e)
        | None => match fill b with
                  | (b', Ok _) => byte_loop f b'
                  | (b', Err e) => (b', Err e)
                  | (b', Panic) => (b', Panic)
                  | (b', Fuel) => (b', Fuel)
                  end
        end
      else (advance b 1, Ok (nth (b_r b) (b_buf b) 0))
  end.
Definition b_read_byte (b : reader) : reader * res Z := byte_loop 2 b.

(* bufio.Reader.Read(p) for 0 < len(p) < 2048: the bytes given, or the error *)
Definition b_read (n : nat) (b : reader) : reader * res bytes :=
  let give b := let k := Nat.min n (avail b) in (advance b k, Ok (sub (b_buf b) (b_r b) k)) in
  if (avail b =? 0)%nat then
    match b_err b with
    | Some e => (clear b, Err e)
    | None =>
        let '(net, l, e) := conn_read (size b) (b_net b) in
        match e with
        | Some e => (mkB (b_buf b) 0 0 None net, Err e)
        | None => give (mkB (put (b_buf b) 0 l) 0 (length l) None net)
        end
    end
  else give b.

(* io.ReadFull: Read until n bytes are there *)
Fixpoint read_full (fuel n : nat) (b : reader) : reader * res bytes :=
  match fuel with
  | O => (b, Fuel)
  | S f =>
      if (n =? 0)%nat then (b, Ok [])
      else match b_read n b with
           | (b', Ok l) => match read_full f (n - length l) b' with
                           | (b'', Ok l') => (b'', Ok (l ++ l'))
                           | r => r
                           end
           | r => r
           end
  end.

(* connection.go:147-153  ReadUint16: binary.Read of a big endian uint16 *)
Definition b_read_uint16 (b : reader) : reader * res Z :=
  match read_full 3 2 b with
  | (b', Ok [x; y]) => (b', Ok (x * 256 + y))
  | (b', Ok _) => (b', Panic)
  | (b', Err e) => (b', Err e)
  | (b', Panic) => (b', Panic)
  | (b', Fuel) => (b', Fuel)
  end.

(* bytes.IndexByte *)
Fixpoint index (c : Z) (l : bytes) : option nat :=
  match l with
  | [] => None
  | x :: r => if x =? c then Some O else option_map S (index c r)
  end.

(* bufio.Reader.ReadSlice('\n'): the line and the error; s is the part of the buffer searched before *)
Fixpoint slice_loop (fuel s : nat) (b : reader) : reader * res (bytes * option goerr) :=
  match fuel with
  | O => (b, Fuel)
  | S f =>
      match index 10 (sub (b_buf b) (b_r b + s) (avail b - s)) with
      | Some i => (advance b (i + s + 1), Ok (sub (b_buf b) (b_r b) (i + s + 1), None))
      | None =>
          match b_err b with
          | Some e => (clear (advance b (avail b)), Ok (sub (b_buf b) (b_r b) (avail b), Some e))
          | None =>
              if (size b <=? avail b)%nat then (advance b (avail b), Ok (b_buf b, Some ErrBufferFull))
              else match fill b with
                   | (b', Ok _) => slice_loop f (avail b) b'
                   | (b', Err e) => (b', Err e)
                   | (b', Panic) => (b', Panic)
                   | (b', Fuel) => (b', Fuel)
                   end
          end
      end
  end.
Definition read_slice (b : reader) : reader * res (bytes * option goerr) := slice_loop (S (S (length (b_net b)))) 0 b.

(* bufio.Reader.ReadString('\n') by collectFragments, connection.go:139-144; every full buffer is at least one byte *)
Fixpoint string_loop (fuel : nat) (acc : bytes) (b : reader) : reader * res bytes :=
  match fuel with
  | O => (b, Fuel)
  | S f =>
      match read_slice b with
      | (b', Ok (l, None)) => (b', Ok (acc ++ l))
      | (b', Ok (l, Some ErrBufferFull)) => string_loop f (acc ++ l) b'
      | (b', Ok (_, Some e)) => (b', Err e)
      | (b', Err e) => (b', Err e)
      | (b', Panic) => (b', Panic)
      | (b', Fuel) => (b', Fuel)
      end
  end.
Definition coming (b : reader) : nat := avail b + length (flat_map (fun p => match p with Data l => l | Pause => [] end) (b_net b)).
Definition b_read_line (b : reader) : reader * res bytes := string_loop (S (coming b)) [] b.

(* message.go:142-155  the header lines; every line has at least one byte *)
Fixpoint b_header_lines (fuel : nat) (h : header) (b : reader) : reader * res header :=
  match fuel with
  | O => (b, Fuel)
  | S f =>
      match b_read_line b with
      | (b', Ok l) =>
          let line := trim_space l in
          if beq line [] then (b', Ok h)
          else match split2 58 line with
               | [k; v] => b_header_lines f (header_set h (trim_space k) (trim_space v)) b'
               | _ => (b', Err ErrMalformedResponse)
               end
      | (b', Err e) => (b', Err e)
      | (b', Panic) => (b', Panic)
      | (b', Fuel) => (b', Fuel)
      end
  end.

(* message.go:112-170  Unpack: the response, its body as it reads on return, and where in the reader's memory that is *)
Definition b_unpack (b : reader) : reader * res (response * option (nat * nat)) :=
  match b_read_line b with
  | (b1, Ok line) =>
      match status_line (bs "RTSP/1.0") line with
      | Ok (status, code) =>
          match b_header_lines (S (coming b1)) [] b1 with
          | (b2, Ok h) =>
              let cseq := fst (atoi (header_get h (bs "CSeq"))) in
              let len := match atoi (header_get h (bs "Content-Length")) with (n, None) => n | _ => 0 end in
              if len >? 0 then
                match b_read_bytes len b2 with
                | (b3, Ok s) => (b3, Ok (mkRsp status code len cseq h (Some (sub (b_buf b3) (fst s) (snd s))), Some s))
                | (b3, Err e) => (b3, Err e)
                | (b3, Panic) => (b3, Panic)
                | (b3, Fuel) => (b3, Fuel)
                end
              else (b2, Ok (mkRsp status code len cseq h None, None))
          | (b2, Err e) => (b2, Err e)
          | (b2, Panic) => (b2, Panic)
          | (b2, Fuel) => (b2, Fuel)
          end
      | Err e => (b1, Err e)
      | Panic => (b1, Panic)
      | Fuel => (b1, Fuel)
      end
  | (b1, Err e) => (b1, Err e)
  | (b1, Panic) => (b1, Panic)
  | (b1, Fuel) => (b1, Fuel)
  end.

(* http.go:76-89  the header lines of an HTTP response *)
Fixpoint b_http_lines (fuel : nat) (b : reader) : reader * res unit :=
  match fuel with
  | O => (b, Fuel)
  | S f =>
      match b_read_line b with
      | (b', Ok l) =>
          let line := trim_space l in
          if beq line [] then (b', Ok tt)
          else match split2 58 line with
               | [k; v] => b_http_lines f b'
               | _ => (b', Err ErrMalformedResponse)
               end
      | (b', Err e) => (b', Err e)
      | (b', Panic) => (b', Panic)
      | (b', Fuel) => (b', Fuel)
      end
  end.

(* http.go:50-92  ReceiveHTTP *)
Definition b_receive_http (b : reader) : reader * res unit :=
  match b_read_line b with
  | (b1, Ok line) =>
      match status_line (bs "HTTP/1.0") line with
      | Ok _ => b_http_lines (S (coming b1)) b1
      | Err e => (b1, Err e)
      | Panic => (b1, Panic)
      | Fuel => (b1, Fuel)
      end
  | (b1, Err e) => (b1, Err e)
  | (b1, Panic) => (b1, Panic)
  | (b1, Fuel) => (b1, Fuel)
  end.

(* session.go:167-193  receive, with handleRtsp.  The incoming bytes are those of the reader; [w_in] is not looked at.
   The payload sent on Data is a copy (session.go:187); the body of a response is used before anything else is read. *)
Definition b_receive (w : world) (b : reader) : world * reader * res unit :=
  match b_peek 1 b with
  | (b0, Ok (off, _)) =>
      if nth off (b_buf b0) 0 =? 36 then                                  (* $ *)
        match b_discard 1 b0 with
        | (b0, Ok _) | (b0, Err _) =>
            match b_read_byte b0 with
            | (b1, Ok ch) =>
                match b_read_uint16 b1 with
                | (b2, Ok len) =>
                    match b_read_bytes len b2 with
                    | (b3, Ok s) => (note w (Delivered ch (sub (b_buf b3) (fst s) (snd s))), b3, Ok tt)
                    | (b3, Err e) => (w, b3, Err e)
                    | (b3, Panic) => (w, b3, Panic)
                    | (b3, Fuel) => (w, b3, Fuel)
                    end
                | (b2, Err e) => (w, b2, Err e)
                | (b2, Panic) => (w, b2, Panic)
                | (b2, Fuel) => (w, b2, Fuel)
                end
            | (b1, Err e) => (w, b1, Err e)
            | (b1, Panic) => (w, b1, Panic)
            | (b1, Fuel) => (w, b1, Fuel)
            end
        | (b0, Panic) => (w, b0, Panic)
        | (b0, Fuel) => (w, b0, Fuel)
        end
      else
        match b_unpack b0 with
        | (b1, Ok (r, _)) => let '(w', o) := handle_response w r in (w', b1, o)
        | (b1, Err e) => (w, b1, Err e)
        | (b1, Panic) => (w, b1, Panic)
        | (b1, Fuel) => (w, b1, Fuel)
        end
  | (b0, Err e) => (w, b0, Err e)
  | (b0, Panic) => (w, b0, Panic)
  | (b0, Fuel) => (w, b0, Fuel)
  end.

(* session.go:197-208  one turn of the loop of process *)
Definition b_turn (w : world) (b : reader) (t1 t2 : Z) : world * reader * turn_end :=
  let recv w := match b_receive w b with
                | (w, b, Ok _) => (w, b, Again)
                | (w, b, Err e) => (w, b, if is_timeout e then Again else Stop)
                | (w, b, Panic) | (w, b, Fuel) => (w, b, Crash)
                end in
  match keepalive w t1 t2 with
  | (w, Ok _) => recv w
  | (w, Err _) => if s_stage (w_s w) =? StageDone then (w, b, Stop) else recv w
  | (w, Panic) | (w, Fuel) => (w, b, Crash)
  end.

(* A history of the session over a reader: as M_session.step and run. *)
Definition b_step (st : world * reader * life) (e : event) : world * reader * life :=
  let '(w, b, l) := st in
  match l, e with
  | Dead, _ => st
  | _, App c => match do_cmd w c with
                | (w', Ok _) | (w', Err _) => (w', b, l)
                | (w', Panic) | (w', Fuel) => (w', b, Dead)
                end
  | Live, Turn t1 t2 => match b_turn w b t1 t2 with
                        | (w', b', Again) => (w', b', Live)
                        | (w', b', Stop) => (w', b', NoLoop)
                        | (w', b', Crash) => (w', b', Dead)
                        end
  | NoLoop, Turn _ _ => st
  end.
Definition b_run (st : world * reader * life) (es : list event) : world * reader * life := fold_left b_step es st.
