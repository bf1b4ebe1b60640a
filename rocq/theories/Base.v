(* Base vocabulary of the model: bytes, fixed-width integers, results, slices. *)
From Coq Require Export List ZArith Lia Bool Arith.
From Coq Require Import String Ascii.
Export ListNotations.
Open Scope Z_scope.

(* A Go byte is an integer; [byte_ok] is the range the type enforces. *)
Definition bytes := list Z.
Definition byte_ok (b : Z) : Prop := 0 <= b < 256.
Definition bytes_ok (l : bytes) : Prop := Forall byte_ok l.
Definition byte_okb (b : Z) : bool := (0 <=? b) && (b <? 256).
Definition bytes_okb (l : bytes) : bool := forallb byte_okb l.

(* Fixed-width wrap-around of Go integer types (Go spec, "Integer overflow"). *)
Definition u8 (z : Z) : Z := z mod 2 ^ 8.
Definition u16 (z : Z) : Z := z mod 2 ^ 16.
Definition u32 (z : Z) : Z := z mod 2 ^ 32.
Definition u64 (z : Z) : Z := z mod 2 ^ 64.
Definition i32 (z : Z) : Z := (z + 2 ^ 31) mod 2 ^ 32 - 2 ^ 31.
Definition i64 (z : Z) : Z := (z + 2 ^ 63) mod 2 ^ 64 - 2 ^ 63.

(* Error values the code distinguishes. *)
Inductive goerr : Type :=
| ErrUnexpectedEOF            (* io.ErrUnexpectedEOF *)
| ErrEOF                      (* io.EOF *)
| ErrTimeout                  (* a net.Error whose Timeout() is true *)
| ErrBufferFull               (* bufio.ErrBufferFull *)
| ErrMissingTrailingBits      (* net/h264/bits.go:9 *)
| ErrPacketTooShort           (* net/h264/packet.go:89, net/rtcp/packet.go:17 *)
| ErrInvalidVersion           (* net/rtp/packet.go:16, net/rtcp/packet.go:16 *)
| ErrAtoiSyntax               (* strconv.ErrSyntax *)
| ErrAtoiRange                (* strconv.ErrRange *)
| ErrAuthMalformedChallenge   (* net/rtsp/digest.go:15 *)
| ErrAuthNotImplemented       (* net/rtsp/digest.go:17 *)
| ErrMalformedTransport       (* net/rtsp/transport.go:19 *)
| ErrMalformedResponse        (* net/rtsp/definitions.go:128 *)
| ErrInvalidStatus            (* net/rtsp/definitions.go:129 *)
| ErrNotSupported             (* net/rtsp/definitions.go:130 *)
| ErrNoCredentials            (* net/rtsp/definitions.go:131 *)
| ErrBadResponse              (* net/rtsp/definitions.go:133 *)
| ErrNoConnection             (* net/rtsp/definitions.go:134 *)
| ErrListen                   (* any failure of net.ListenUDP / ResolveIPAddr *)
| ErrWrite.                   (* any failure of a socket write *)

(* Result of a Go call: normal return, error return, run-time panic, or
   (never in a theorem's conclusion) model fuel exhausted. *)
Inductive res (A : Type) : Type :=
| Ok (a : A)
| Err (e : goerr)
| Panic
| Fuel.
Arguments Ok {A} a.
Arguments Err {A} e.
Arguments Panic {A}.
Arguments Fuel {A}.

Definition bind {A B} (r : res A) (f : A -> res B) : res B :=
  match r with Ok a => f a | Err e => Err e | Panic => Panic | Fuel => Fuel end.
Notation "'let!' x ':=' r 'in' k" := (bind r (fun x => k))
  (at level 200, x name, r at level 100, k at level 200, right associativity).
Notation "'let!' ' p ':=' r 'in' k" := (bind r (fun p => k))
  (at level 200, p pattern, r at level 100, k at level 200, right associativity).

(* A call "returns" when it neither panics nor diverges. *)
Definition returns {A} (r : res A) : Prop :=
  match r with Ok _ | Err _ => True | Panic | Fuel => False end.

(* buf[i] *)
Definition index {A} (l : list A) (i : nat) : res A :=
  match nth_error l i with Some x => Ok x | None => Panic end.

(* buf[lo:hi]; bounds checked against len (capacity is taken equal to length). *)
Definition slice {A} (l : list A) (lo hi : nat) : res (list A) :=
  if (lo <=? hi)%nat && (hi <=? List.length l)%nat then Ok (firstn (hi - lo) (skipn lo l)) else Panic.

(* buf[lo:] *)
Definition slice_from {A} (l : list A) (lo : nat) : res (list A) :=
  if (lo <=? List.length l)%nat then Ok (skipn lo l) else Panic.

(* encoding/binary BigEndian.Uint16/Uint32/Uint64: panic when the slice is too short. *)
Fixpoint be_of (l : bytes) : Z :=          (* big-endian value of all bytes *)
  match l with
  | [] => 0
  | b :: r => b * 256 ^ Z.of_nat (List.length r) + be_of r
  end.
Definition be_uint (k : nat) (l : bytes) : res Z :=
  if (k <=? List.length l)%nat then Ok (be_of (firstn k l)) else Panic.
Definition be_uint16 := be_uint 2.
Definition be_uint32 := be_uint 4.
Definition be_uint64 := be_uint 8.

(* Big-endian writer (PutUint16 / PutUint32, and used by the specifications). *)
Fixpoint be_put (k : nat) (z : Z) : bytes :=
  match k with
  | O => []
  | S k' => (z / 256 ^ Z.of_nat k') mod 256 :: be_put k' z
  end.

(* String literals as byte lists. *)
Fixpoint bs (s : string) : bytes :=
  match s with
  | EmptyString => []
  | String c r => Z.of_nat (nat_of_ascii c) :: bs r
  end.

Arguments bs s%string_scope.

(* Equality of byte strings (Go ==). *)
Fixpoint beq (a b : bytes) : bool :=
  match a, b with
  | [], [] => true
  | x :: a', y :: b' => (x =? y) && beq a' b'
  | _, _ => false
  end.

Definition zlen {A} (l : list A) : Z := Z.of_nat (List.length l).

(* in-place assignment list[i] = x; identity when out of range (callers check) *)
Fixpoint upd {A} (l : list A) (i : nat) (x : A) : list A :=
  match l, i with
  | [], _ => []
  | _ :: r, O => x :: r
  | y :: r, S j => y :: upd r j x
  end.
