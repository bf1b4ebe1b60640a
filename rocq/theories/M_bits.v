(* Model of /repo/net/h264/bits.go *)
From Verif Require Import Base S_bits.

(* bits.go:13-18  type BitReader *)
Record reader := mkReader { r_buf : bytes; r_count : Z; r_byten : Z; r_bitn : Z }.

(* bits.go:21-23  NewBitReader *)
Definition new_reader (buf : bytes) : reader := mkReader buf (u64 (zlen buf)) 0 0.

(* bits.go:26-28  Available; all fields are Go uint (64 bit), wrap-around written out *)
Definition available (r : reader) : Z :=
  u64 (u64 (u64 (r_count r - r_byten r) * 8) - r_bitn r).

(* buf[i] for a Go uint index *)
Definition index_z (l : bytes) (i : Z) : res Z :=
  if (0 <=? i) && (i <? zlen l) then index l (Z.to_nat i) else Panic.

(* bits.go:38-43  the byte-gathering loop of ReadBits.  n <= 32 and bits >= 0, so at most
   four iterations happen; the fuel given by [read_bits] is five. *)
Fixpoint gather (fuel : nat) (buf : bytes) (n byten val bits : Z) : res (Z * Z * Z) :=
  if n >? bits then
    match fuel with
    | O => Fuel
    | S f =>
        let byten := u64 (byten + 1) in
        let! b := index_z buf byten in
        gather f buf n byten (Z.lor (u32 (Z.shiftl val 8)) b) (u64 (bits + 8))
    end
  else Ok (byten, val, bits).

(* bits.go:32-48  ReadBits.  The mask (1<<n)-1 is computed in uint32. *)
Definition read_bits (r : reader) (n : Z) : reader * res Z :=
  if (n >? 32) || (n >? available r) then (r, Err ErrUnexpectedEOF)
  else
    match index_z (r_buf r) (r_byten r) with
    | Ok b0 =>
        match gather 5 (r_buf r) n (r_byten r) b0 (u64 (8 - r_bitn r)) with
        | Ok (byten, val, bits) =>
            let sh := u64 (bits - n) in
            (mkReader (r_buf r) (r_count r) byten (u64 (8 - sh)),
             Ok (Z.land (Z.shiftr val sh) (u32 (u32 (Z.shiftl 1 n) - 1))))
        | Err e => (r, Err e)
        | Panic => (r, Panic)
        | Fuel => (r, Fuel)
        end
    | Err e => (r, Err e)
    | Panic => (r, Panic)
    | Fuel => (r, Fuel)
    end.

(* bits.go:53-59  ReadByteBits *)
Definition read_byte_bits (r : reader) (n : Z) : reader * res Z :=
  let n := if n >? 8 then 8 else n in
  let '(r, v) := read_bits r n in
  (r, let! v := v in Ok (u8 v)).

(* bits.go:64-67  ReadFlag *)
Definition read_flag (r : reader) : reader * res bool :=
  let '(r, v) := read_bits r 1 in
  (r, let! v := v in Ok (negb (v =? 0))).

(* bits.go:73-79 (and 148-154)  count zero bits up to and including the first one bit.
   Every iteration consumes a bit; fuel is the number of available bits plus one. *)
Fixpoint count_zeroes (fuel : nat) (r : reader) (zeroes : Z) : reader * res Z :=
  match fuel with
  | O => (r, Fuel)
  | S f =>
      match read_bits r 1 with
      | (r, Ok v) => if v =? 0 then count_zeroes f r (u64 (zeroes + 1)) else (r, Ok zeroes)
      | (r, Err e) => (r, Err e)
      | (r, Panic) => (r, Panic)
      | (r, Fuel) => (r, Fuel)
      end
  end.

Definition bits_fuel (r : reader) : nat := S (Z.to_nat (available r)).

(* bits.go:71-87  ReadUnsignedGolomb *)
Definition read_ue (r : reader) : reader * res Z :=
  match count_zeroes (bits_fuel r) r 0 with
  | (r, Ok zeroes) =>
      let '(r, v) := read_bits r zeroes in
      (r, let! v := v in Ok (u32 (u32 (v + u32 (Z.shiftl 1 zeroes)) - 1)))
  | (r, Err e) => (r, Err e)
  | (r, Panic) => (r, Panic)
  | (r, Fuel) => (r, Fuel)
  end.

(* bits.go:96-99  mapping of a codeNum to a signed value, in int32/uint32 arithmetic *)
Definition se_of_ue (uval : Z) : Z :=
  if Z.land uval 1 =? 0 then i32 (- i32 (uval / 2)) else i32 (u32 (uval + 1) / 2).

(* bits.go:91-100  ReadSignedGolomb *)
Definition read_se (r : reader) : reader * res Z :=
  let '(r, v) := read_ue r in
  (r, let! v := v in Ok (se_of_ue v)).

(* bits.go:109-123  loop of ReadScalingList over list[j..]; [todo] entries remain.
   Returns the entries written so far (in order) together with the outcome: on error the Go
   code leaves the remaining entries of the caller's slice as they were. *)
Fixpoint scaling_loop (todo : nat) (first : bool) (r : reader) (lastS nextS : Z) (useDef : bool)
  : reader * list Z * res bool :=
  match todo with
  | O => (r, [], Ok useDef)
  | S t =>
      let '(r, st) :=
        if nextS =? 0 then (r, Ok (nextS, useDef))
        else
          let '(r, d) := read_se r in
          (r, let! delta := d in
              let nextS := Z.rem (i32 (i32 (lastS + delta) + 256)) 256 in
              Ok (nextS, first && (nextS =? 0))) in
      match st with
      | Ok (nextS, useDef) =>
          let e := if nextS =? 0 then lastS else nextS in
          let '(r, l, o) := scaling_loop t false r e nextS useDef in
          (r, e :: l, o)
      | Err e => (r, [], Err e)
      | Panic => (r, [], Panic)
      | Fuel => (r, [], Fuel)
      end
  end.

(* bits.go:105-125  ReadScalingList on a slice of length [len] *)
Definition read_scaling_list (r : reader) (len : nat) : reader * list Z * res bool :=
  scaling_loop len true r 8 8 false.

(* bits.go:134-138  loop of SkipBits *)
Fixpoint skip_gather (fuel : nat) (n byten bits : Z) : res (Z * Z) :=
  if n >? bits then
    match fuel with
    | O => Fuel
    | S f => skip_gather f n (u64 (byten + 1)) (u64 (bits + 8))
    end
  else Ok (byten, bits).

(* bits.go:129-141  SkipBits *)
Definition skip_bits (r : reader) (n : Z) : reader * res unit :=
  if (n >? 32) || (n >? available r) then (r, Err ErrUnexpectedEOF)
  else
    match skip_gather 5 n (r_byten r) (u64 (8 - r_bitn r)) with
    | Ok (byten, bits) =>
        (mkReader (r_buf r) (r_count r) byten (u64 (8 - u64 (bits - n))), Ok tt)
    | Err e => (r, Err e)
    | Panic => (r, Panic)
    | Fuel => (r, Fuel)
    end.

(* bits.go:145-157  SkipGolomb *)
Definition skip_ue (r : reader) : reader * res unit :=
  match count_zeroes (bits_fuel r) r 0 with
  | (r, Ok zeroes) => skip_bits r zeroes
  | (r, Err e) => (r, Err e)
  | (r, Panic) => (r, Panic)
  | (r, Fuel) => (r, Fuel)
  end.

(* bits.go:166-171  alignment loop of SkipTrailingBits; at most seven iterations *)
Fixpoint align_loop (fuel : nat) (r : reader) : reader * res unit :=
  if negb (r_bitn r =? 0) && negb (r_bitn r =? 8) then
    match fuel with
    | O => (r, Fuel)
    | S f =>
        match read_bits r 1 with
        | (r, Ok v) => if v =? 0 then align_loop f r else (r, Err ErrMissingTrailingBits)
        | (r, Err _) => (r, Err ErrMissingTrailingBits)
        | (r, Panic) => (r, Panic)
        | (r, Fuel) => (r, Fuel)
        end
    end
  else (r, Ok tt).

(* bits.go:161-173  SkipTrailingBits *)
Definition skip_trailing_bits (r : reader) : reader * res unit :=
  match read_bits r 1 with
  | (r, Ok v) => if v =? 0 then (r, Err ErrMissingTrailingBits) else align_loop 8 r
  | (r, Err _) => (r, Err ErrMissingTrailingBits)
  | (r, Panic) => (r, Panic)
  | (r, Fuel) => (r, Fuel)
  end.

(* bits.go:178-186  loop of ReadPayloadParam; every iteration consumes eight bits *)
Fixpoint payload_loop (fuel : nat) (r : reader) (val : Z) : reader * res Z :=
  match fuel with
  | O => (r, Fuel)
  | S f =>
      match read_bits r 8 with
      | (r, Ok v) =>
          let val := u32 (val + v) in
          if v =? 255 then payload_loop f r val else (r, Ok val)
      | (r, Err e) => (r, Err e)
      | (r, Panic) => (r, Panic)
      | (r, Fuel) => (r, Fuel)
      end
  end.

(* bits.go:176-187  ReadPayloadParam *)
Definition read_payload_param (r : reader) : reader * res Z := payload_loop (bits_fuel r) r 0.

(* Driver (not repository code): one API call, and a history of API calls. *)
Definition exec_op (r : reader) (o : rop) : reader * rout :=
  match o with
  | OpRead n => let '(r, v) := read_bits r n in (r, OutZ v)
  | OpReadByte n => let '(r, v) := read_byte_bits r n in (r, OutZ v)
  | OpFlag => let '(r, v) := read_flag r in (r, OutB v)
  | OpUE => let '(r, v) := read_ue r in (r, OutZ v)
  | OpSE => let '(r, v) := read_se r in (r, OutZ v)
  | OpScaling len => let '(r, l, v) := read_scaling_list r len in (r, OutL l v)
  | OpSkip n => let '(r, v) := skip_bits r n in (r, OutU v)
  | OpSkipUE => let '(r, v) := skip_ue r in (r, OutU v)
  | OpTrailing => let '(r, v) := skip_trailing_bits r in (r, OutU v)
  | OpPayload => let '(r, v) := read_payload_param r in (r, OutZ v)
  end.

Fixpoint exec_ops (r : reader) (os : list rop) : reader * list rout :=
  match os with
  | [] => (r, [])
  | o :: os => let '(r, x) := exec_op r o in let '(r, xs) := exec_ops r os in (r, x :: xs)
  end.

(* A reader obtained from NewBitReader(buf) by some sequence of calls. *)
Definition reached (buf : bytes) (r : reader) : Prop :=
  exists os, Forall rop_ok os /\ fst (exec_ops (new_reader buf) os) = r.
