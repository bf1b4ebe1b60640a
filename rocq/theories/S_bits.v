(* Specification of the bit reader: an abstract machine whose whole state is the list of unread
   bits.  Nothing here refers to the model of the Go code. *)
From Verif Require Import Base.

(* The bits of a byte, most significant first, and of a buffer. *)
Definition byte_bits (b : Z) : list bool := map (Z.testbit b) [7; 6; 5; 4; 3; 2; 1; 0].
Definition bits_of (buf : bytes) : list bool := flat_map byte_bits buf.

(* Value of a bit string read as a big-endian binary number. *)
Definition bval (l : list bool) : Z := fold_left (fun a b => 2 * a + Z.b2z b) l 0.

(* The n-bit big-endian binary representation of z. *)
Fixpoint bin (n : nat) (z : Z) : list bool :=
  match n with
  | O => []
  | S k => Z.testbit z (Z.of_nat k) :: bin k z
  end.

(* H.264 9.1: the Exp-Golomb codeword of codeNum v: z zeros, then the z+1 bits of v+1. *)
Definition ue_code (v : Z) : list bool :=
  let z := Z.to_nat (Z.log2 (v + 1)) in
  repeat false z ++ bin (S z) (v + 1).

(* H.264 9.1.1: codeNum of a signed value. *)
Definition se_num (v : Z) : Z := if v >? 0 then 2 * v - 1 else -2 * v.
Definition se_code (v : Z) : list bool := ue_code (se_num v).

(* Width of the uint32 accumulator that survives when [rest] unread bits remain after a read:
   the unread bits of the byte last loaded occupy the low end of the accumulator. *)
Definition acc_width (rest : list bool) : Z := 32 - zlen rest mod 8.

(* ReadBits on the list of unread bits, exactly: the requested bits, of which only the low
   [acc_width] survive.  [ideal_read] is the same without that loss. *)
Definition spec_read (n : Z) (u : list bool) : list bool * res Z :=
  if (n >? 32) || (n >? zlen u) then (u, Err ErrUnexpectedEOF)
  else let rest := skipn (Z.to_nat n) u in
       (rest, Ok (bval (firstn (Z.to_nat n) u) mod 2 ^ acc_width rest)).

Definition ideal_read (n : Z) (u : list bool) : list bool * res Z :=
  if (n >? 32) || (n >? zlen u) then (u, Err ErrUnexpectedEOF)
  else (skipn (Z.to_nat n) u, Ok (bval (firstn (Z.to_nat n) u))).

(* Leading zeros up to the first one bit: Some (count, bits after the one). *)
Fixpoint spec_zeroes (u : list bool) : option (nat * list bool) :=
  match u with
  | [] => None
  | true :: r => Some (O, r)
  | false :: r => match spec_zeroes r with Some (k, r') => Some (S k, r') | None => None end
  end.

Definition spec_ue (u : list bool) : list bool * res Z :=
  match spec_zeroes u with
  | None => ([], Err ErrUnexpectedEOF)
  | Some (z, r) =>
      match spec_read (Z.of_nat z) r with
      | (r', Ok v) => (r', Ok ((v + 2 ^ Z.of_nat z - 1) mod 2 ^ 32))
      | (r', Err e) => (r', Err e)
      | (r', Panic) => (r', Panic)
      | (r', Fuel) => (r', Fuel)
      end
  end.

Definition signed_of (k : Z) : Z :=      (* H.264 Table 9-3: (-1)^(k+1) Ceil(k/2) *)
  if Z.even k then - (k / 2) else (k + 1) / 2.

Definition spec_se (u : list bool) : list bool * res Z :=
  match spec_ue u with
  | (r, Ok k) => (r, Ok (if k =? 2 ^ 32 - 1 then 0 else signed_of k))
  | (r, o) => (r, o)
  end.

Definition spec_skip (n : Z) (u : list bool) : list bool * res unit :=
  if (n >? 32) || (n >? zlen u) then (u, Err ErrUnexpectedEOF)
  else (skipn (Z.to_nat n) u, Ok tt).

Definition spec_skip_ue (u : list bool) : list bool * res unit :=
  match spec_zeroes u with
  | None => ([], Err ErrUnexpectedEOF)
  | Some (z, r) => spec_skip (Z.of_nat z) r
  end.

(* H.264 7.3.2.1.1.1 scaling_list(), from the sequence of delta_scale values. None when deltas run out.
   Result: the list, whether the default matrix is signalled, unused deltas. *)
Fixpoint scaling_list (n : nat) (first : bool) (deltas : list Z) (lastS nextS : Z) (useDef : bool)
  : option (list Z * bool * list Z) :=
  match n with
  | O => Some ([], useDef, deltas)
  | S m =>
      let st :=
        if nextS =? 0 then Some (nextS, useDef, deltas)
        else match deltas with
             | [] => None
             | d :: ds => let nx := (lastS + d + 256) mod 256 in
                          Some (nx, first && (nx =? 0), ds)
             end in
      match st with
      | None => None
      | Some (nx, ud, ds) =>
          let e := if nx =? 0 then lastS else nx in
          match scaling_list m false ds e nx ud with
          | None => None
          | Some (l, ud', ds') => Some (e :: l, ud', ds')
          end
      end
  end.

(* The remaining operations on the list of unread bits. *)
Definition spec_read_byte (n : Z) (u : list bool) : list bool * res Z := spec_read (Z.min n 8) u.

Definition spec_flag (u : list bool) : list bool * res bool :=
  match u with
  | [] => ([], Err ErrUnexpectedEOF)
  | b :: r => (r, Ok b)
  end.

(* scaling_list() read directly from the bits; on error the entries produced so far *)
Fixpoint spec_scaling (n : nat) (first : bool) (u : list bool) (lastS nextS : Z) (useDef : bool)
  : list bool * list Z * res bool :=
  match n with
  | O => (u, [], Ok useDef)
  | S m =>
      if nextS =? 0 then
        let '(u', l, o) := spec_scaling m false u lastS nextS useDef in (u', lastS :: l, o)
      else
        match spec_se u with
        | (u, Ok d) =>
            let nx := Z.rem (i32 (lastS + d + 256)) 256 in
            let e := if nx =? 0 then lastS else nx in
            let '(u', l, o) := spec_scaling m false u e nx (first && (nx =? 0)) in (u', e :: l, o)
        | (u, Err e) => (u, [], Err e)
        | (u, Panic) => (u, [], Panic)
        | (u, Fuel) => (u, [], Fuel)
        end
  end.

(* rbsp_trailing_bits up to the next byte boundary: the bits left in the current byte are 1 0 ... 0.
   On failure reading stops after the first wrong bit. *)
Fixpoint skip_zeros (k : nat) (u : list bool) : list bool * bool :=
  match k, u with
  | S k', false :: r => skip_zeros k' r
  | S k', true :: r => (r, false)
  | _, _ => (u, true)
  end.

Definition spec_trailing (u : list bool) : list bool * res unit :=
  match u with
  | [] => ([], Err ErrMissingTrailingBits)
  | false :: r => (r, Err ErrMissingTrailingBits)
  | true :: r =>
      let '(r', good) := skip_zeros (Z.to_nat (zlen r mod 8)) r in
      (r', if good then Ok tt else Err ErrMissingTrailingBits)
  end.

Fixpoint spec_payload (fuel : nat) (u : list bool) (acc : Z) : list bool * res Z :=
  match fuel with
  | O => (u, Fuel)
  | S f =>
      if zlen u <? 8 then (u, Err ErrUnexpectedEOF)
      else let v := bval (firstn 8 u) in
           if v =? 255 then spec_payload f (skipn 8 u) (acc + 255) else (skipn 8 u, Ok ((acc + v) mod 2 ^ 32))
  end.

(* Operations of the reader, for statements about arbitrary histories. *)
Inductive rop : Type :=
| OpRead (n : Z) | OpReadByte (n : Z) | OpFlag | OpUE | OpSE | OpScaling (len : nat)
| OpSkip (n : Z) | OpSkipUE | OpTrailing | OpPayload.

(* Go arguments are unsigned. *)
Definition rop_ok (o : rop) : Prop :=
  match o with OpRead n | OpReadByte n | OpSkip n => 0 <= n < 2 ^ 64 | _ => True end.

(* What an operation returns. *)
Inductive rout : Type :=
| OutZ (v : res Z) | OutB (v : res bool) | OutU (v : res unit) | OutL (l : list Z) (v : res bool).

(* The abstract machine: state = unread bits. *)
Definition spec_op (u : list bool) (o : rop) : list bool * rout :=
  match o with
  | OpRead n => let '(u, v) := spec_read n u in (u, OutZ v)
  | OpReadByte n => let '(u, v) := spec_read_byte n u in (u, OutZ v)
  | OpFlag => let '(u, v) := spec_flag u in (u, OutB v)
  | OpUE => let '(u, v) := spec_ue u in (u, OutZ v)
  | OpSE => let '(u, v) := spec_se u in (u, OutZ v)
  | OpScaling len => let '(u, l, v) := spec_scaling len true u 8 8 false in (u, OutL l v)
  | OpSkip n => let '(u, v) := spec_skip n u in (u, OutU v)
  | OpSkipUE => let '(u, v) := spec_skip_ue u in (u, OutU v)
  | OpTrailing => let '(u, v) := spec_trailing u in (u, OutU v)
  | OpPayload => let '(u, v) := spec_payload (S (length u)) u 0 in (u, OutZ v)
  end.

Fixpoint spec_ops (u : list bool) (os : list rop) : list bool * list rout :=
  match os with
  | [] => (u, [])
  | o :: os => let '(u, x) := spec_op u o in let '(u, xs) := spec_ops u os in (u, x :: xs)
  end.

(* The bits of [buf] not yet read when Available() reports [avail]. *)
Definition rest_bits (buf : bytes) (avail : Z) : list bool :=
  skipn (8 * length buf - Z.to_nat avail) (bits_of buf).

(* An outcome other than a crash (Fuel is the model's own artefact, excluded as well). *)
Definition rout_good (o : rout) : Prop :=
  match o with
  | OutZ v => v <> Panic /\ v <> Fuel
  | OutB v => v <> Panic /\ v <> Fuel
  | OutU v => v <> Panic /\ v <> Fuel
  | OutL _ v => v <> Panic /\ v <> Fuel
  end.

(* Buffers a 64-bit Go program can hold. *)
Definition buf_ok (buf : bytes) : Prop := bytes_ok buf /\ zlen buf < 2 ^ 60.
