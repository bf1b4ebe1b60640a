(* Model of /repo/net/h264/packet.go *)
From Verif Require Import Base S_nal M_annexb.

(* packet.go:73-76  NALFragment *)
Record fragment := mkFrag { f_unit : nal_unit; f_flags : Z }.
(* packet.go:79-83  NALSink *)
Record sink := mkSink { s_units : list nal_unit; s_frags : list fragment; s_don : Z }.

(* packet.go:95-117  ZeroBit, RefIdc, Type, IsStart, IsEnd *)
Definition zero_bit (u : nal_unit) : bool := Z.land (u_header u) 128 =? 0.
Definition ref_idc (u : nal_unit) : Z := Z.shiftr (Z.land (u_header u) 96) 5.
Definition unit_type (u : nal_unit) : Z := Z.land (u_header u) 31.
Definition is_start (f : fragment) : bool := negb (Z.land (f_flags f) 128 =? 0).
Definition is_end (f : fragment) : bool := negb (Z.land (f_flags f) 64 =? 0).

(* packet.go:123-128  NewNALSink (capacities are not modelled) *)
Definition new_sink : sink := mkSink [] [] 0.

(* packet.go:133-155  AddFragment *)
Definition add_fragment (s : sink) (indicator header don ts : Z) (data : bytes) : sink :=
  let frags := if negb (Z.land header 128 =? 0) then [] else s_frags s in
  let frags := frags ++ [mkFrag (mkUnit indicator don ts data) header] in
  if negb (Z.land header 64 =? 0) then
    mkSink (s_units s ++ [mkUnit indicator don ts (flat_map (fun f => u_data (f_unit f)) frags)]) frags (s_don s)
  else mkSink (s_units s) frags (s_don s).

(* packet.go:165-176  loop of parseSTAP; size+2 is uint16 arithmetic.  Every iteration that does not
   return or panic consumes at least three bytes; fuel is len(buf). *)
Fixpoint stap_loop (fuel : nat) (s : sink) (buf : bytes) (ts : Z) : sink * res unit :=
  if zlen buf <? 2 then (s, Ok tt)
  else
    match fuel with
    | O => (s, Fuel)
    | S f =>
        match be_uint16 buf with
        | Ok size =>
            let n := u16 (size + 2) in
            if zlen buf <? n then (s, Err ErrPacketTooShort)
            else
              match index buf 2, slice buf 3 (Z.to_nat n), slice_from buf (Z.to_nat n) with
              | Ok h, Ok d, Ok rest =>
                  stap_loop f (mkSink (s_units s ++ [mkUnit h (s_don s) ts d]) (s_frags s) (u16 (s_don s + 1))) rest ts
              | _, _, _ => (s, Panic)
              end
        | _ => (s, Panic)
        end
    end.

(* packet.go:157-177  parseSTAP; [b] = (typ == typeStapB) *)
Definition parse_stap (s : sink) (b : bool) (buf : bytes) (ts : Z) : sink * res unit :=
  if b then
    if zlen buf <? 2 then (s, Err ErrPacketTooShort)
    else
      match be_uint16 buf, slice_from buf 2 with
      | Ok don, Ok rest => stap_loop (length rest) (mkSink (s_units s) (s_frags s) don) rest ts
      | _, _ => (s, Panic)
      end
  else stap_loop (length buf) s buf ts.

(* packet.go:189-206  loop of parseMTAP; [wide] = (typ == typeMtap24); off, size+off, off+1 are uint16.
   The 24-bit case computes ts<<8 + buf[5] as the source does. *)
Fixpoint mtap_loop (fuel : nat) (wide : bool) (s : sink) (buf : bytes) (ts : Z) : sink * res unit :=
  let off := if wide then 6 else 5 in
  if zlen buf <? off then (s, Ok tt)
  else
    match fuel with
    | O => (s, Fuel)
    | S f =>
        match be_uint16 buf, index buf 2, index buf 3, index buf 4, (if wide then index buf 5 else Ok 0) with
        | Ok size, Ok dond, Ok b3, Ok b4, Ok b5 =>
            let tsoff := if wide then u32 (u32 (Z.shiftl ts 8) + b5) else u32 (u32 (Z.shiftl b3 8) + b4) in
            let n := u16 (size + off) in
            if zlen buf <? n then (s, Err ErrPacketTooShort)
            else
              match index buf (Z.to_nat off), slice buf (Z.to_nat (off + 1)) (Z.to_nat n), slice_from buf (Z.to_nat n) with
              | Ok h, Ok d, Ok rest =>
                  mtap_loop f wide
                    (mkSink (s_units s ++ [mkUnit h (u16 (s_don s + dond)) (u32 (ts + tsoff)) d]) (s_frags s) (u16 (s_don s + 1)))
                    rest ts
              | _, _, _ => (s, Panic)
              end
        | _, _, _, _, _ => (s, Panic)
        end
    end.

(* packet.go:179-207  parseMTAP *)
Definition parse_mtap (s : sink) (wide : bool) (buf : bytes) (ts : Z) : sink * res unit :=
  if zlen buf <? 2 then (s, Err ErrPacketTooShort)
  else
    match be_uint16 buf, slice_from buf 2 with
    | Ok don, Ok rest => mtap_loop (length rest) wide (mkSink (s_units s) (s_frags s) don) rest ts
    | _, _ => (s, Panic)
    end.

(* packet.go:220-253  parseNAL *)
Definition parse_nal (s : sink) (buf : bytes) (ts : Z) : sink * res unit :=
  let s := mkSink [] (s_frags s) (s_don s) in
  match buf with
  | [] => (s, Err ErrPacketTooShort)
  | b0 :: rest =>
      let typ := Z.land b0 31 in
      if typ =? 24 then parse_stap s false rest ts
      else if typ =? 25 then parse_stap s true rest ts
      else if typ =? 26 then parse_mtap s false rest ts
      else if typ =? 27 then parse_mtap s true rest ts
      else if typ =? 28 then
        let nri := Z.land b0 96 in
        if zlen buf <? 2 then (s, Err ErrPacketTooShort)
        else match index buf 1, slice_from buf 2 with
             | Ok b1, Ok d => (add_fragment s (u8 (nri + Z.land b1 31)) b1 (s_don s) ts d, Ok tt)
             | _, _ => (s, Panic)
             end
      else if typ =? 29 then
        let nri := Z.land b0 96 in
        if zlen buf <? 4 then (s, Err ErrPacketTooShort)
        else match index buf 1, slice_from buf 2, slice_from buf 4 with
             | Ok b1, Ok t, Ok d =>
                 match be_uint16 t with
                 | Ok don => (add_fragment s (u8 (nri + Z.land b1 31)) b1 don ts d, Ok tt)
                 | _ => (s, Panic)
                 end
             | _, _, _ => (s, Panic)
             end
      else (mkSink (s_units s ++ [mkUnit b0 (s_don s) ts rest]) (s_frags s) (u16 (s_don s + 1)), Ok tt)
  end.

(* packet.go:212-216  loop of Push *)
Fixpoint push_nals (s : sink) (nals : list bytes) (ts : Z) : sink * res unit :=
  match nals with
  | [] => (s, Ok tt)
  | n :: r =>
      match parse_nal s n ts with
      | (s, Ok _) => push_nals s r ts
      | (s, o) => (s, o)
      end
  end.

(* packet.go:210-218  Push *)
Definition push (s : sink) (buf : bytes) (ts : Z) : sink * res unit :=
  match split_annexb buf with
  | Ok nals => push_nals s nals ts
  | Err e => (s, Err e)
  | Panic => (s, Panic)
  | Fuel => (s, Fuel)
  end.

(* packet.go:256-264  DonDiff; int is 64 bit, no overflow for 16-bit arguments *)
Definition don_diff (don1 don2 : Z) : Z :=
  let diff := don2 - don1 in
  if diff >=? 32768 then diff - 65536
  else if diff <=? -32768 then diff + 65536
  else diff.

(* Driver (not repository code): a sequence of Push calls. *)
Fixpoint push_all (s : sink) (ps : list (bytes * Z)) : sink * list (res unit) :=
  match ps with
  | [] => (s, [])
  | (p, ts) :: r => let '(s, o) := push s p ts in let '(s, os) := push_all s r in (s, o :: os)
  end.
