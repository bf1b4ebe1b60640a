(* Model of /repo/net/h264/packet.go with memory: slices are windows on arrays that several of them may share.
   Same control flow as M_nal; what differs is where the bytes and the units are.

   Simplifications: arrays are never reused after they become unreachable (garbage collection is not visible);
   an array made by append or make has an arbitrary number of spare elements, [slack] of the allocation;
   the arrays append makes on the way to the last one in AddFragment (packet.go:149-152) are not represented,
   as nothing keeps them.  Bounds of slice expressions are checked against the capacity, as in Go. *)
From Verif Require Import Base S_nal M_annexb M_nal.

(* a []byte *)
Record bslice := mkSl { sl_at : nat; sl_off : nat; sl_len : nat; sl_cap : nat }.
(* packet.go:61-66, 73-76  NALUnit, NALFragment *)
Record hunit := mkHU { hu_header : Z; hu_don : Z; hu_ts : Z; hu_data : bslice }.
Record hfrag := mkHF { hf_unit : hunit; hf_flags : Z }.
Definition nil_slice : bslice := mkSl 0 0 0 0.
Definition zero_unit : hunit := mkHU 0 0 0 nil_slice.
Definition zero_frag : hfrag := mkHF zero_unit 0.

(* The arrays, by order of allocation. *)
Record mem := mkMem { m_bytes : list bytes; m_units : list (list hunit); m_frags : list (list hfrag) }.
Definition set_bytes (m : mem) x := mkMem x (m_units m) (m_frags m).
Definition set_units (m : mem) x := mkMem (m_bytes m) x (m_frags m).
Definition set_frags (m : mem) x := mkMem (m_bytes m) (m_units m) x.

(* A []NALUnit or []NALFragment that starts at the first element of its array: the array and the length. *)
Definition lslice := (nat * nat)%type.
Definition elems {A} (arrs : list (list A)) (s : lslice) : list A := firstn (snd s) (nth (fst s) arrs []).

(* packet.go:79-83  NALSink *)
Record hsink := mkHS { k_units : lslice; k_frags : lslice; k_don : Z }.
Definition hstate := (mem * hsink)%type.

Definition set_nth {A} (i : nat) (x : A) (l : list A) : list A := firstn i l ++ x :: skipn (S i) l.

(* append(s, x) on a list of arrays *)
Definition append_to {A} (zero : A) (slack : nat -> nat) (arrs : list (list A)) (s : lslice) (x : A) : list (list A) * lslice :=
  let '(a, n) := s in
  let arr := nth a arrs [] in
  if (n <? length arr)%nat then (set_nth a (set_nth n x arr) arrs, (a, S n))
  else (arrs ++ [firstn n arr ++ x :: repeat zero (slack (length arrs))], (length arrs, S n)).
Definition add_unit (slack : nat -> nat) (st : hstate) (u : hunit) : hstate :=
  let '(m, k) := st in
  let '(arrs, s) := append_to zero_unit slack (m_units m) (k_units k) u in (set_units m arrs, mkHS s (k_frags k) (k_don k)).
Definition set_don (st : hstate) (d : Z) : hstate := let '(m, k) := st in (m, mkHS (k_units k) (k_frags k) d).

(* the bytes of a slice *)
Definition sl_read (m : mem) (s : bslice) : bytes := firstn (sl_len s) (skipn (sl_off s) (nth (sl_at s) (m_bytes m) [])).
(* a new array with these bytes *)
Definition alloc (slack : nat -> nat) (m : mem) (l : bytes) : mem * bslice :=
  let a := length (m_bytes m) in
  (set_bytes m (m_bytes m ++ [l ++ repeat 0 (slack a)]), mkSl a 0 (length l) (length l + slack a)).
(* s[lo:hi] and s[lo:] *)
Definition sl_sub (s : bslice) (lo hi : nat) : res bslice :=
  if (lo <=? hi)%nat && (hi <=? sl_cap s)%nat then Ok (mkSl (sl_at s) (sl_off s + lo) (hi - lo) (sl_cap s - lo)) else Panic.
Definition sl_from (s : bslice) (lo : nat) : res bslice := if (lo <=? sl_len s)%nat then sl_sub s lo (sl_len s) else Panic.
(* s[i], binary.BigEndian.Uint16(s) *)
Definition sl_index (m : mem) (s : bslice) (i : nat) : res Z := if (i <? sl_len s)%nat then index (nth (sl_at s) (m_bytes m) []) (sl_off s + i) else Panic.
Definition sl_uint16 (m : mem) (s : bslice) : res Z := be_uint16 (sl_read m s).

(* packet.go:123-128  NewNALSink *)
Definition h_new (m : mem) : hstate :=
  (mkMem (m_bytes m) (m_units m ++ [repeat zero_unit 20]) (m_frags m ++ [repeat zero_frag 20]),
   mkHS (length (m_units m), 0%nat) (length (m_frags m), 0%nat) 0).

(* packet.go:133-155  AddFragment *)
Definition h_add_fragment (slack : nat -> nat) (st : hstate) (indicator header don ts : Z) (data : bslice) : hstate :=
  let '(m, k) := st in
  let fs := if negb (Z.land header 128 =? 0) then (fst (k_frags k), 0%nat) else k_frags k in
  let '(arrs, fs) := append_to zero_frag slack (m_frags m) fs (mkHF (mkHU indicator don ts data) header) in
  let m := set_frags m arrs in
  let k := mkHS (k_units k) fs (k_don k) in
  if negb (Z.land header 64 =? 0) then
    let '(m, s) := alloc slack m (flat_map (fun f => sl_read m (hu_data (hf_unit f))) (elems arrs fs)) in
    add_unit slack (m, k) (mkHU indicator don ts s)
  else (m, k).

(* packet.go:165-176  loop of parseSTAP *)
Fixpoint h_stap_loop (slack : nat -> nat) (fuel : nat) (st : hstate) (buf : bslice) (ts : Z) : hstate * res unit :=
  if (sl_len buf <? 2)%nat then (st, Ok tt)
  else
    match fuel with
    | O => (st, Fuel)
    | S f =>
        match sl_uint16 (fst st) buf with
        | Ok size =>
            let n := u16 (size + 2) in
            if Z.of_nat (sl_len buf) <? n then (st, Err ErrPacketTooShort)
            else
              match sl_index (fst st) buf 2, sl_sub buf 3 (Z.to_nat n), sl_from buf (Z.to_nat n) with
              | Ok h, Ok d, Ok rest =>
                  let don := k_don (snd st) in
                  h_stap_loop slack f (set_don (add_unit slack st (mkHU h don ts d)) (u16 (don + 1))) rest ts
              | _, _, _ => (st, Panic)
              end
        | _ => (st, Panic)
        end
    end.

(* packet.go:157-177  parseSTAP *)
Definition h_parse_stap (slack : nat -> nat) (st : hstate) (b : bool) (buf : bslice) (ts : Z) : hstate * res unit :=
  if b then
    if (sl_len buf <? 2)%nat then (st, Err ErrPacketTooShort)
    else
      match sl_uint16 (fst st) buf, sl_from buf 2 with
      | Ok don, Ok rest => h_stap_loop slack (sl_len rest) (set_don st don) rest ts
      | _, _ => (st, Panic)
      end
  else h_stap_loop slack (sl_len buf) st buf ts.

(* packet.go:189-206  loop of parseMTAP *)
Fixpoint h_mtap_loop (slack : nat -> nat) (fuel : nat) (wide : bool) (st : hstate) (buf : bslice) (ts : Z) : hstate * res unit :=
  let off := if wide then 6 else 5 in
  if Z.of_nat (sl_len buf) <? off then (st, Ok tt)
  else
    match fuel with
    | O => (st, Fuel)
    | S f =>
        match sl_uint16 (fst st) buf, sl_index (fst st) buf 2, sl_index (fst st) buf 3, sl_index (fst st) buf 4, (if wide then sl_index (fst st) buf 5 else Ok 0) with
        | Ok size, Ok dond, Ok b3, Ok b4, Ok b5 =>
            let tsoff := if wide then u32 (u32 (Z.shiftl ts 8) + b5) else u32 (u32 (Z.shiftl b3 8) + b4) in
            let n := u16 (size + off) in
            if Z.of_nat (sl_len buf) <? n then (st, Err ErrPacketTooShort)
            else
              match sl_index (fst st) buf (Z.to_nat off), sl_sub buf (Z.to_nat (off + 1)) (Z.to_nat n), sl_from buf (Z.to_nat n) with
              | Ok h, Ok d, Ok rest =>
                  let don := k_don (snd st) in
                  h_mtap_loop slack f wide (set_don (add_unit slack st (mkHU h (u16 (don + dond)) (u32 (ts + tsoff)) d)) (u16 (don + 1))) rest ts
              | _, _, _ => (st, Panic)
              end
        | _, _, _, _, _ => (st, Panic)
        end
    end.

(* packet.go:179-207  parseMTAP *)
Definition h_parse_mtap (slack : nat -> nat) (st : hstate) (wide : bool) (buf : bslice) (ts : Z) : hstate * res unit :=
  if (sl_len buf <? 2)%nat then (st, Err ErrPacketTooShort)
  else
    match sl_uint16 (fst st) buf, sl_from buf 2 with
    | Ok don, Ok rest => h_mtap_loop slack (sl_len rest) wide (set_don st don) rest ts
    | _, _ => (st, Panic)
    end.

(* packet.go:220-253  parseNAL *)
Definition h_parse_nal (slack : nat -> nat) (st : hstate) (buf : bslice) (ts : Z) : hstate * res unit :=
  let st := (fst st, mkHS (fst (k_units (snd st)), 0%nat) (k_frags (snd st)) (k_don (snd st))) in
  if (sl_len buf <? 1)%nat then (st, Err ErrPacketTooShort)
  else
    match sl_index (fst st) buf 0, sl_from buf 1 with
    | Ok b0, Ok rest =>
        let typ := Z.land b0 31 in
        if typ =? 24 then h_parse_stap slack st false rest ts
        else if typ =? 25 then h_parse_stap slack st true rest ts
        else if typ =? 26 then h_parse_mtap slack st false rest ts
        else if typ =? 27 then h_parse_mtap slack st true rest ts
        else if typ =? 28 then
          let nri := Z.land b0 96 in
          if (sl_len buf <? 2)%nat then (st, Err ErrPacketTooShort)
          else match sl_index (fst st) buf 1, sl_from buf 2 with
               | Ok b1, Ok d => (h_add_fragment slack st (u8 (nri + Z.land b1 31)) b1 (k_don (snd st)) ts d, Ok tt)
               | _, _ => (st, Panic)
               end
        else if typ =? 29 then
          let nri := Z.land b0 96 in
          if (sl_len buf <? 4)%nat then (st, Err ErrPacketTooShort)
          else match sl_index (fst st) buf 1, sl_from buf 2, sl_from buf 4 with
               | Ok b1, Ok t, Ok d =>
                   match sl_uint16 (fst st) t with
                   | Ok don => (h_add_fragment slack st (u8 (nri + Z.land b1 31)) b1 don ts d, Ok tt)
                   | _ => (st, Panic)
                   end
               | _, _, _ => (st, Panic)
               end
        else
          let don := k_don (snd st) in
          (set_don (add_unit slack st (mkHU b0 don ts rest)) (u16 (don + 1)), Ok tt)
    | _, _ => (st, Panic)
    end.

(* packet.go:212-216  loop of Push *)
Fixpoint h_push_nals (slack : nat -> nat) (st : hstate) (nals : list bslice) (ts : Z) : hstate * res unit :=
  match nals with
  | [] => (st, Ok tt)
  | n :: r =>
      match h_parse_nal slack st n ts with
      | (st, Ok _) => h_push_nals slack st r ts
      | (st, o) => (st, o)
      end
  end.

(* annexb.go:7-32, 39  SplitAnnexB: every unit is built by EBSPToRaw in an array of its own *)
Fixpoint h_units (slack : nat -> nat) (m : mem) (l : list bytes) : mem * list bslice :=
  match l with
  | [] => (m, [])
  | x :: r => let '(m, s) := alloc slack m x in let '(m, ss) := h_units slack m r in (m, s :: ss)
  end.

(* packet.go:210-218  Push *)
Definition h_push (slack : nat -> nat) (st : hstate) (buf : bslice) (ts : Z) : hstate * res unit :=
  match split_annexb (sl_read (fst st) buf) with
  | Ok nals => let '(m, ss) := h_units slack (fst st) nals in h_push_nals slack (m, snd st) ss ts
  | Err e => (st, Err e)
  | Panic => (st, Panic)
  | Fuel => (st, Fuel)
  end.

(* ---- what the caller may do besides (not repository code) ---- *)
(* append(s, xs...) on a []byte *)
Definition sl_append (slack : nat -> nat) (m : mem) (s : bslice) (xs : bytes) : mem * bslice :=
  if (sl_len s + length xs <=? sl_cap s)%nat then
    let arr := nth (sl_at s) (m_bytes m) [] in
    let i := (sl_off s + sl_len s)%nat in
    (set_bytes m (set_nth (sl_at s) (firstn i arr ++ xs ++ skipn (i + length xs) arr) (m_bytes m)), mkSl (sl_at s) (sl_off s) (sl_len s + length xs) (sl_cap s))
  else alloc slack m (sl_read m s ++ xs).

(* a history: buffers of the caller's own are made and written to, and parts of them pushed *)
Inductive hop := Make (l : bytes) | Store (a i : nat) (x : Z) | Pushed (a off len : nat) (ts : Z).
(* the state, and the arrays the caller has made *)
Definition hstep (slack : nat -> nat) (c : hstate * list nat) (op : hop) : hstate * list nat :=
  let '(st, mine) := c in
  let m := fst st in
  match op with
  | Make l => let '(m, s) := alloc slack m l in ((m, snd st), sl_at s :: mine)
  | Store a i x => if existsb (Nat.eqb a) mine && (i <? length (nth a (m_bytes m) []))%nat then ((set_bytes m (set_nth a (set_nth i x (nth a (m_bytes m) [])) (m_bytes m)), snd st), mine) else c
  | Pushed a off len ts =>
      let size := length (nth a (m_bytes m) []) in
      if existsb (Nat.eqb a) mine && (off + len <=? size)%nat then (fst (h_push slack st (mkSl a off len (size - off)) ts), mine) else c
  end.
