(* Model of a Playlist that one goroutine adds segments to while another one renders it.  playlist.go has no lock: AddSegment
   (playlist.go:93-107) works on the fields through a pointer, String (playlist.go:61-89) has a value receiver, so its caller copies the
   fields First and Last, but the array behind Segments stays shared.
   Memory is sequentially consistent here: every single load and store of a word is one step, and the steps of the two goroutines are
   interleaved in any way.  Go promises less for racing accesses, so what fails here fails for Go; what is proved about overlapping calls
   is proved for machines that do not reorder. *)
From Coq Require Import String.
From Verif Require Import Base GoStrings M_hls.

(* the fields of the Playlist in memory, and the local variable pos of AddSegment *)
Record wst := mkWst { w_pl : playlist; w_pos : Z }.

(* playlist.go:93-107  the stores of AddSegment, in order; WPos is the computation of the local pos *)
Inductive wop := WPos | WLast | WDur (d : Z) | WPosition | WLen (l : Z) | WFirst.
Definition ops (e : Z * Z) : list wop := [WPos; WLast; WDur (fst e); WPosition; WLen (snd e); WFirst].

Definition slot (pl : playlist) (i : Z) : segment := nth (Z.to_nat i) (pl_segs pl) (mkSeg 0 0 0).
Definition set_slot (pl : playlist) (i : Z) (s : segment) : playlist :=
  mkPl (pl_version pl) (pl_uri pl) (upd (pl_segs pl) (Z.to_nat i) s) (pl_first pl) (pl_last pl).

(* One store.  Last stays an index of Segments as long as there is a segment at all (the modulus at playlist.go:98 panics otherwise,
   C40_no_segments), so the accesses at lines 96 and 99-101 do not panic and a plain lookup will do. *)
Definition wstep (s : wst) (o : wop) : wst :=
  let pl := w_pl s in
  match o with
  | WPos => (* playlist.go:94-97 *)
      mkWst pl (if pl_last pl >=? 0 then i64 (seg_pos (slot pl (pl_last pl)) + seg_len (slot pl (pl_last pl))) else 0)
  | WLast => (* playlist.go:98 *)
      mkWst (mkPl (pl_version pl) (pl_uri pl) (pl_segs pl) (pl_first pl) ((pl_last pl + 1) mod zlen (pl_segs pl))) (w_pos s)
  | WDur d => (* playlist.go:99 *)
      let g := slot pl (pl_last pl) in mkWst (set_slot pl (pl_last pl) (mkSeg d (seg_pos g) (seg_len g))) (w_pos s)
  | WPosition => (* playlist.go:100 *)
      let g := slot pl (pl_last pl) in mkWst (set_slot pl (pl_last pl) (mkSeg (seg_dur g) (w_pos s) (seg_len g))) (w_pos s)
  | WLen l => (* playlist.go:101 *)
      let g := slot pl (pl_last pl) in mkWst (set_slot pl (pl_last pl) (mkSeg (seg_dur g) (seg_pos g) l)) (w_pos s)
  | WFirst => (* playlist.go:102-106 *)
      let first := if pl_first pl =? pl_last pl then pl_first pl + 1
                   else if pl_first pl <? 0 then pl_last pl else pl_first pl in
      mkWst (mkPl (pl_version pl) (pl_uri pl) (pl_segs pl) first (pl_last pl)) (w_pos s)
  end.

(* what is in memory after the first t steps of a goroutine that makes the calls h *)
Definition moment (k : nat) (uri : bytes) (h : list (Z * Z)) (t : nat) : playlist :=
  w_pl (fold_left wstep (firstn t (flat_map ops h)) (mkWst (new_playlist uri k) 0)).

(* playlist.go:69-85  the loop of String, load number n of which happens when the other goroutine has made clock n steps; seg is copied
   word by word (line 70), last is the copy of Last in the receiver *)
Fixpoint read_loop (fuel : nat) (fmt : Z -> bytes) (see : nat -> playlist) (clock : nat -> nat) (n : nat) (last i : Z) : res bytes :=
  match fuel with
  | O => Fuel
  | S f =>
      if i <? 0 then Panic else
      let! a := index (pl_segs (see (clock n))) (Z.to_nat i) in
      let! b := index (pl_segs (see (clock (n + 1)%nat))) (Z.to_nat i) in
      let! c := index (pl_segs (see (clock (n + 2)%nat))) (Z.to_nat i) in
      let text := bs "#EXTINF:" ++ fmt (seg_dur a) ++ [10] ++ bs "#EXT-X-BYTERANGE:" ++ itoa (seg_len c)
                  ++ [64] ++ itoa (seg_pos b) ++ [10] ++ pl_uri (see O) ++ [10] in
      if i =? last then Ok text
      else let! t := read_loop f fmt see clock (n + 3) last ((i + 1) mod zlen (pl_segs (see O))) in Ok (text ++ t)
  end.

(* playlist.go:61-89  String: the receiver is copied, First before Last (their order in memory, playlist.go:36-37), then the loop.
   Version, URI and the length of Segments never change. *)
Definition read_text (fmt : Z -> bytes) (see : nat -> playlist) (clock : nat -> nat) : res bytes :=
  let head := bs "#EXTM3U" ++ [10] ++ bs "#EXT-X-VERSION:" ++ itoa (pl_version (see O)) ++ [10] in
  let first := pl_first (see (clock 0%nat)) in
  let last := pl_last (see (clock 1%nat)) in
  let! body := (if first >=? 0 then read_loop (S (List.length (pl_segs (see O)))) fmt see clock 2 last first else Ok []) in
  Ok (head ++ body ++ bs "#EXT-X-ENDLIST" ++ [10]).
