(* Model of /repo/net/hls/playlist.go *)
From Coq Require Import String.
From Verif Require Import Base GoStrings.

(* playlist.go:20-24  Segment.  The float64 duration is carried as an opaque integer (its bit pattern). *)
Record segment := mkSeg { seg_dur : Z; seg_pos : Z; seg_len : Z }.
(* playlist.go:30-38  Playlist; FileName and SegSize are never read and are omitted *)
Record playlist := mkPl { pl_version : Z; pl_uri : bytes; pl_segs : list segment; pl_first : Z; pl_last : Z }.

(* playlist.go:42-58  NewPlaylist, given the URI it computes at lines 43-48 (M_dial.playlist_uri models that part, and its
   error branch).  A negative nseg makes make() panic; here nseg is a natural number. *)
Definition new_playlist (uri : bytes) (nseg : nat) : playlist :=
  mkPl 4 uri (repeat (mkSeg 0 0 0) nseg) (-1) (-1).

(* playlist.go:69-85  the loop of String; [fmt] is strconv.FormatFloat(_, 'f', -1, 64) on bit patterns.
   With Last in range the loop visits at most len(Segments) positions: fuel. *)
Fixpoint render_loop (fuel : nat) (fmt : Z -> bytes) (pl : playlist) (i : Z) : res bytes :=
  match fuel with
  | O => Fuel
  | S f =>
      if i <? 0 then Panic else
      let! seg := index (pl_segs pl) (Z.to_nat i) in
      let text := bs "#EXTINF:" ++ fmt (seg_dur seg) ++ [10] ++ bs "#EXT-X-BYTERANGE:" ++ itoa (seg_len seg)
                  ++ [64] ++ itoa (seg_pos seg) ++ [10] ++ pl_uri pl ++ [10] in
      if i =? pl_last pl then Ok text
      else let! t := render_loop f fmt pl ((i + 1) mod zlen (pl_segs pl)) in Ok (text ++ t)
  end.

(* playlist.go:61-89  String *)
Definition render (fmt : Z -> bytes) (pl : playlist) : res bytes :=
  let head := bs "#EXTM3U" ++ [10] ++ bs "#EXT-X-VERSION:" ++ itoa (pl_version pl) ++ [10] in
  let! body := (if pl_first pl >=? 0 then render_loop (S (List.length (pl_segs pl))) fmt pl (pl_first pl) else Ok []) in
  Ok (head ++ body ++ bs "#EXT-X-ENDLIST" ++ [10]).

(* playlist.go:93-107  AddSegment.  First and Last are ints bounded by len(Segments); % by a zero length panics. *)
Definition add_segment (pl : playlist) (dur len : Z) : res playlist :=
  let! pos := (if pl_last pl >=? 0 then
                 let! s := index (pl_segs pl) (Z.to_nat (pl_last pl)) in Ok (i64 (seg_pos s + seg_len s))
               else Ok 0) in
  if zlen (pl_segs pl) =? 0 then Panic else
  let last := (pl_last pl + 1) mod zlen (pl_segs pl) in
  let segs := upd (pl_segs pl) (Z.to_nat last) (mkSeg dur pos len) in
  let first := if pl_first pl =? last then pl_first pl + 1
               else if pl_first pl <? 0 then last else pl_first pl in
  Ok (mkPl (pl_version pl) (pl_uri pl) segs first last).

(* a history of AddSegment calls *)
Fixpoint add_all (pl : playlist) (h : list (Z * Z)) : res playlist :=
  match h with
  | [] => Ok pl
  | (d, l) :: r => let! pl := add_segment pl d l in add_all pl r
  end.
