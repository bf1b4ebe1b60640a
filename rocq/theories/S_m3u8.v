(* Specification: what a player makes of a media playlist (RFC 8216). *)
From Coq Require Import String.
From Verif Require Import Base GoStrings.

(* the lines of a text; what follows the last line feed is a line unless it is empty *)
Fixpoint lines_from (cur : bytes) (t : bytes) : list bytes :=
  match t with
  | [] => match cur with [] => [] | _ => [rev cur] end
  | c :: r => if c =? 10 then rev cur :: lines_from [] r else lines_from (c :: cur) r
  end.
Definition lines (t : bytes) : list bytes := lines_from [] t.

Fixpoint after_prefix (p s : bytes) : option bytes :=
  match p, s with
  | [], _ => Some s
  | a :: p', b :: s' => if a =? b then after_prefix p' s' else None
  | _ :: _, [] => None
  end.
Fixpoint before (c : Z) (s : bytes) : bytes :=
  match s with [] => [] | x :: r => if x =? c then [] else x :: before c r end.
Fixpoint behind (c : Z) (s : bytes) : option bytes :=
  match s with [] => None | x :: r => if x =? c then Some r else behind c r end.
(* a decimal integer (4.2): digits only *)
Definition decimal (s : bytes) : option Z :=
  match s with
  | [] => None
  | _ => if forallb (fun c => (48 <=? c) && (c <=? 57)) s then Some (fold_left (fun a c => a * 10 + (c - 48)) s 0) else None
  end.

(* a segment as a player sees it: media sequence number, text of the duration, byte range (length, offset), URI *)
Record heard := mkHeard { g_no : Z; g_dur : bytes; g_range : option (Z * Z); g_uri : bytes }.
(* a playlist read so far: number of the first segment, segments, EXT-X-ENDLIST seen, tags waiting for a URI *)
Record m3u8 := mkM3u8 { u_first : Z; u_segs : list heard; u_end : bool; u_dur : option bytes; u_range : option (Z * Z) }.

(* one line (4.1).  A player that is lenient about the comma EXTINF requires takes the whole text as the duration. *)
Definition read_line (p : m3u8) (l : bytes) : option m3u8 :=
  match after_prefix (bs "#EXTINF:") l with
  | Some v => Some (mkM3u8 (u_first p) (u_segs p) (u_end p) (Some (before 44 v)) (u_range p))
  | None =>
  match after_prefix (bs "#EXT-X-BYTERANGE:") l with
  | Some v =>                                                                (* 4.3.2.2, with the offset given *)
      match decimal (before 64 v), match behind 64 v with Some o => decimal o | None => None end with
      | Some n, Some o => Some (mkM3u8 (u_first p) (u_segs p) (u_end p) (u_dur p) (Some (n, o)))
      | _, _ => None
      end
  | None =>
  match after_prefix (bs "#EXT-X-MEDIA-SEQUENCE:") l with
  | Some v => match decimal v with Some n => Some (mkM3u8 n (u_segs p) (u_end p) (u_dur p) (u_range p)) | None => None end
  | None =>
  if beq l (bs "#EXT-X-ENDLIST") then Some (mkM3u8 (u_first p) (u_segs p) true (u_dur p) (u_range p))
  else match l with
       | [] => Some p
       | c :: _ =>
           if c =? 35 then Some p                                            (* other tags and comments *)
           else match u_dur p with
                | Some d => Some (mkM3u8 (u_first p) (u_segs p ++ [mkHeard (u_first p + Z.of_nat (List.length (u_segs p))) d (u_range p) l])
                                         (u_end p) None None)
                | None => None
                end
       end
  end end end.
Fixpoint read_lines (p : m3u8) (ls : list bytes) : option m3u8 :=
  match ls with [] => Some p | l :: r => match read_line p l with Some p => read_lines p r | None => None end end.
(* a playlist starts with EXTM3U; without EXT-X-MEDIA-SEQUENCE the first segment has the number 0 (4.3.3.2) *)
Definition read_playlist (t : bytes) : option m3u8 :=
  match lines t with
  | l :: r => if beq l (bs "#EXTM3U") then read_lines (mkM3u8 0 [] false None None) r else None
  | [] => None
  end.

(* what a media playlist must have besides: a target duration (4.3.3.1), and a comma after the duration of a segment (4.3.2.1) *)
Definition has_target (t : bytes) : Prop := exists l v, In l (lines t) /\ after_prefix (bs "#EXT-X-TARGETDURATION:") l = Some v.
Definition has_commas (t : bytes) : Prop := forall l v, In l (lines t) -> after_prefix (bs "#EXTINF:") l = Some v -> In 44 v.

(* a player that loads the playlist again and again plays what has a higher number than all it has played (6.3.3, 6.3.5);
   one that heeds EXT-X-ENDLIST does not load again after seeing it (4.3.3.4) *)
Fixpoint follow (heeds : bool) (last : Z) (loads : list m3u8) : list heard :=
  match loads with
  | [] => []
  | p :: r =>
      let new := filter (fun g => last <? g_no g) (u_segs p) in
      new ++ (if heeds && u_end p then [] else follow heeds (fold_left Z.max (map g_no new) last) r)
  end.

(* the text of a duration has neither a line feed nor a comma (true of FormatFloat); the URI is a line, neither empty nor a comment *)
Definition duration_ok (fmt : Z -> bytes) : Prop := forall d, ~ In 10 (fmt d) /\ ~ In 44 (fmt d).
Definition uri_line (uri : bytes) : Prop := ~ In 10 uri /\ exists c r, uri = c :: r /\ c <> 35.
(* segment j of a history as a player that has it under the number i sees it *)
Definition as_heard (fmt : Z -> bytes) (uri : bytes) (h : list (Z * Z)) (i j : nat) : heard :=
  let '(d, l) := nth j h (0, 0) in
  mkHeard (Z.of_nat i) (fmt d) (Some (l, fold_right (fun e a => snd e + a) 0 (firstn j h))) uri.
