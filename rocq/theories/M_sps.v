(* Model of /repo/net/h264/spspps.go *)
From Verif Require Import Base M_bits.

(* Reading steps: "if x, err = br.Read...(); err != nil { return }" is the bind of this monad. *)
Definition rd (A : Type) : Type := reader -> reader * res A.
Definition rret {A} (a : A) : rd A := fun r => (r, Ok a).
Definition rbind {A B} (m : rd A) (f : A -> rd B) : rd B := fun r =>
  match m r with
  | (r, Ok a) => f a r
  | (r, Err e) => (r, Err e)
  | (r, Panic) => (r, Panic)
  | (r, Fuel) => (r, Fuel)
  end.
Notation "x <- m ;; k" := (rbind m (fun x => k)) (at level 61, m at next level, right associativity).
Notation "' p <- m ;; k" := (rbind m (fun p => k)) (at level 61, p pattern, m at next level, right associativity).
Definition rpanic {A} : rd A := fun r => (r, Panic).

(* the read calls of bits.go as steps *)
Definition RByte (n : Z) : rd Z := fun r => read_byte_bits r n.
Definition RFlag : rd bool := read_flag.
Definition RUe : rd Z := read_ue.
Definition RSe : rd Z := read_se.
Definition RAvail : rd Z := fun r => (r, Ok (available r)).
(* ReadScalingList on a slice of the given length: entries and flag *)
Definition RScaling (len : nat) : rd (list Z * bool) := fun r =>
  let '(r, l, o) := read_scaling_list r len in
  match o with
  | Ok b => (r, Ok (l, b))
  | Err e => (r, Err e)
  | Panic => (r, Panic)
  | Fuel => (r, Fuel)
  end.

(* "if c { ... }" around reads; [d] is the zero value left in the field otherwise *)
Definition rwhen {A} (c : bool) (d : A) (m : rd A) : rd A := if c then m else rret d.

(* writing l into arr[off:off+len(l)]; the slice expression panics out of range *)
Definition put_slice {A} (arr : list A) (off : nat) (l : list A) : res (list A) :=
  if (off + length l <=? length arr)%nat then Ok (firstn off arr ++ l ++ skipn (off + length l) arr) else Panic.

(* scaling matrix part of SPSInfo / PPSInfo: present mask, list array [480]int32, default flags [12]bool *)
Record matrix := mkMatrix { mx_present : Z; mx_list : list Z; mx_default : list bool }.
Definition matrix0 : matrix := mkMatrix 0 (repeat 0 480) (repeat false 12).

(* spspps.go:145-165 and 376-401  loop over the scaling lists; [todo] lists remain, the next one is i *)
Fixpoint scaling_lists (todo : nat) (i off size : nat) (m : matrix) : rd matrix :=
  match todo with
  | O => rret m
  | S t =>
      present <- RFlag ;;
      m <- (if present then
              '(l, d) <- RScaling size ;;
              (fun r => match put_slice (mx_list m) off l, put_slice (mx_default m) i [d] with
                        | Ok ls, Ok ds => (r, Ok (mkMatrix (Z.lor (mx_present m) (u32 (Z.shiftl 1 (Z.of_nat i)))) ls ds))
                        | _, _ => (r, Panic)
                        end)
            else rret m) ;;
      scaling_lists t (S i) (off + size) (if (5 <=? i)%nat then 64 else size) m
  end.

(* spspps.go:10-46  SPSInfo (field order kept) *)
Record sps_info := mkSps {
  sps_profile_idc : Z; sps_constraint_set : Z; sps_level_idc : Z; sps_id : Z;
  sps_chroma_format_idc : Z; sps_separate_color_plane : bool; sps_bit_depth_luma : Z; sps_bit_depth_chroma : Z;
  sps_zero_transform_bypass : bool; sps_scaling_matrix_present : bool; sps_matrix : matrix;
  sps_log2_max_frame_num : Z; sps_pic_order_cnt_type : Z; sps_log2_max_pic_order_cnt : Z;
  sps_delta_pic_order_always0 : bool; sps_offset_for_non_ref_pic : Z; sps_offset_for_top_to_bottom : Z;
  sps_num_ref_frames_in_cycle : Z; sps_max_num_ref_frames : Z; sps_gaps_allowed : bool;
  sps_pic_width_in_mbs_minus1 : Z; sps_pic_height_in_map_units_minus1 : Z; sps_frame_mbs_only : Z;
  sps_mb_adaptive : bool; sps_direct_8x8 : bool; sps_frame_cropping : bool;
  sps_crop_left : Z; sps_crop_right : Z; sps_crop_top : Z; sps_crop_bottom : Z;
  sps_vui_present : bool; sps_width : Z; sps_height : Z }.

(* spspps.go:190-194  loop reading n signed values that are dropped.  Every read consumes a bit or fails,
   so the number of unread bits plus one bounds the iterations. *)
Fixpoint skip_se_loop (fuel : nat) (n : Z) : rd unit :=
  if n <=? 0 then rret tt
  else match fuel with
       | O => fun r => (r, Fuel)
       | S f => _ <- RSe ;; skip_se_loop f (n - 1)
       end.
Definition skip_se (n : Z) : rd unit := fun r => skip_se_loop (bits_fuel r) n r.

(* spspps.go:121-123  profiles that carry the chroma/bit-depth/scaling part *)
Definition high_profile (p : Z) : bool :=
  existsb (Z.eqb p) [100; 110; 122; 244; 44; 83; 86; 118; 128; 138].

(* spspps.go:107-109, 124-166  chroma/bit-depth/scaling part:
   chroma_format_idc, separate_color_plane, bit depths, bypass, matrix flag, matrix *)
Definition parse_sps_chroma (profile : Z) : rd (Z * bool * Z * Z * bool * bool * matrix) :=
  if high_profile profile then
    chroma <- RUe ;;
    sep <- rwhen (chroma =? 3) false RFlag ;;
    bdl <- RUe ;;
    bdc <- RUe ;;
    bypass <- RFlag ;;
    mp <- RFlag ;;
    m <- rwhen mp matrix0 (scaling_lists (if chroma =? 3 then 12 else 8) 0 0 16 matrix0) ;;
    rret (chroma, sep, bdl, bdc, bypass, mp, m)
  else rret (if profile =? 183 then 0 else 1, false, 0, 0, false, false, matrix0).

(* spspps.go:173-195  picture order count part: log2_max_poc, always0, offsets, cycle length *)
Definition parse_sps_poc (poc_type : Z) : rd (Z * bool * Z * Z * Z) :=
  if poc_type =? 0 then l <- RUe ;; rret (l, false, 0, 0, 0)
  else
    a0 <- RFlag ;;
    onr <- RSe ;;
    otb <- RSe ;;
    n <- RUe ;;
    _ <- skip_se n ;;
    rret (0, a0, onr, otb, n).

(* spspps.go:225-238  crop offsets *)
Definition parse_sps_crop (crop : bool) : rd (Z * Z * Z * Z) :=
  if crop then
    cl <- RUe ;; cr <- RUe ;; ct <- RUe ;; cb <- RUe ;; rret (cl, cr, ct, cb)
  else rret (0, 0, 0, 0).

(* spspps.go:242-263  dimensions, all in uint32 arithmetic.  Division binds like multiplication, left to right. *)
Definition sub_width_c (chroma : Z) (sep : bool) : Z :=
  if negb sep && ((chroma =? 1) || (chroma =? 2)) then 2 else 1.
Definition sub_height_c (chroma : Z) (sep : bool) : Z :=
  if negb sep && (chroma =? 1) then 2 else 1.
Definition sps_dims (chroma : Z) (sep : bool) (wmbs hmap fmo cl cr ct cb : Z) : Z * Z :=
  let w := u32 (u32 (wmbs + 1) * 16) in
  let h := u32 (u32 (u32 (2 - fmo) * u32 (hmap + 1)) * 16) / sub_height_c chroma sep in
  let ux := sub_width_c chroma sep in
  let uy := u32 (u32 (2 - fmo) * sub_height_c chroma sep) in
  (u32 (w - u32 (u32 (cl + cr) * ux)), u32 (h - u32 (u32 (ct + cb) * uy))).

(* spspps.go:101-263  ParseSPS up to the store; the result is the SPSInfo built *)
Definition parse_sps_body : rd sps_info :=
  profile <- RByte 8 ;;
  constraint <- RByte 8 ;;
  level <- RByte 8 ;;
  id <- RUe ;;
  '(chroma, sep, bdl, bdc, bypass, mp, m) <- parse_sps_chroma profile ;;
  lfn <- RUe ;;
  poct <- RUe ;;
  '(lpoc, a0, onr, otb, ncyc) <- parse_sps_poc poct ;;
  mnrf <- RUe ;;
  gaps <- RFlag ;;
  wmbs <- RUe ;;
  hmap <- RUe ;;
  fmo <- RUe ;;
  let fmo := if negb (Z.land constraint 2 =? 0) && ((profile =? 77) || (profile =? 88) || (profile =? 100)) then 1 else fmo in
  mbaff <- rwhen (negb (fmo =? 0)) false RFlag ;;
  d8 <- RFlag ;;
  crop <- RFlag ;;
  '(cl, cr, ct, cb) <- parse_sps_crop crop ;;
  vui <- RFlag ;;
  let '(w, h) := sps_dims chroma sep wmbs hmap fmo cl cr ct cb in
  rret (mkSps profile constraint level id chroma sep bdl bdc bypass mp m lfn poct lpoc a0 onr otb ncyc
              mnrf gaps wmbs hmap fmo mbaff d8 crop cl cr ct cb vui w h).

(* spspps.go:49-79  PPSInfo (field order kept) *)
Record pps_info := mkPps {
  pps_id : Z; pps_sps_id : Z; pps_entropy_coding_mode : bool; pps_bottom_field_pic_order : bool;
  pps_num_slice_groups_minus1 : Z; pps_slice_group_map_type : Z; pps_run_length_minus1 : list Z;
  pps_top_left : list Z; pps_bottom_right : list Z; pps_change_direction : bool; pps_change_rate_minus1 : Z;
  pps_pic_size_in_map_units_minus1 : Z; pps_slice_group_id : list Z;
  pps_num_ref_idx_l0 : Z; pps_num_ref_idx_l1 : Z; pps_weighted_pred : bool; pps_weighted_bipred_idc : Z;
  pps_init_qp : Z; pps_init_qs : Z; pps_chroma_qp_offset : Z; pps_deblocking_control : bool;
  pps_constrained_intra : bool; pps_redundant_pic_cnt : bool; pps_transform_8x8 : bool;
  pps_scaling_matrix_present : bool; pps_matrix : matrix; pps_second_chroma_qp_offset : Z }.

(* ParameterSets (spspps.go:82-85): two maps keyed by uint32 *)
Record store := mkStore { st_sps : Z -> option sps_info; st_pps : Z -> option pps_info }.
(* spspps.go:90-95  NewParameterSets *)
Definition new_store : store := mkStore (fun _ => None) (fun _ => None).
Definition map_set {A} (m : Z -> option A) (k : Z) (v : A) : Z -> option A := fun i => if i =? k then Some v else m i.

(* arr[i] = x on a fixed-size array *)
Definition put_index (arr : list Z) (i : Z) (x : Z) : res (list Z) :=
  if (0 <=? i) && (i <? zlen arr) then Ok (upd arr (Z.to_nat i) x) else Panic.

(* "arr[i], err = read()": the store happens, and panics, before err is looked at (Go spec, Assignments) *)
Definition read_into (arr : list Z) (i : Z) (m : rd Z) : rd (list Z) := fun r =>
  match m r with
  | (r, Ok x) => (r, put_index arr i x)
  | (r, Err e) => match put_index arr i 0 with Ok _ => (r, Err e) | _ => (r, Panic) end
  | (r, Panic) => (r, Panic)
  | (r, Fuel) => (r, Fuel)
  end.

(* spspps.go:300-304  run lengths, i = [i..num]; each iteration consumes a bit, fails or panics *)
Fixpoint run_lengths (fuel : nat) (i num : Z) (arr : list Z) : rd (list Z) :=
  if i <=? num then
    match fuel with
    | O => fun r => (r, Fuel)
    | S f => arr <- read_into arr i RUe ;; run_lengths f (i + 1) num arr
    end
  else rret arr.

(* spspps.go:307-314  rectangles *)
Fixpoint rectangles (fuel : nat) (i num : Z) (tl br : list Z) : rd (list Z * list Z) :=
  if i <? num then
    match fuel with
    | O => fun r => (r, Fuel)
    | S f => tl <- read_into tl i RUe ;; br <- read_into br i RUe ;; rectangles f (i + 1) num tl br
    end
  else rret (tl, br).

(* spspps.go:332-336  slice group ids: n entries remain; the slice has room exactly when pic size + 1 did not
   wrap (checked by the caller).  The entries read are returned in order. *)
Fixpoint group_ids (fuel : nat) (n bits : Z) : rd (list Z) :=
  if n <=? 0 then rret []
  else match fuel with
       | O => fun r => (r, Fuel)
       | S f => x <- RByte bits ;; l <- group_ids f (n - 1) bits ;; rret (x :: l)
       end.

(* spspps.go:331  uint(math.Ceil(math.Log2(float64(num + 1)))).  Exact for 1 <= num+1 < 2^32: float64 represents
   num+1 exactly and Log2 of a non-power of two in this range differs from an integer by more than its rounding
   error.  For num+1 = 0 (uint32 wrap) the conversion of -Inf is implementation-specific; amd64 yields 2^63. *)
Definition group_bits (num : Z) : Z :=
  let k := u32 (num + 1) in if k =? 0 then 2 ^ 63 else Z.log2_up k.

(* spspps.go:294-338  slice group part: type, run lengths, rectangles, direction, rate, pic size, ids.
   Cases 3 and 4 are empty in the Go switch.  The allocation of pic size + 1 bytes is taken to succeed. *)
Definition slice_groups (num : Z) : rd (Z * list Z * list Z * list Z * bool * Z * Z * list Z) :=
  let z8 := repeat 0 8 in
  if num >? 0 then
    typ <- RUe ;;
    if typ =? 0 then
      (rl <- (fun r => run_lengths (bits_fuel r) 0 num z8 r) ;; rret (typ, rl, z8, z8, false, 0, 0, []))
    else if typ =? 2 then
      ('(tl, br) <- (fun r => rectangles (bits_fuel r) 0 num z8 z8 r) ;; rret (typ, z8, tl, br, false, 0, 0, []))
    else if typ =? 5 then
      (dir <- RFlag ;; rate <- RUe ;; rret (typ, z8, z8, z8, dir, rate, 0, []))
    else if typ =? 6 then
      (ps <- RUe ;;
       if u32 (ps + 1) =? 0 then rpanic
       else ids <- (fun r => group_ids (bits_fuel r) (ps + 1) (group_bits num) r) ;;
            rret (typ, z8, z8, z8, false, 0, ps, ids))
    else rret (typ, z8, z8, z8, false, 0, 0, [])
  else rret (0, z8, z8, z8, false, 0, 0, []).

(* spspps.go:369-405  optional tail, read while bits are available *)
Definition pps_tail (chroma : Z) : rd (bool * bool * matrix * Z) :=
  avail <- RAvail ;;
  if avail >? 0 then
    t8 <- RFlag ;;
    mp <- RFlag ;;
    m <- rwhen mp matrix0 (scaling_lists (if t8 then (if chroma =? 3 then 12 else 8) else 6) 0 0 16 matrix0) ;;
    sc <- RSe ;;
    rret (t8, mp, m, sc)
  else rret (false, false, matrix0, 0).

(* spspps.go:272-405  ParsePPS up to the store; [spset] is consulted for the chroma format (default 3) *)
Definition parse_pps_body (spset : Z -> option sps_info) : rd pps_info :=
  id <- RUe ;;
  sid <- RUe ;;
  let chroma := match spset sid with Some s => sps_chroma_format_idc s | None => 3 end in
  ecm <- RFlag ;;
  bf <- RFlag ;;
  num <- RUe ;;
  '(typ, rl, tl, br, dir, rate, ps, ids) <- slice_groups num ;;
  l0 <- RUe ;;
  l1 <- RUe ;;
  wp <- RFlag ;;
  wb <- RByte 2 ;;
  qp <- RSe ;;
  qs <- RSe ;;
  cq <- RSe ;;
  db <- RFlag ;;
  ci <- RFlag ;;
  rp <- RFlag ;;
  '(t8, mp, m, sc) <- pps_tail chroma ;;
  rret (mkPps id sid ecm bf num typ rl tl br dir rate ps ids l0 l1 wp wb qp qs cq db ci rp t8 mp m sc).

(* spspps.go:101-266  ParseSPS *)
Definition parse_sps (s : store) (buf : bytes) : store * res unit :=
  match parse_sps_body (new_reader buf) with
  | (_, Ok sps) => (mkStore (map_set (st_sps s) (sps_id sps) sps) (st_pps s), Ok tt)
  | (_, Err e) => (s, Err e)
  | (_, Panic) => (s, Panic)
  | (_, Fuel) => (s, Fuel)
  end.

(* spspps.go:272-408  ParsePPS *)
Definition parse_pps (s : store) (buf : bytes) : store * res unit :=
  match parse_pps_body (st_sps s) (new_reader buf) with
  | (_, Ok pps) => (mkStore (st_sps s) (map_set (st_pps s) (pps_id pps) pps), Ok tt)
  | (_, Err e) => (s, Err e)
  | (_, Panic) => (s, Panic)
  | (_, Fuel) => (s, Fuel)
  end.

(* spspps.go:412-423  ParseSprop; nil and empty buffers are the same here *)
Definition parse_sprop (s : store) (buf : bytes) : store * res unit :=
  match buf with
  | [] => (s, Ok tt)
  | b :: r =>
      let typ := Z.land b 31 in
      if typ =? 7 then parse_sps s r
      else if typ =? 8 then parse_pps s r
      else (s, Ok tt)
  end.

(* spspps.go:426-435  GetSPS, GetPPS (None = not ok) *)
Definition get_sps (s : store) (id : Z) : option sps_info := st_sps s id.
Definition get_pps (s : store) (id : Z) : option pps_info := st_pps s id.

(* Driver (not repository code): a history of ParseSprop calls. *)
Fixpoint sprops (s : store) (bufs : list bytes) : store * list (res unit) :=
  match bufs with
  | [] => (s, [])
  | b :: r => let '(s, o) := parse_sprop s b in let '(s, os) := sprops s r in (s, o :: os)
  end.
