(* Parameter sets as the H.264 standard writes them: syntax (7.3.2.1.1, 7.3.2.1.1.1, 7.3.2.2) as bit strings, and
   picture dimensions (7.4.2.1.1).  Independent of the model of the parser. *)
From Verif Require Import Base S_bits.

Definition u_code (n : nat) (v : Z) : list bool := bin n v.      (* u(n) *)

(* ---- scaling matrices: one optional list of delta_scale values per list ---- *)
Definition scal := list (option (list Z)).
Definition scal_bits (s : scal) : list bool :=
  flat_map (fun o => match o with None => [false] | Some ds => true :: flat_map se_code ds end) s.
Definition list_size (i : nat) : nat := if (i <? 6)%nat then 16 else 64.

(* decoded list i: entries (zeros when absent) and "use default" *)
Definition scal_entries (i : nat) (o : option (list Z)) : list Z :=
  match o with
  | None => repeat 0 (list_size i)
  | Some ds => match scaling_list (list_size i) true ds 8 8 false with Some (l, _, _) => l | None => [] end
  end.
Definition scal_default (i : nat) (o : option (list Z)) : bool :=
  match o with
  | None => false
  | Some ds => match scaling_list (list_size i) true ds 8 8 false with Some (_, d, _) => d | None => false end
  end.
(* deltas in range and exactly as many as the syntax reads *)
Definition scal_ok1 (i : nat) (o : option (list Z)) : Prop :=
  match o with
  | None => True
  | Some ds => Forall (fun d => -128 <= d <= 127) ds /\
               exists l d, scaling_list (list_size i) true ds 8 8 false = Some (l, d, [])
  end.
Fixpoint scal_ok (i : nat) (s : scal) : Prop :=
  match s with [] => True | o :: r => scal_ok1 i o /\ scal_ok (S i) r end.

(* the array of 480 entries, the 12 flags and the presence mask that describe a matrix *)
Fixpoint scal_list_from (i : nat) (s : scal) : list Z :=
  match s with [] => [] | o :: r => scal_entries i o ++ scal_list_from (S i) r end.
Fixpoint scal_defaults_from (i : nat) (s : scal) : list bool :=
  match s with [] => [] | o :: r => scal_default i o :: scal_defaults_from (S i) r end.
Fixpoint scal_mask_from (i : nat) (s : scal) : Z :=
  match s with
  | [] => 0
  | o :: r => (match o with Some _ => 2 ^ Z.of_nat i | None => 0 end) + scal_mask_from (S i) r
  end.
Definition pad {A} (n : nat) (d : A) (l : list A) : list A := l ++ repeat d (n - length l).

(* ---- sequence parameter set ---- *)
Inductive poc_syn :=
| Poc0 (log2_max_lsb : Z)
| Poc1 (always0 : bool) (off_non_ref off_top_bottom : Z) (offs : list Z)
| Poc2.
(* chroma part of the high profiles *)
Record chroma_syn := mkChroma {
  c_idc : Z; c_sep : bool; c_luma8 : Z; c_chroma8 : Z; c_bypass : bool; c_matrix : option scal }.
Record sps_syn := mkSpsSyn {
  y_profile : Z; y_constraints : Z; y_level : Z; y_id : Z;
  y_chroma : option chroma_syn;            (* Some exactly for the high profiles *)
  y_log2_frame_num : Z; y_poc : poc_syn; y_ref_frames : Z; y_gaps : bool;
  y_width_mbs : Z; y_height_units : Z;
  y_field : option bool;                   (* None: frame_mbs_only_flag = 1; Some b: = 0, mb_adaptive flag b *)
  y_direct8 : bool; y_crop : option (Z * Z * Z * Z); y_vui : bool }.

Definition std_high_profiles : list Z := [100; 110; 122; 244; 44; 83; 86; 118; 128; 138; 139; 134; 135].

Definition chroma_bits (c : chroma_syn) : list bool :=
  ue_code (c_idc c) ++ (if c_idc c =? 3 then [c_sep c] else []) ++ ue_code (c_luma8 c) ++ ue_code (c_chroma8 c) ++
  [c_bypass c] ++ match c_matrix c with None => [false] | Some s => true :: scal_bits s end.
Definition poc_type (p : poc_syn) : Z := match p with Poc0 _ => 0 | Poc1 _ _ _ _ => 1 | Poc2 => 2 end.
Definition poc_bits (p : poc_syn) : list bool :=
  ue_code (poc_type p) ++
  match p with
  | Poc0 l => ue_code l
  | Poc1 a x y offs => [a] ++ se_code x ++ se_code y ++ ue_code (zlen offs) ++ flat_map se_code offs
  | Poc2 => []
  end.
Definition crop_bits (c : option (Z * Z * Z * Z)) : list bool :=
  match c with
  | None => [false]
  | Some (l, r, t, b) => true :: ue_code l ++ ue_code r ++ ue_code t ++ ue_code b
  end.
(* seq_parameter_set_data up to and including vui_parameters_present_flag *)
Definition sps_bits (y : sps_syn) : list bool :=
  u_code 8 (y_profile y) ++ u_code 8 (y_constraints y) ++ u_code 8 (y_level y) ++ ue_code (y_id y) ++
  match y_chroma y with Some c => chroma_bits c | None => [] end ++
  ue_code (y_log2_frame_num y) ++ poc_bits (y_poc y) ++ ue_code (y_ref_frames y) ++ [y_gaps y] ++
  ue_code (y_width_mbs y) ++ ue_code (y_height_units y) ++
  match y_field y with None => [true] | Some b => [false; b] end ++
  [y_direct8 y] ++ crop_bits (y_crop y) ++ [y_vui y].

(* effective values *)
Definition y_idc (y : sps_syn) : Z := match y_chroma y with Some c => c_idc c | None => 1 end.
Definition y_sep (y : sps_syn) : bool := match y_chroma y with Some c => (c_idc c =? 3) && c_sep c | None => false end.
Definition y_crops (y : sps_syn) : Z * Z * Z * Z := match y_crop y with Some c => c | None => (0, 0, 0, 0) end.

(* 6.2 Table 6-1 and 7.4.2.1.1 *)
Definition SubWidthC (idc : Z) : Z := if (idc =? 1) || (idc =? 2) then 2 else 1.
Definition SubHeightC (idc : Z) : Z := if idc =? 1 then 2 else 1.
Definition ChromaArrayType (y : sps_syn) : Z := if y_sep y then 0 else y_idc y.
Definition fmo (y : sps_syn) : Z := match y_field y with None => 1 | Some _ => 0 end.
Definition CropUnitX (y : sps_syn) : Z := if ChromaArrayType y =? 0 then 1 else SubWidthC (y_idc y).
Definition CropUnitY (y : sps_syn) : Z := (if ChromaArrayType y =? 0 then 1 else SubHeightC (y_idc y)) * (2 - fmo y).
Definition std_width (y : sps_syn) : Z :=
  let '(l, r, _, _) := y_crops y in (y_width_mbs y + 1) * 16 - CropUnitX y * (l + r).
Definition std_height (y : sps_syn) : Z :=
  let '(_, _, t, b) := y_crops y in (2 - fmo y) * ((y_height_units y + 1) * 16) - CropUnitY y * (t + b).

(* Legality: value ranges of 7.4.2.1.1 (a superset: ue values up to 2^16 where the standard says less). *)
Definition small (v : Z) : Prop := 0 <= v < 2 ^ 20.
Definition matrix_legal (n : nat) (m : option scal) : Prop :=
  match m with None => True | Some s => length s = n /\ scal_ok 0 s end.
Definition sps_legal (y : sps_syn) : Prop :=
  0 <= y_profile y < 256 /\ 0 <= y_constraints y < 256 /\ y_constraints y mod 4 = 0 (* reserved_zero_2bits *) /\
  0 <= y_level y < 256 /\ 0 <= y_id y <= 31 /\
  match y_chroma y with
  | Some c => In (y_profile y) std_high_profiles /\ 0 <= c_idc c <= 3 /\ 0 <= c_luma8 c <= 6 /\ 0 <= c_chroma8 c <= 6 /\
              matrix_legal (if c_idc c =? 3 then 12 else 8) (c_matrix c)
  | None => ~ In (y_profile y) std_high_profiles
  end /\
  0 <= y_log2_frame_num y <= 12 /\
  match y_poc y with
  | Poc0 l => 0 <= l <= 12
  | Poc1 _ x z offs => - 2 ^ 31 < x < 2 ^ 31 /\ - 2 ^ 31 < z < 2 ^ 31 /\ zlen offs <= 255 /\ Forall (fun o => - 2 ^ 31 < o < 2 ^ 31) offs
  | Poc2 => True
  end /\
  small (y_ref_frames y) /\ small (y_width_mbs y) /\ small (y_height_units y) /\
  match y_crop y with Some (l, r, t, b) => small l /\ small r /\ small t /\ small b | None => True end /\
  0 < std_width y /\ 0 < std_height y.

(* ---- picture parameter set ---- *)
Inductive groups_syn :=
| G1                                                    (* one slice group *)
| G0 (runs : list Z)                                    (* type 0 *)
| GDispersed (num : Z)                                  (* type 1: num_slice_groups_minus1 *)
| GRect (rects : list (Z * Z))                          (* type 2: (top_left, bottom_right) *)
| GChange (type num : Z) (dir : bool) (rate : Z)        (* types 3, 4, 5 *)
| GExplicit (num : Z) (ids : list Z).                   (* type 6 *)
Definition groups_num (g : groups_syn) : Z :=           (* num_slice_groups_minus1 *)
  match g with
  | G1 => 0 | G0 runs => zlen runs - 1 | GDispersed n => n | GRect rs => zlen rs
  | GChange _ n _ _ => n | GExplicit n _ => n
  end.
Definition groups_type (g : groups_syn) : Z :=
  match g with G1 => 0 | G0 _ => 0 | GDispersed _ => 1 | GRect _ => 2 | GChange t _ _ _ => t | GExplicit _ _ => 6 end.
Definition id_width (num : Z) : nat := Z.to_nat (Z.log2_up (num + 1)).
Definition groups_bits (g : groups_syn) : list bool :=
  ue_code (groups_num g) ++
  match g with
  | G1 => []
  | G0 runs => ue_code 0 ++ flat_map ue_code runs
  | GDispersed _ => ue_code 1
  | GRect rs => ue_code 2 ++ flat_map (fun r => ue_code (fst r) ++ ue_code (snd r)) rs
  | GChange t _ d rate => ue_code t ++ [d] ++ ue_code rate
  | GExplicit n ids => ue_code 6 ++ ue_code (zlen ids - 1) ++ flat_map (u_code (id_width n)) ids
  end.
Definition groups_legal (g : groups_syn) : Prop :=
  match g with
  | G1 => True
  | G0 runs => 2 <= zlen runs <= 8 /\ Forall small runs
  | GDispersed n => 1 <= n <= 7
  | GRect rs => 1 <= zlen rs <= 7 /\ Forall (fun r => small (fst r) /\ small (snd r)) rs
  | GChange t n _ rate => 3 <= t <= 5 /\ n = 1 /\ small rate
  | GExplicit n ids => 1 <= n <= 7 /\ 1 <= zlen ids < 2 ^ 20 /\ Forall (fun i => 0 <= i <= n) ids
  end.

(* transform_8x8_mode_flag, matrix, second_chroma_qp_index_offset *)
Record tail_syn := mkTail { t_8x8 : bool; t_matrix : option scal; t_second : Z }.
Record pps_syn := mkPpsSyn {
  z_id : Z; z_sps : Z; z_entropy : bool; z_bottom : bool; z_groups : groups_syn;
  z_l0 : Z; z_l1 : Z; z_weighted : bool; z_bipred : Z; z_qp : Z; z_qs : Z; z_chroma_qp : Z;
  z_deblock : bool; z_intra : bool; z_redundant : bool; z_tail : option tail_syn }.

Definition tail_bits (t : tail_syn) : list bool :=
  [t_8x8 t] ++ match t_matrix t with None => [false] | Some s => true :: scal_bits s end ++ se_code (t_second t).
Definition pps_bits (z : pps_syn) : list bool :=
  ue_code (z_id z) ++ ue_code (z_sps z) ++ [z_entropy z; z_bottom z] ++ groups_bits (z_groups z) ++
  ue_code (z_l0 z) ++ ue_code (z_l1 z) ++ [z_weighted z] ++ u_code 2 (z_bipred z) ++
  se_code (z_qp z) ++ se_code (z_qs z) ++ se_code (z_chroma_qp z) ++ [z_deblock z; z_intra z; z_redundant z] ++
  match z_tail z with Some t => tail_bits t | None => [] end.
(* rbsp_trailing_bits: a one and zeros to the end of the byte *)
Definition trailing (k : nat) : list bool := true :: repeat false k.

Definition tail_lists (chroma : Z) (t8 : bool) : nat := if t8 then (if chroma =? 3 then 12 else 8) else 6.
Definition pps_legal (chroma : Z) (z : pps_syn) : Prop :=
  0 <= z_id z <= 255 /\ 0 <= z_sps z <= 31 /\ groups_legal (z_groups z) /\
  0 <= z_l0 z <= 31 /\ 0 <= z_l1 z <= 31 /\ 0 <= z_bipred z <= 2 /\
  -62 <= z_qp z <= 25 /\ -26 <= z_qs z <= 25 /\ -12 <= z_chroma_qp z <= 12 /\
  match z_tail z with
  | None => True
  | Some t => -12 <= t_second t <= 12 /\ matrix_legal (tail_lists chroma (t_8x8 t)) (t_matrix t)
  end.

(* ---- inputs on which the fixed-size arrays overflow: decoded with the reader's abstract machine ---- *)
Fixpoint ues (n : nat) (u : list bool) : Prop :=        (* n Exp-Golomb values can be read *)
  match n with
  | O => True
  | S k => exists u' v, spec_ue u = (u', Ok v) /\ ues k u'
  end.
Definition groups_crash (num : Z) (u : list bool) : Prop :=      (* u: bits from slice_group_map_type on *)
  exists u' typ, spec_ue u = (u', Ok typ) /\
   ((typ = 0 /\ 8 <= num /\ ues 8 u') \/
    (typ = 2 /\ 8 < num /\ ues 16 u') \/
    (typ = 6 /\ exists u2, spec_ue u' = (u2, Ok (2 ^ 32 - 1)))).
Definition pps_crash (u : list bool) : Prop :=
  exists u1 id u2 sid b1 b2 u3 u4 num,
    spec_ue u = (u1, Ok id) /\ spec_ue u1 = (u2, Ok sid) /\ u2 = b1 :: b2 :: u3 /\ spec_ue u3 = (u4, Ok num) /\
    0 < num /\ groups_crash num u4.
