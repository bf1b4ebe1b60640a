(* Property C117: parameter sets in the form they are sent in. *)
From Verif Require Import Base S_annexb S_bits S_sps S_nal M_nal M_sps S_spsrel L_base L_annexb L_bits L_nal L_sps L_spsdec L_sprop P_nal P_sps.
From Coq Require Import ZifyBool ZifyNat.

(* Full statement: a parameter set sent out of band as a NAL unit (header, then the bytes of the set with the escapes of the standard,
   RFC 6184 8.1) is stored with its values.  It holds if no escape is needed up to the byte of the last bit that is read... *)
Theorem C117_sps_partial : forall s h y raw a b rest,
  nal_type h = 7 -> 0 < h -> bytes_ok raw -> raw = a ++ b ->
  bits_of raw = sps_bits y ++ rest -> (length (sps_bits y) <= 8 * length a)%nat -> (forall x, 0 <= x <= 3 -> ~ contains [0; 0; x] a) ->
  sps_legal y -> profile_known (y_profile y) -> poc_readable (y_poc y) -> y_field y = None -> buf_ok (encapsulate (h :: raw)) ->
  snd (parse_sprop s (encapsulate (h :: raw))) = Ok tt /\
  exists i, get_sps (fst (parse_sprop s (encapsulate (h :: raw)))) (y_id y) = Some i /\ sps_matches y i.
Proof.
  intros s h y raw a b rest T Hh B R E L Q Ly Py Ry Fy K.
  destruct (sent_bits h raw a b _ _ Hh B R E L Q) as (sent & more & S1 & S2). rewrite S1 in *.
  assert (K' : buf_ok sent). { destruct K as (K1 & K2). apply Forall_cons_iff in K1. unfold buf_ok, zlen in *. cbn [length] in K2. split; [tauto|lia]. }
  destruct (C26_sps_fields_partial s y more sent Ly Py Ry Fy K' S2) as (P & i & G & M & _).
  unfold parse_sprop. change 31 with (Z.ones 5). rewrite Z.land_ones by lia. change (2 ^ 5) with 32. unfold nal_type in T. rewrite T. cbn [Z.eqb Pos.eqb]. split; [exact P|]. exists i. split; assumption.
Qed.
Print Assumptions C117_sps_partial.

Theorem C117_pps_partial : forall s h z t raw a b rest,
  nal_type h = 8 -> 0 < h -> bytes_ok raw -> raw = a ++ b ->
  bits_of raw = pps_bits z ++ rest -> (length (pps_bits z) <= 8 * length a)%nat -> (forall x, 0 <= x <= 3 -> ~ contains [0; 0; x] a) ->
  z_tail z = Some t -> pps_legal (pps_chroma s z) z -> groups_readable (z_groups z) -> buf_ok (encapsulate (h :: raw)) ->
  snd (parse_sprop s (encapsulate (h :: raw))) = Ok tt /\
  exists i, get_pps (fst (parse_sprop s (encapsulate (h :: raw)))) (z_id z) = Some i /\ pps_matches z i.
Proof.
  intros s h z t raw a b rest T Hh B R E L Q Tz Lz Gz K.
  destruct (sent_bits h raw a b _ _ Hh B R E L Q) as (sent & more & S1 & S2). rewrite S1 in *.
  assert (K' : buf_ok sent). { destruct K as (K1 & K2). apply Forall_cons_iff in K1. unfold buf_ok, zlen in *. cbn [length] in K2. split; [tauto|lia]. }
  destruct (C29_pps_fields_partial s z t more sent Tz Lz Gz K' S2) as (P & i & G & M).
  unfold parse_sprop. change 31 with (Z.ones 5). rewrite Z.land_ones by lia. change (2 ^ 5) with 32. unfold nal_type in T. rewrite T. cbn [Z.eqb Pos.eqb]. split; [exact P|]. exists i. split; assumption.
Qed.
Print Assumptions C117_pps_partial.

(* ...and always for one that comes in band: the sink takes the escapes out, and the bytes of its unit are those of the set. *)
Theorem C117_in_band_partial : forall k s h y raw ts rest,
  don_ok k -> nal_type h = 7 -> byte_ok h -> buf_ok raw -> rbsp_legal (h :: raw) -> bits_of raw = sps_bits y ++ rest ->
  sps_legal y -> profile_known (y_profile y) -> poc_readable (y_poc y) -> y_field y = None ->
  exists u i, s_units (fst (push k (encapsulate (h :: raw)) ts)) = [u] /\ nal_type (u_header u) = 7 /\
    snd (parse_sps s (u_data u)) = Ok tt /\ get_sps (fst (parse_sps s (u_data u))) (y_id y) = Some i /\ sps_matches y i.
Proof.
  intros k s h y raw ts rest D T Bh Br Lr E Ly Py Ry Fy.
  rewrite (C15_single k h raw ts D Bh (proj1 Br) Lr) by (left; lia).
  destruct (C26_sps_fields_partial s y rest raw Ly Py Ry Fy Br E) as (P & i & G & M & _).
  eexists; exists i. splits; try reflexivity; assumption.
Qed.
Print Assumptions C117_in_band_partial.

(* False otherwise: the two sets below are legal, with no bit of theirs at fault; sent out of band, the first is stored as pictures of
   16 x 2147483600 instead of 176 x 144, the second is refused, which ends a session that is offered it. *)
Definition escaped_sps (x z : Z) : sps_syn := mkSpsSyn 66 192 30 0 None 0 (Poc1 false x z []) 1 false 10 8 None true None false.
Theorem C117_sps_refuted :
  let y1 := escaped_sps 32768 128 in let raw1 := [66; 192; 30; 208; 0; 2; 0; 0; 1; 0; 160; 177; 57] in
  let y2 := escaped_sps 16384 256 in let raw2 := [66; 192; 30; 208; 0; 4; 0; 0; 2; 0; 160; 177; 57] in
  Forall (fun y => sps_legal y /\ profile_known (y_profile y) /\ poc_readable (y_poc y) /\ y_field y = None /\ std_width y = 176 /\ std_height y = 144) [y1; y2] /\
  bits_of raw1 = sps_bits y1 ++ trailing 0 /\ bits_of raw2 = sps_bits y2 ++ trailing 0 /\
  encapsulate (103 :: raw1) = [103; 66; 192; 30; 208; 0; 2; 0; 0; 3; 1; 0; 160; 177; 57] /\
  snd (parse_sprop new_store (encapsulate (103 :: raw1))) = Ok tt /\
  option_map (fun i => (sps_width i, sps_height i)) (get_sps (fst (parse_sprop new_store (encapsulate (103 :: raw1)))) 0) = Some (16, 2147483600) /\
  option_map (fun i => (sps_width i, sps_height i)) (get_sps (fst (parse_sprop new_store (103 :: raw1))) 0) = Some (176, 144) /\
  snd (parse_sprop new_store (encapsulate (103 :: raw2))) = Err ErrUnexpectedEOF /\
  snd (parse_sprop new_store (103 :: raw2)) = Ok tt.
Proof.
  cbv zeta. splits; [|vm_compute; reflexivity..].
  assert (X : forall x z, 0 < x < 2 ^ 20 -> 0 < z < 2 ^ 20 -> let y := escaped_sps x z in
    sps_legal y /\ profile_known (y_profile y) /\ poc_readable (y_poc y) /\ y_field y = None /\ std_width y = 176 /\ std_height y = 144).
  { intros x z Hx Hz. cbv zeta. splits; try reflexivity.
    - unfold sps_legal, std_width, std_height, small, std_high_profiles, escaped_sps; cbn -[Z.pow]. splits; try lia. apply Forall_nil.
    - unfold profile_known; cbn; lia.
    - cbn -[Z.pow]. repeat (apply Forall_cons; [lia|]). apply Forall_nil. }
  repeat (apply Forall_cons; [apply X; lia|]). apply Forall_nil.
Qed.
Print Assumptions C117_sps_refuted.

Theorem C117_pps_refuted :
  let z := mkPpsSyn 0 0 false false (G0 [8191; 8191]) 0 0 false 0 0 0 0 false false false (Some (mkTail false None 0)) in
  let raw := [197; 0; 4; 0; 0; 0; 128; 3; 28; 24] in
  pps_legal (pps_chroma new_store z) z /\ groups_readable (z_groups z) /\ bits_of raw = pps_bits z ++ trailing 3 /\
  snd (parse_sprop new_store (104 :: raw)) = Ok tt /\
  snd (parse_sprop new_store (encapsulate (104 :: raw))) = Err ErrUnexpectedEOF /\ get_pps (fst (parse_sprop new_store (encapsulate (104 :: raw)))) 0 = None.
Proof.
  cbv zeta. splits; try (vm_compute; reflexivity).
  - unfold pps_legal, groups_legal, small, zlen; cbn. splits; try lia. repeat constructor; lia.
Qed.
Print Assumptions C117_pps_refuted.

(* an escape that comes after the last bit read does no harm *)
Example C117_case :
  let y := mkSpsSyn 66 192 30 0 None 0 (Poc0 2) 1 false 10 8 None true None true in
  let a := [66; 192; 30; 237; 5; 137; 208] in let b := [0; 0; 1; 128] in
  bits_of (a ++ b) = sps_bits y ++ repeat false 4 ++ bits_of b /\ (length (sps_bits y) <= 8 * length a)%nat /\ (forall x, 0 <= x <= 3 -> ~ contains [0; 0; x] a) /\
  encapsulate (103 :: a ++ b) = 103 :: a ++ [0; 0; 3; 1; 128] /\
  option_map (fun i => (sps_width i, sps_height i, sps_vui_present i)) (get_sps (fst (parse_sprop new_store (encapsulate (103 :: a ++ b)))) 0) = Some (176, 144, true).
Proof.
  cbv zeta. splits; try (vm_compute; reflexivity).
  - apply Nat.leb_le. reflexivity.
  - intros x X (u & v & E). do 8 (destruct u as [|? u]; cbn [app] in E; [discriminate E|try discriminate E; injection E as ? E]).
Qed.
