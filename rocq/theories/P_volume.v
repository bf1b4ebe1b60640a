(* Property C170: no more comes out of a sink than was put in. *)
From Verif Require Import Base S_annexb S_nal M_nal S_frags S_volume L_base L_nal L_volume.
From Coq Require Import ZifyBool ZifyNat.

(* Full statement: came_out new_sink ps <= put_in ps for all payloads.  It is false of the code (C170_refuted).  It holds when no fragment
   comes between the last of a unit and the first of another; in particular when there are no fragments. *)
Theorem C170_partial : forall ps : list (bytes * Z),
  Forall (fun p => bytes_ok (fst p) /\ plain (fst p)) ps -> starts_anew (flat_map (fun p => fu_of (fst p)) ps) -> came_out new_sink ps <= put_in ps.
Proof. intros ps F A. pose proof (came_out_orderly ps new_sink 0 F A (or_introl eq_refl)). lia. Qed.
Print Assumptions C170_partial.

(* For any payloads at all, start codes and all, each Push shows no more than all the payloads so far together. *)
Theorem C170_bound : forall ps : list (bytes * Z), Forall (fun p => bytes_ok (fst p)) ps -> came_out new_sink ps <= zlen ps * put_in ps.
Proof. intros ps F. pose proof (came_out_bound ps new_sink F) as X. change (L_volume.frag_bytes (s_frags new_sink)) with 0 in X. rewrite Z.add_0_r in X. exact X. Qed.
Print Assumptions C170_bound.

(* Whoever sends the first fragment of a unit and then nothing but empty last ones of two bytes has it shown once for each of them. *)
Theorem C170_refuted : forall (h ts : Z) (d : bytes) (n : nat), byte_ok h -> bytes_ok d -> plain (fu_a h true false d) ->
  let ps := (fu_a h true false d, ts) :: repeat (fu_a h false true [], ts) n in
  Forall (fun p => bytes_ok (fst p) /\ plain (fst p)) ps /\ came_out new_sink ps = Z.of_nat n * (1 + zlen d) /\ put_in ps = zlen d + 2 + 2 * Z.of_nat n.
Proof. intros h ts d n. exact (repeated_last h ts d n). Qed.
Print Assumptions C170_refuted.

(* So there is no factor that bounds what comes out. *)
Theorem C170_factor_refuted : forall k : Z, exists ps, Forall (fun p => bytes_ok (fst p) /\ plain (fst p)) ps /\ k * put_in ps < came_out new_sink ps.
Proof. exact any_factor. Qed.
Print Assumptions C170_factor_refuted.

(* an aggregate of two, a unit in three fragments, a single one; then a last fragment once more *)
Example C170_case :
  let ps := [([24; 0; 2; 103; 66; 0; 2; 104; 206], 5); (fu_a 101 true false [1; 2], 6); (fu_a 101 false false [3], 6); (fu_a 101 false true [4], 6); ([65; 9], 7)] in
  starts_anew (flat_map (fun p => fu_of (fst p)) ps) /\ came_out new_sink ps = 4 + 5 + 2 /\ put_in ps = 9 + 10 + 2 /\
  came_out new_sink (ps ++ [(fu_a 101 false true [], 8); (fu_a 101 false true [], 9); (fu_a 101 false true [], 10)]) = 11 + 15 /\ put_in (ps ++ [(fu_a 101 false true [], 8); (fu_a 101 false true [], 9); (fu_a 101 false true [], 10)]) = 21 + 6.
Proof. vm_compute. repeat split; discriminate || reflexivity || (intros; discriminate). Qed.
