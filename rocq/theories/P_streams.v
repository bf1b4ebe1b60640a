(* Property C171: what is made of a stream does not depend on the streams that share its sink. *)
From Verif Require Import Base S_annexb S_nal M_annexb M_nal S_frags S_streams L_base L_nal L_streams.
From Coq Require Import ZifyBool ZifyNat.

(* Full statement: yields s l = yields s (filter fst l) for all payloads l.  It is false of the code (C171_refuted, C171_crash_refuted).
   It holds when no fragment of another stream comes between two of a unit and no payload of another stream crashes the client: whatever else the other
   payloads are (units, aggregates, packets that are refused), at any places, and whatever the payloads of the stream are. *)
Theorem C171_partial : forall (s : sink) (l : list (bool * (bytes * Z))),
  Forall (fun e => bytes_ok (fst (snd e)) /\ plain (fst (snd e)) /\ (fst e = false -> ~ crash (fst (snd e)))) l -> apart l ->
  yields s l = yields s (filter fst l).
Proof. intros s l F A. apply yields_alike; auto. Qed.
Print Assumptions C171_partial.

(* A first fragment of another stream after a first one of this takes its place: the unit shown is made of the pieces of both. *)
Theorem C171_refuted : forall (s : sink) (h1 h2 t1 t2 t3 : Z) (c1 c2 e1 : bytes), byte_ok h1 -> byte_ok h2 -> nal_type h1 <> 0 -> nal_type h2 <> 0 ->
  Forall (fun x => ~ contains [0; 0; 1] x) [c1; c2; e1] ->
  let l := [(true, (fu_a h1 true false c1, t1)); (false, (fu_a h2 true false c2, t2)); (true, (fu_a h1 false true e1, t3))] in
  yields s l = [([], Ok tt); ([(no_f h1, t3, ebsp_to_raw c2 ++ ebsp_to_raw e1)], Ok tt)] /\
  yields s (filter fst l) = [([], Ok tt); ([(no_f h1, t3, ebsp_to_raw c1 ++ ebsp_to_raw e1)], Ok tt)].
Proof. exact mixed. Qed.
Print Assumptions C171_refuted.

(* Of this stream nothing comes any more after a payload of another that crashes the client. *)
Theorem C171_crash_refuted : forall (s : sink) (p : bytes) (ts : Z) (l : list (bool * (bytes * Z))),
  bytes_ok p -> plain p -> crash p -> yields s ((false, (p, ts)) :: l) = [].
Proof. exact taken_along. Qed.
Print Assumptions C171_crash_refuted.

(* And the decoding order numbers, left out above, count the units of all streams: a unit on its own has one more after a unit of another stream. *)
Theorem C171_number_refuted : forall (s : sink) (a b ta tb : Z) (x y : bytes), byte_ok a -> byte_ok b ->
  nal_type a < 24 \/ 29 < nal_type a -> nal_type b < 24 \/ 29 < nal_type b -> plain (a :: x) -> plain (b :: y) ->
  map u_don (s_units (fst (push s (a :: x) ta))) = [s_don s] /\ map u_don (s_units (fst (push (fst (push s (b :: y) tb)) (a :: x) ta))) = [u16 (s_don s + 1)].
Proof. exact one_more. Qed.
Print Assumptions C171_number_refuted.

(* a unit in two fragments with a unit, an aggregate and a refused packet of another stream between them, then a unit in fragments of the other stream *)
Example C171_case :
  let l := [(true, (fu_a 101 true false [1; 2], 6)); (false, ([65; 9], 7)); (false, ([24; 0; 2; 103; 66], 7)); (false, ([24; 0; 9; 103; 66], 7)); (true, (fu_a 101 false true [3], 6));
            (false, (fu_a 65 true false [7], 8)); (true, ([104; 5], 9)); (false, (fu_a 65 false true [8], 8)); (true, (fu_a 97 true true [4], 10))] in
  apart l /\ yields new_sink l = [([], Ok tt); ([(101, 6, [1; 2; 3])], Ok tt); ([(104, 9, [5])], Ok tt); ([(97, 10, [4])], Ok tt)].
Proof. split; [cbn; repeat split; intros; try discriminate; auto|vm_compute; reflexivity]. Qed.
