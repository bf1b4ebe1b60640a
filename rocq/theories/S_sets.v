(* Specification: where the parameter sets of a feed come from (properties C153 and C154). *)
From Verif Require Import Base M_message M_sps M_sdp M_session.

(* a sequence parameter set read from one of the NAL units [l] *)
Definition sps_of (l : list bytes) (id : Z) (i : sps_info) : Prop :=
  exists h b, In (h :: b) l /\ Z.land h 31 = 7 /\ get_sps (fst (parse_sps new_store b)) id = Some i.
(* a picture parameter set read from one of them, next to no other and to sequence parameter sets of theirs *)
Definition pps_of (l : list bytes) (id : Z) (j : pps_info) : Prop :=
  exists h b st, In (h :: b) l /\ Z.land h 31 = 8 /\
    (forall k, get_pps st k = None) /\ (forall k i, get_sps st k = Some i -> sps_of l k i) /\
    get_pps (fst (parse_pps st b)) id = Some j.
Definition read_from (l : list bytes) (st : store) : Prop :=
  (forall id i, get_sps st id = Some i -> sps_of l id i) /\ (forall id j, get_pps st id = Some j -> pps_of l id j).
(* the sections of a description in a response that was received *)
Definition sections_of (log : list effect) (ms : list media) : Prop :=
  exists r body, In (Got r) log /\ p_body r = Some body /\ sdp_parse body = Ok ms.
