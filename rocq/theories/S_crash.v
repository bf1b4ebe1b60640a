(* Specification: descriptions on which the session crashes. *)
From Coq Require Import String.
From Verif Require Import Base GoStrings S_bits S_sps S_sdp M_sdp.

(* a parameter set that is a picture parameter set with too many slice groups (C28) *)
Definition bad_pps (b : bytes) : Prop := exists h t, b = h :: t /\ Z.land h 31 = 8 /\ pps_crash (bits_of t).
(* a line m=video without more (C42), or such a parameter set in one of the video sections *)
Definition bad_description (body : bytes) : Prop :=
  (exists l, In l (split_on 10 body) /\ bare_video_line l) \/
  (exists ms m b, sdp_parse body = Ok ms /\ In m ms /\ In b (m_sprops m) /\ bad_pps b).
