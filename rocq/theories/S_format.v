(* Specification: states of a session that differ in nothing but the formats of the streams. *)
From Verif Require Import Base M_conn M_message M_transport M_sdp M_session M_main.

(* the same stream, in two formats: codec, clock rate, payload types and codec configuration may differ *)
Definition but_format (m1 m2 : media) : Prop := m_control m1 = m_control m2 /\ m_sprops m1 = m_sprops m2.
Definition feed_but_format (f1 f2 : feed) : Prop :=
  but_format (fd_media f1) (fd_media f2) /\ fd_transp f1 = fd_transp f2 /\ fd_cseq f1 = fd_cseq f2 /\ fd_set f1 = fd_set f2 /\ fd_sets f1 = fd_sets f2.

(* what happened in two sessions, the same but for the bodies of the responses *)
Definition response_but_body (r1 r2 : response) : Prop := p_code r1 = p_code r2 /\ p_cseq r1 = p_cseq r2 /\ p_header r1 = p_header r2.
Definition effect_but_body (e1 e2 : effect) : Prop :=
  match e1, e2 with Got r1, Got r2 => response_but_body r1 r2 | _, _ => e1 = e2 end.

Definition world_but_format (w1 w2 : world) : Prop :=
  w_s w2 = set_feeds (w_s w1) (s_feeds (w_s w2)) /\ Forall2 feed_but_format (s_feeds (w_s w1)) (s_feeds (w_s w2)) /\
  w_in w1 = w_in w2 /\ w_writes w1 = w_writes w2 /\ w_listens w1 = w_listens w2 /\ w_rand w1 = w_rand w2 /\
  Forall2 effect_but_body (w_log w1) (w_log w2).

(* two runs of the program: everything the program holds is the same, the pictures it has received among it *)
Definition system_but_format (y1 y2 : system) : Prop :=
  world_but_format (y_w y1) (y_w y2) /\ y_loop y1 = y_loop y2 /\ y_c y1 = y_c y2 /\ y_stage y1 = y_stage y2 /\ y_data y1 = y_data y2 /\ y_fate y1 = y_fate y2.
