(* Properties C09-C14: Annex B byte streams and emulation prevention. *)
From Verif Require Import Base S_annexb M_annexb L_base L_annexb.

(* ---- C09 ---- *)
(* Full statement: forall p, exists e, rbsp_to_encapsulated p = Ok e /\ ebsp_to_raw e = p.
   False: the encoder can panic (C11) and, when it returns, loses a byte on the inputs below. *)
Theorem C09_roundtrip_partial : forall p e,
  bytes_ok p -> rbsp_to_encapsulated p = Ok e ->
  (ebsp_to_raw e = p <-> ~ lossy_run p).
Proof.
  intros p e Hp He. destruct (enc_lossy p 0 e ltac:(lia) eq_refl Hp He) as [_ I].
  cbn [carry Z.ltb Z.compare app] in I. rewrite I, lossy_run_spec. destruct (lossyb 0 p); split; congruence.
Qed.
Print Assumptions C09_roundtrip_partial.

Theorem C09_roundtrip_refuted : exists p e,
  bytes_ok p /\ rbsp_to_encapsulated p = Ok e /\ ebsp_to_raw e <> p.
Proof.
  exists [0; 0; 0; 0; 3]. eexists. splits.
  - repeat constructor; cbn; lia.
  - reflexivity.
  - discriminate.
Qed.
Print Assumptions C09_roundtrip_refuted.

(* Without four zeros in a row the output is exactly the standard's encapsulation (up to the final 03). *)
Theorem C09_standard : forall p e,
  bytes_ok p -> rbsp_to_encapsulated p = Ok e -> ~ contains [0; 0; 0; 0] p -> e = encapsulate_open p.
Proof. exact enc_standard. Qed.
Print Assumptions C09_standard.

Example C09_case : rbsp_to_encapsulated [104; 0; 0; 0; 7; 0; 0; 1] = Ok [104; 0; 0; 3; 0; 7; 0; 0; 3; 1] /\
  ebsp_to_raw [104; 0; 0; 3; 0; 7; 0; 0; 3; 1] = [104; 0; 0; 0; 7; 0; 0; 1].
Proof. split; reflexivity. Qed.

(* ---- C10 ---- *)
(* Full statement: forall p e, rbsp_to_encapsulated p = Ok e -> ~ forbidden e.  False; the exact
   condition is that the payload has no four zeros followed by a byte <= 2. *)
Theorem C10_no_start_code_partial : forall p e,
  bytes_ok p -> rbsp_to_encapsulated p = Ok e ->
  (~ forbidden e <-> ~ exists x, 0 <= x <= 2 /\ contains [0; 0; 0; 0; x] p).
Proof. intros p e Hp He. rewrite (enc_forbidden p e Hp He). reflexivity. Qed.
Print Assumptions C10_no_start_code_partial.

Theorem C10_no_start_code_refuted : exists p e,
  bytes_ok p /\ rbsp_to_encapsulated p = Ok e /\ contains [0; 0; 1] e.
Proof.
  exists [0; 0; 0; 0; 1]. eexists. splits.
  - repeat constructor; cbn; lia.
  - reflexivity.
  - exists [0; 0; 3], []. reflexivity.
Qed.
Print Assumptions C10_no_start_code_refuted.

Example C10_case : exists e, rbsp_to_encapsulated [5; 0; 0; 0; 9; 0; 0; 2; 0] = Ok e /\ clean e = true.
Proof. eexists. split; reflexivity. Qed.

(* ---- C11 ---- *)
(* Full statement: forall p, exists e, rbsp_to_encapsulated p = Ok e.  False; exact condition: *)
Theorem C11_total_partial : forall p,
  ((exists e, rbsp_to_encapsulated p = Ok e) <-> (trail_zeros p mod 3 <> 2)%nat) /\
  (rbsp_to_encapsulated p = Panic <-> (trail_zeros p mod 3 = 2)%nat).
Proof.
  intros p. destruct (enc_total p) as [[(e & ->) H]|[-> H]]; split; split; intros X; eauto; try congruence; try lia.
  destruct X as [e X]; discriminate.
Qed.
Print Assumptions C11_total_partial.

Theorem C11_total_refuted : exists p, bytes_ok p /\ rbsp_to_encapsulated p = Panic.
Proof. exists [101; 0; 0]. split; [repeat constructor; cbn; lia|reflexivity]. Qed.
Print Assumptions C11_total_refuted.

Example C11_case : Nat.modulo (trail_zeros [101; 0; 0; 0; 0]) 3 <> 2%nat.
Proof. cbn. lia. Qed.

(* ---- C12 ---- *)
Theorem C12_decapsulate : forall p, bytes_ok p -> rbsp_legal p -> ebsp_to_raw (encapsulate p) = p.
Proof.
  intros p Hp HL. pose proof (raw_enc_body [3] (or_intror eq_refl) p 0 Hp ltac:(lia)) as R.
  cbn [repeat app] in R. unfold encapsulate. rewrite R.
  unfold rbsp_legal in HL. rewrite <- Nat.negb_odd in HL. destruct (Nat.odd (trail_zeros p)); [discriminate|].
  cbn. apply app_nil_r.
Qed.
Print Assumptions C12_decapsulate.

(* Without the final 03 rule no condition on the payload is needed. *)
Theorem C12_decapsulate_open : forall p, bytes_ok p -> ebsp_to_raw (encapsulate_open p) = p.
Proof.
  intros p Hp. pose proof (raw_enc_body [] (or_introl eq_refl) p 0 Hp ltac:(lia)) as R.
  cbn [repeat app length Nat.ltb Nat.leb andb] in R. unfold encapsulate_open. rewrite R. apply app_nil_r.
Qed.
Print Assumptions C12_decapsulate_open.

(* The encapsulation used in the statement is the right one: it never shows a forbidden pattern. *)
Theorem C12_encapsulation_clean : forall p, bytes_ok p ->
  ~ forbidden (encapsulate p) /\ last (encapsulate p) 1 <> 0.
Proof.
  intros p Hp. split; [|apply enc_body_last]. apply clean_spec.
  exact (clean_enc_body [3] (or_intror eq_refl) p 0 Hp ltac:(lia)).
Qed.
Print Assumptions C12_encapsulation_clean.

Example C12_case : rbsp_legal [101; 0; 0; 0; 0; 0; 1; 0; 0] /\
  encapsulate [101; 0; 0; 0; 0; 0; 1; 0; 0] = [101; 0; 0; 3; 0; 0; 3; 0; 1; 0; 0; 3].
Proof. split; reflexivity. Qed.

(* ---- C13 ---- *)
Theorem C13_split : forall us,
  us <> [] -> Forall (fun u => bytes_ok (snd u) /\ snd u <> [] /\ rbsp_legal (snd u)) us ->
  split_annexb (byte_stream us) = Ok (map snd us).
Proof.
  intros us Hne HF. destruct us as [|[l u] us]; [congruence|]. rewrite split_annexb_scan.
  rewrite scan_stream; [|eapply Forall_impl; [|exact HF]; cbn; tauto|cbn; lia].
  cbn [piece app]. rewrite map_map. f_equal. apply map_ext_in. intros x Hx.
  apply (proj1 (Forall_forall _ _) HF) in Hx as (H1 & _ & H3). apply C12_decapsulate; assumption.
Qed.
Print Assumptions C13_split.

Example C13_case :
  byte_stream [(true, [103; 66]); (false, [104; 0; 0; 1]); (false, [101])] =
    [0; 0; 0; 1; 103; 66; 0; 0; 1; 104; 0; 0; 3; 1; 0; 0; 1; 101] /\
  split_annexb [0; 0; 0; 1; 103; 66; 0; 0; 1; 104; 0; 0; 3; 1; 0; 0; 1; 101] = Ok [[103; 66]; [104; 0; 0; 1]; [101]].
Proof. split; reflexivity. Qed.

(* ---- C14 ---- *)
Theorem C14_split_total : forall buf, exists ss,
  split_annexb buf = Ok (map ebsp_to_raw ss) /\ ss <> [] /\
  (buf <> [] -> Forall (fun s => s <> [] /\ contains s buf /\ (forall x, ~ contains [0; 0; 1; x] s)) ss /\
                Forall (fun u => u <> []) (map ebsp_to_raw ss)) /\
  (~ contains [0; 0; 1] buf -> ss = [buf]).
Proof.
  intros buf. destruct (split_pieces buf) as (ss & E & N & F & S). exists ss. splits; auto. intros Hb. specialize (F Hb). split.
  - eapply Forall_impl; [|exact F]. cbn. unfold code_free. tauto.
  - apply Forall_map. eapply Forall_impl; [|exact F]. cbn. intros s [H _] X. apply H, raw_nil_inv, X.
Qed.
Print Assumptions C14_split_total.

(* A start code in the last three bytes is not recognised. *)
Example C14_case : split_annexb [103; 66; 0; 0; 1] = Ok [[103; 66; 0; 0; 1]] /\
  split_annexb [103; 66; 0; 0; 1; 9] = Ok [[103; 66]; [9]].
Proof. split; reflexivity. Qed.
