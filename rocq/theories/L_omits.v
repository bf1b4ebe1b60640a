From Coq Require Import String.
From Verif Require Import Base GoStrings S_transport M_transport S_omits L_base L_strings.

Lemma key_name f : to_lower (hd [] (split2 61 f)) = param_name f.
Proof. unfold split2, param_name. destruct (cut 61 f) as [[a b]|]; reflexivity. Qed.
Lemma keeps_field u f : keeps u (fst (parse_field u f)) (fun k => param_name f <> bs k).
Proof.
  unfold parse_field. cbv zeta. rewrite key_name.
  set (t := match split_on 47 f with [_; _; c] => set_tcp u (beq (to_upper c) (bs "TCP")) | _ => u end).
  assert (K : keeps u t (fun k => param_name f <> bs k)) by (subst t; destruct (split_on 47 f) as [|a [|b [|c [|d r]]]]; cbv [keeps set_tcp]; cbn; repeat split; intros; reflexivity).
  clearbody t. revert K. generalize (param_name f). intros k K.
  destruct (split2 61 f) as [|a [|x l]]; cbv iota beta; try destruct (parse_pair x) as [p e]; try destruct (atoi x) as [n e2];
  repeat match goal with |- context [beq k ?s] => destruct (beq k s) eqn:?; [match goal with H : beq k s = true |- _ => apply beq_eq in H; subst k end; revert K; unfold keeps; intros K; cbn [fst set_multicast set_destination set_source set_interleave set_append set_layers set_ttl set_port set_client_port set_server_port set_ssrc set_mode t_tcp t_multicast t_interleaved t_append t_interleave t_port t_client_port t_server_port t_layers t_ttl t_destination t_source t_ssrc t_mode]; intuition congruence|] end; exact K.
Qed.
Lemma keeps_trans u v w (P Q R : string -> Prop) : (forall k, R k -> P k /\ Q k) -> keeps u v P -> keeps v w Q -> keeps u w R.
Proof.
  intros H. unfold keeps.
  intros (A1 & A2 & A3 & A4 & A5 & A6 & A7 & A8 & A9 & A10 & A11 & A12 & A13) (B1 & B2 & B3 & B4 & B5 & B6 & B7 & B8 & B9 & B10 & B11 & B12 & B13).
  assert (G : forall k, R k -> P k) by (intros k X; apply H, X). assert (G' : forall k, R k -> Q k) by (intros k X; apply H, X).
  splits; intros; try (rewrite B1, A1 by auto; reflexivity); try (rewrite B2, A2 by auto; reflexivity); try (rewrite B3, A3 by auto; reflexivity); try (rewrite B4, A4 by auto; reflexivity);
  try (rewrite B5, A5 by auto; reflexivity); try (rewrite B6, A6 by auto; reflexivity); try (rewrite B7, A7 by auto; reflexivity); try (rewrite B8, A8 by auto; reflexivity);
  try (rewrite B9, A9 by auto; reflexivity); try (rewrite B10, A10 by auto; reflexivity); try (rewrite B11, A11 by auto; reflexivity); try (rewrite B12, A12 by auto; reflexivity); rewrite B13, A13; reflexivity.
Qed.
Lemma keeps_fields l : forall u, keeps u (fst (parse_fields u l)) (fun k => omits k l).
Proof.
  induction l as [|f l IH]; intros u; cbn [parse_fields].
  - unfold keeps. cbn [fst]. splits; intros; reflexivity.
  - pose proof (keeps_field u f) as K. destruct (parse_field u f) as [t e]. cbn [fst] in K.
    assert (G : forall k, omits k (f :: l) -> param_name f <> bs k /\ omits k l) by (intros k A; apply Forall_cons_iff in A; exact A).
    destruct e as [e|]; [|eapply keeps_trans; [exact G|exact K|apply IH]].
    cbn [fst]. eapply (keeps_trans u t t _ (fun _ => True)); [|exact K|unfold keeps; splits; intros; reflexivity]. intros k A. split; [apply G; exact A|exact I].
Qed.
Lemma keeps_parse u fields : fields <> [] -> Forall (fun f => ~ In 59 f) fields -> keeps u (fst (transport_parse u (join 59 fields))) (fun k => omits k fields).
Proof. intros N F. unfold transport_parse. rewrite split_join by assumption. apply keeps_fields. Qed.
