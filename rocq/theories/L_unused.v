(* Lemmas: idle lines of a session description. *)
From Coq Require Import String.
From Verif Require Import Base GoStrings S_sdp M_sdp S_unused L_base L_strings L_sdp.
From Coq Require Import ZifyBool.

Lemma split2_cases c s : split2 c s = [s] \/ exists a b, s = a ++ c :: b /\ split2 c s = [a; b].
Proof. unfold split2. destruct (cut c s) as [[a b]|] eqn:E; [|auto]. right. exists a, b. apply cut_some in E as [E _]. auto. Qed.
Lemma idle_field m f : ~ In 47 f -> ~ In 59 f -> (forall x, f <> bs "control:" ++ x /\ f <> bs "rtpmap:" ++ x) -> attr_field m f = m.
Proof.
  intros N1 N2 N3. unfold attr_field. rewrite attr_semi_none, attr_slash_none by assumption. unfold attr_colon.
  destruct (split2_cases 58 f) as [E|(k & v & E & S)]; [rewrite E; reflexivity|]. rewrite S.
  destruct (beq k (bs "control")) eqn:B1; [apply beq_eq in B1; subst k; elim (proj1 (N3 v)); exact E|].
  destruct (beq k (bs "rtpmap")) eqn:B2; [apply beq_eq in B2; subst k; elim (proj2 (N3 v)); exact E|]. reflexivity.
Qed.
Lemma idle_line s l : idle l -> sdp_line s l = Ok s.
Proof.
  intros [NM A]. unfold sdp_line. destruct (split2_cases 61 (trim_space l)) as [E|(k & v & E & S)]; [rewrite E; reflexivity|]. rewrite S. cbv zeta.
  destruct (beq k (bs "m")) eqn:B1; [apply beq_eq in B1; subst k; elim (NM v); exact E|].
  destruct (beq k (bs "a")) eqn:B2; [|reflexivity]. apply beq_eq in B2. subst k. destruct (A v E) as (N1 & N2 & N3). destruct s as [done [m|]]; [|reflexivity]. do 3 f_equal.
  destruct (split2_cases 32 v) as [X|(a & b & X & X')].
  - rewrite X. cbn [fold_left]. apply idle_field; auto. intros x. destruct (N3 x) as (P & Q & _). auto.
  - rewrite X'. cbn [fold_left]. assert (Fa : attr_field m a = m).
    { apply idle_field; [intros I; apply N1; rewrite X; apply in_or_app; auto|intros I; apply N2; rewrite X; apply in_or_app; auto|].
      intros x. split; intros ->; [apply (proj1 (N3 (x ++ 32 :: b)))|apply (proj1 (proj2 (N3 (x ++ 32 :: b))))]; rewrite X, <- app_assoc; reflexivity. }
    rewrite Fa. apply idle_field; [intros I; apply N1; rewrite X; apply in_or_app; right; right; exact I|intros I; apply N2; rewrite X; apply in_or_app; right; right; exact I|].
    intros x. destruct (proj2 (proj2 (N3 x)) a) as [P Q]. split; intros ->; [apply P|apply Q]; exact X.
Qed.
Lemma padded_lines a b : padded a b -> forall s, sdp_lines s b = sdp_lines s a.
Proof.
  induction 1 as [|l a b P IH|l a b I P IH]; intros s; [reflexivity| |].
  - cbn [sdp_lines]. destruct (sdp_line s l); cbn [bind]; auto.
  - cbn [sdp_lines]. rewrite idle_line by exact I. cbn [bind]. apply IH.
Qed.
Lemma padded_one a b : padded a b -> Forall one_line b -> Forall one_line a.
Proof. induction 1; intros F; inversion F; subst; auto. Qed.
Lemma slash_sets m v n : ~ In 59 v -> slash_number v = Some n -> m_timescale (attr_field m v) = n.
Proof.
  intros N S. unfold attr_field. rewrite attr_semi_none by exact N. unfold slash_number in S. unfold attr_slash. destruct (split_on 47 v) as [|k [|x r]]; try discriminate.
  destruct (atoi x) as [i [e|]]; [discriminate|]. injection S as ->. destruct (beq _ _); [reflexivity|]. destruct (beq _ _); reflexivity.
Qed.
(* deciding it for a line of one word *)
Lemma one_word v : ~ In 32 v -> ~ In 47 v -> ~ In 59 v -> firstn 8 v <> bs "control:" -> firstn 7 v <> bs "rtpmap:" -> idle_attribute v.
Proof.
  intros N1 N2 N3 C R. split; [exact N2|]. split; [exact N3|]. intros x. splits.
  - intros ->. apply C. reflexivity.
  - intros ->. apply R. reflexivity.
  - split; intros ->; apply N1; apply in_or_app; right; left; reflexivity.
Qed.
