From Verif Require Import Base S_annexb S_escaping M_annexb L_base L_annexb.

Lemma enc_cases p e : rbsp_to_encapsulated p = Ok e ->
  (p = [] /\ e = []) \/
  (exists c r t, p = 0 :: 0 :: c :: r /\ c <= 3 /\ rbsp_to_encapsulated r = Ok t /\ e = 0 :: 0 :: 3 :: c :: t) \/
  (exists a r t, p = a :: r /\ rbsp_to_encapsulated r = Ok t /\ e = a :: t /\
     (forall c q, p = 0 :: 0 :: c :: q -> 3 < c) /\ p <> [0; 0]).
Proof.
  destruct p as [|a r]; cbn [rbsp_to_encapsulated].
  - intros E. left. split; congruence.
  - intros E. right. destruct r as [|b r2].
    + right. cbn in E. exists a, [], []. injection E as <-. splits; try reflexivity; intros; discriminate.
    + destruct ((a =? 0) && (b =? 0)) eqn:Z.
      * assert (a = 0 /\ b = 0) as (-> & ->) by lia.
        destruct r2 as [|c r3]; [discriminate|]. destruct (c <=? 3) eqn:C.
        -- left. destruct (rbsp_to_encapsulated r3) as [t| | |] eqn:T; try discriminate. cbn [bind] in E.
           exists c, r3, t. splits; try reflexivity; try congruence; lia.
        -- right. destruct (rbsp_to_encapsulated (0 :: c :: r3)) as [t| | |] eqn:T; try discriminate. cbn [bind] in E.
           exists 0, (0 :: c :: r3), t. splits; try reflexivity; try congruence.
           intros c' q Q. injection Q as -> _. lia.
      * right. destruct (rbsp_to_encapsulated (b :: r2)) as [t| | |] eqn:T; try discriminate. cbn [bind] in E.
        exists a, (b :: r2), t. splits; try reflexivity; try congruence; try assumption.
        -- intros c q Q. injection Q as -> -> _. cbn in Z. discriminate.
        -- intros Q. injection Q as -> -> _. cbn in Z. discriminate.
Qed.

Lemma enc_size : forall p e, rbsp_to_encapsulated p = Ok e -> zlen p <= zlen e /\ 3 * zlen e <= 4 * zlen p.
Proof.
  induction p as [p IH] using list_ind_len. intros e E.
  destruct (enc_cases p e E) as [(-> & ->) | [(c & r & t & -> & C & T & ->) | (a & r & t & -> & T & -> & _)]].
  - unfold zlen. cbn. lia.
  - specialize (IH r ltac:(cbn; lia) t T). unfold zlen in *. cbn [length]. lia.
  - specialize (IH r ltac:(cbn; lia) t T). unfold zlen in *. cbn [length]. lia.
Qed.

Lemma raw_size : forall e, zlen (ebsp_to_raw e) <= zlen e /\ 2 * zlen e <= 3 * zlen (ebsp_to_raw e).
Proof.
  induction e as [e IH] using list_ind_len.
  destruct e as [|a [|b [|c r]]]; try (unfold zlen; cbn; lia).
  rewrite raw_cons. destruct ((a =? 0) && (b =? 0) && (c =? 3)).
  - specialize (IH r ltac:(cbn; lia)). unfold zlen in *. cbn [length] in *. lia.
  - specialize (IH (b :: c :: r) ltac:(cbn; lia)). unfold zlen in *. cbn [length] in *. lia.
Qed.

Lemma enc_attained : forall n, exists p e, zlen p = 3 * Z.of_nat n /\ rbsp_to_encapsulated p = Ok e /\
  zlen e = 4 * Z.of_nat n.
Proof.
  induction n as [|n (p & e & P & E & L)]; [exists [], []; splits; reflexivity|].
  exists (0 :: 0 :: 1 :: p), (0 :: 0 :: 3 :: 1 :: e). splits.
  - unfold zlen in *. cbn [length]. lia.
  - cbn [rbsp_to_encapsulated]. cbn. rewrite E. reflexivity.
  - unfold zlen in *. cbn [length]. lia.
Qed.

Lemma to_escape_cons a l : to_escape l -> to_escape (a :: l).
Proof.
  intros [(x & X & p & q & ->) | (p & ->)].
  - left. exists x. split; [exact X|]. exists (a :: p), q. reflexivity.
  - right. exists (a :: p). reflexivity.
Qed.

Lemma enc_unchanged : forall p, rbsp_to_encapsulated p = Ok p <-> ~ to_escape p.
Proof.
  intros p. split.
  - induction p as [p IH] using list_ind_len. intros E N.
    destruct (enc_cases p p E) as [(-> & _) | [(c & r & t & -> & C & T & Q) | (a & r & t & -> & T & Q & H & H2)]].
    + destruct N as [(x & X & p & q & Q) | (p & Q)]; destruct p; discriminate.
    + pose proof (proj1 (enc_size _ _ T)) as S. injection Q as _ Q. apply (f_equal (@length Z)) in Q.
      unfold zlen in S. cbn [length] in Q. lia.
    + injection Q as <-. apply (IH r ltac:(cbn; lia) T).
      destruct N as [(x & X & [|y p] & q & Q) | ([|y p] & Q)].
      * specialize (H x q Q). lia.
      * injection Q as -> ->. left. exists x. split; [exact X|]. exists p, q. reflexivity.
      * contradiction.
      * injection Q as -> ->. right. exists p. reflexivity.
  - induction p as [|a r IH]; intros N; [reflexivity|].
    assert (R : rbsp_to_encapsulated r = Ok r) by (apply IH; intros X; apply N, to_escape_cons, X).
    cbn [rbsp_to_encapsulated]. destruct r as [|b r2]; [reflexivity|].
    destruct ((a =? 0) && (b =? 0)) eqn:Z.
    + assert (a = 0 /\ b = 0) as (-> & ->) by lia. destruct r2 as [|c r3].
      * exfalso. apply N. right. exists []. reflexivity.
      * destruct (c <=? 3) eqn:C.
        -- exfalso. apply N. left. exists c. split; [lia|]. exists [], r3. reflexivity.
        -- rewrite R. reflexivity.
    + rewrite R. reflexivity.
Qed.

(* a plain beginning cannot give what an escaped one gives *)
Lemma enc_plain_escaped a r c t' t : rbsp_to_encapsulated r = Ok t' -> a :: t' = 0 :: 0 :: 3 :: c :: t ->
  exists q, a :: r = 0 :: 0 :: 3 :: q.
Proof.
  intros T Q. injection Q as -> ->.
  destruct (enc_cases _ _ T) as [(_ & Q) | [(? & ? & ? & _ & _ & _ & Q) | (b & r2 & t2 & -> & T2 & Q & _)]]; try discriminate.
  injection Q as <- <-.
  destruct (enc_cases _ _ T2) as [(_ & Q) | [(? & ? & ? & _ & _ & _ & Q) | (d & r3 & t3 & -> & _ & Q & _)]]; try discriminate.
  injection Q as <- _. exists r3. reflexivity.
Qed.

Lemma enc_differ : forall p p' e, rbsp_to_encapsulated p = Ok e -> rbsp_to_encapsulated p' = Ok e -> p = p'.
Proof.
  induction p as [p IH] using list_ind_len. intros p' e E E'.
  destruct (enc_cases p e E) as [(-> & ->) | [(c & r & t & -> & C & T & ->) | (a & r & t & -> & T & -> & H & _)]];
  destruct (enc_cases p' _ E') as [(-> & Q) | [(c' & r' & t' & -> & C' & T' & Q) | (a' & r' & t' & -> & T' & Q & H' & _)]];
  try discriminate.
  - reflexivity.
  - injection Q as <- <-. f_equal. f_equal. f_equal. apply (IH r ltac:(cbn; lia) r' t T T').
  - destruct (enc_plain_escaped a' r' c t' t T' (eq_sym Q)) as (q & X). specialize (H' _ _ X). lia.
  - destruct (enc_plain_escaped a r c' t t' T Q) as (q & X). specialize (H _ _ X). lia.
  - injection Q as <- <-. f_equal. apply (IH r ltac:(cbn; lia) r' t T T').
Qed.
