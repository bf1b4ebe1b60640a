(* Lemmas about parameter sets in the form they are sent in. *)
From Verif Require Import Base S_annexb S_bits S_sps M_sps L_base L_annexb L_bits L_sps L_spsdec.
From Coq Require Import ZifyBool ZifyNat.

(* nothing is inserted into bytes without two zeros followed by a byte of at most 3 *)
Lemma enc_quiet tail b : forall a z, bytes_ok a -> (forall x, 0 <= x <= 3 -> ~ contains [0; 0; x] (repeat 0 z ++ a)) ->
  exists b', enc_body tail z (a ++ b) = a ++ b'.
Proof.
  induction a as [|c a IH]; intros z B Q.
  - exists (enc_body tail z b). reflexivity.
  - apply Forall_cons_iff in B. destruct B as (Bc & B). cbn [app enc_body].
    assert (N : (2 <=? z)%nat && (c <=? 3) = false).
    { destruct (2 <=? z)%nat eqn:E; [|reflexivity]. destruct (c <=? 3) eqn:F; [|reflexivity]. exfalso.
      apply (Q c); [unfold byte_ok in Bc; lia|]. exists (repeat 0 (z - 2)), a.
      replace z with (z - 2 + 2)%nat at 1 by (apply Nat.leb_le in E; lia). rewrite repeat_app, <- !app_assoc. reflexivity. }
    rewrite N. destruct (c =? 0) eqn:E0.
    + apply Z.eqb_eq in E0. subst c. destruct (IH (Datatypes.S z) B) as (b' & E).
      { intros x X. specialize (Q x X). replace (repeat 0 (Datatypes.S z) ++ a) with (repeat 0 z ++ 0 :: a); [exact Q|].
        replace (Datatypes.S z) with (z + 1)%nat by lia. rewrite repeat_app, <- app_assoc. reflexivity. }
      exists b'. rewrite E. reflexivity.
    + destruct (IH O B) as (b' & E).
      { intros x X (u & v & K). apply (Q x X). exists (repeat 0 z ++ c :: u), v. cbn [repeat app] in K. rewrite K, <- !app_assoc. reflexivity. }
      exists b'. rewrite E. reflexivity.
Qed.

(* the bits of what is sent begin with those of what is meant, as far as nothing is inserted *)
Lemma sent_bits h raw a b want rest : 0 < h -> bytes_ok raw -> raw = a ++ b -> bits_of raw = want ++ rest -> (length want <= 8 * length a)%nat ->
  (forall x, 0 <= x <= 3 -> ~ contains [0; 0; x] a) ->
  exists sent more, encapsulate (h :: raw) = h :: sent /\ bits_of sent = want ++ more.
Proof.
  intros Hh B -> E L Q. destruct (enc_quiet [3] b a O) as (b' & En).
  { apply Forall_app in B. tauto. }
  { exact Q. }
  exists (a ++ b'), (skipn (length want) (bits_of a) ++ bits_of b'). split.
  - unfold encapsulate. cbn [enc_body]. replace ((2 <=? 0)%nat && (h <=? 3)) with false by reflexivity. replace (h =? 0) with false by lia. rewrite En. reflexivity.
  - rewrite bits_of_app, app_assoc. f_equal. rewrite bits_of_app in E.
    assert (F : firstn (length want) (bits_of a) = want).
    { apply (f_equal (firstn (length want))) in E. rewrite firstn_app in E. replace (length want - length (bits_of a))%nat with O in E by (rewrite bits_of_length; lia).
      rewrite firstn_O, app_nil_r, firstn_app, Nat.sub_diag, firstn_O, app_nil_r, firstn_all in E. exact E. }
    transitivity (firstn (length want) (bits_of a) ++ skipn (length want) (bits_of a)); [symmetry; apply firstn_skipn|rewrite F; reflexivity].
Qed.
