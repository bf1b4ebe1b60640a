From Verif Require Import Base M_annexb L_base L_annexb.

Lemma raw_piecewise : forall a b, last a 1 <> 0 -> ebsp_to_raw (a ++ b) = ebsp_to_raw a ++ ebsp_to_raw b.
Proof.
  induction a as [a IH] using list_ind_len. intros b H.
  destruct a as [|x [|y [|z r]]]; [reflexivity| | |].
  - cbn in H. cbn [app]. destruct b as [|c [|d b]]; try reflexivity.
    rewrite (raw_cons x (c :: d :: b)). replace (x =? 0) with false by lia. reflexivity.
  - cbn in H. assert (E : ebsp_to_raw ((x :: [y]) ++ b) = x :: ebsp_to_raw ([y] ++ b)).
    { cbn [app]. destruct b as [|c b]; [reflexivity|]. rewrite (raw_cons x (y :: c :: b)).
      replace (y =? 0) with false by lia. rewrite andb_false_r. reflexivity. }
    rewrite E, (IH [y]); [reflexivity|cbn; lia|exact H].
  - cbn [app]. rewrite (raw_cons x (y :: z :: r ++ b)), (raw_cons x (y :: z :: r)).
    destruct ((x =? 0) && (y =? 0) && (z =? 3)).
    + rewrite (IH r); [reflexivity|cbn; lia|]. destruct r as [|w r]; [cbn; lia|exact H].
    + change (y :: z :: r ++ b) with ((y :: z :: r) ++ b). rewrite (IH (y :: z :: r)); [reflexivity|cbn; lia|exact H].
Qed.

Lemma enc_piecewise : forall a b, last a 1 <> 0 ->
  exists ea, rbsp_to_encapsulated a = Ok ea /\
    rbsp_to_encapsulated (a ++ b) = (let! eb := rbsp_to_encapsulated b in Ok (ea ++ eb)).
Proof.
  induction a as [a IH] using list_ind_len. intros b H.
  destruct a as [|x [|y r]].
  - exists []. split; [reflexivity|]. cbn [app]. destruct (rbsp_to_encapsulated b); reflexivity.
  - cbn in H. exists [x]. split; [reflexivity|]. cbn [app rbsp_to_encapsulated].
    destruct b as [|c b]; [reflexivity|]. replace (x =? 0) with false by lia. cbn [andb].
    destruct (rbsp_to_encapsulated (c :: b)); reflexivity.
  - assert (H2 : last (y :: r) 1 <> 0) by exact H.
    destruct (IH (y :: r) ltac:(cbn; lia) b H2) as (e & E1 & E2).
    destruct ((x =? 0) && (y =? 0)) eqn:Z.
    + destruct r as [|c r]; [cbn in H; lia|]. destruct (c <=? 3) eqn:C.
      * destruct (IH r ltac:(cbn; lia) b) as (e' & E1' & E2'); [destruct r; [cbn; lia|exact H]|].
        exists (0 :: 0 :: 3 :: c :: e'). cbn [app]. split.
        -- cbn [rbsp_to_encapsulated]. rewrite Z, C, E1'. reflexivity.
        -- change (rbsp_to_encapsulated (x :: y :: c :: r ++ b)) with
             (if (x =? 0) && (y =? 0) then (if c <=? 3 then let! t := rbsp_to_encapsulated (r ++ b) in Ok (0 :: 0 :: 3 :: c :: t)
                else let! t := rbsp_to_encapsulated (y :: c :: r ++ b) in Ok (x :: t))
              else let! t := rbsp_to_encapsulated (y :: c :: r ++ b) in Ok (x :: t)).
           rewrite Z, C, E2'. destruct (rbsp_to_encapsulated b); reflexivity.
      * exists (x :: e). cbn [app] in *. split.
        -- change (rbsp_to_encapsulated (x :: y :: c :: r)) with
             (if (x =? 0) && (y =? 0) then (if c <=? 3 then let! t := rbsp_to_encapsulated r in Ok (0 :: 0 :: 3 :: c :: t)
                else let! t := rbsp_to_encapsulated (y :: c :: r) in Ok (x :: t))
              else let! t := rbsp_to_encapsulated (y :: c :: r) in Ok (x :: t)).
           rewrite Z, C, E1. reflexivity.
        -- change (rbsp_to_encapsulated (x :: y :: c :: r ++ b)) with
             (if (x =? 0) && (y =? 0) then (if c <=? 3 then let! t := rbsp_to_encapsulated (r ++ b) in Ok (0 :: 0 :: 3 :: c :: t)
                else let! t := rbsp_to_encapsulated (y :: c :: r ++ b) in Ok (x :: t))
              else let! t := rbsp_to_encapsulated (y :: c :: r ++ b) in Ok (x :: t)).
           rewrite Z, C, E2. destruct (rbsp_to_encapsulated b); reflexivity.
    + assert (Q : forall l, rbsp_to_encapsulated (x :: y :: l) = (let! t := rbsp_to_encapsulated (y :: l) in Ok (x :: t))).
      { intros l. change (rbsp_to_encapsulated (x :: y :: l)) with
          (if (x =? 0) && (y =? 0) then match l with [] => Panic | c :: r3 => if c <=? 3 then let! t := rbsp_to_encapsulated r3 in Ok (0 :: 0 :: 3 :: c :: t)
             else let! t := rbsp_to_encapsulated (y :: l) in Ok (x :: t) end
           else let! t := rbsp_to_encapsulated (y :: l) in Ok (x :: t)).
        rewrite Z. reflexivity. }
      exists (x :: e). split; [rewrite Q, E1; reflexivity|]. cbn [app] in *. rewrite Q, E2.
      destruct (rbsp_to_encapsulated b); reflexivity.
Qed.
