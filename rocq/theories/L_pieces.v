From Verif Require Import Base S_bits M_bits L_base L_bits P_bits.

Lemma read_piece buf r n : buf_ok buf -> buf <> [] -> reached buf r -> 0 <= n <= 25 -> n <= available r ->
  exists r', read_bits r n = (r', Ok (bval (firstn (Z.to_nat n) (rest_bits buf (available r))))) /\
    available r' = available r - n /\ reached buf r' /\
    rest_bits buf (available r') = skipn (Z.to_nat n) (rest_bits buf (available r)).
Proof.
  intros Hb Hne HR Hn Ha. assert (N : 0 <= n < 2 ^ 64) by lia.
  destruct (C02_bounds buf r n Hb Hne HR N) as (_ & _ & H). destruct (H ltac:(lia) Ha) as (r' & v & E & _ & _ & A).
  pose proof (Z.mod_pos_bound (available r') 8 ltac:(lia)).
  destruct (C01_read_bits_partial buf r n r' v Hb Hne HR N E ltac:(lia)) as (V & _ & R & HR').
  exists r'. splits; try assumption. rewrite E, V. reflexivity.
Qed.

Lemma bval_pieces (u : list bool) n m : 0 <= n -> 0 <= m -> n + m <= zlen u ->
  bval (firstn (Z.to_nat (n + m)) u) = bval (firstn (Z.to_nat n) u) * 2 ^ m + bval (firstn (Z.to_nat m) (skipn (Z.to_nat n) u)).
Proof.
  intros Hn Hm H. replace (firstn (Z.to_nat (n + m)) u) with (firstn (Z.to_nat n) u ++ firstn (Z.to_nat m) (skipn (Z.to_nat n) u)).
  - rewrite bval_app. do 3 f_equal. unfold zlen in *. rewrite firstn_length, skipn_length. lia.
  - rewrite Z2Nat.inj_add by lia. rewrite <- (firstn_skipn (Z.to_nat n) u) at 3.
    assert (L : length (firstn (Z.to_nat n) u) = Z.to_nat n) by (rewrite firstn_length; unfold zlen in H; lia).
    rewrite <- L at 3. rewrite firstn_app_2. reflexivity.
Qed.

Lemma read_pieces buf r n m : buf_ok buf -> buf <> [] -> reached buf r -> 0 <= n <= 25 -> 0 <= m <= 25 -> n + m <= available r ->
  exists r1 a r2 b, read_bits r n = (r1, Ok a) /\ read_bits r1 m = (r2, Ok b) /\ available r2 = available r - (n + m) /\
    a * 2 ^ m + b = bval (firstn (Z.to_nat (n + m)) (rest_bits buf (available r))).
Proof.
  intros Hb Hne HR Hn Hm Ha.
  destruct (read_piece buf r n Hb Hne HR Hn ltac:(lia)) as (r1 & E1 & A1 & R1 & U1).
  destruct (read_piece buf r1 m Hb Hne R1 Hm ltac:(lia)) as (r2 & E2 & A2 & R2 & U2).
  do 4 eexists. splits; try eassumption; [lia|]. rewrite U1, bval_pieces; try lia.
  destruct (C02_bounds buf r 0 Hb Hne HR ltac:(lia)) as (B & _). rewrite rest_bits_zlen by lia. lia.
Qed.

Lemma read_whole buf r n m : buf_ok buf -> buf <> [] -> reached buf r -> 0 <= n -> 0 <= m -> n + m <= 25 -> n + m <= available r ->
  exists r1 a r2 b r', read_bits r n = (r1, Ok a) /\ read_bits r1 m = (r2, Ok b) /\
    read_bits r (n + m) = (r', Ok (a * 2 ^ m + b)) /\ available r' = available r2.
Proof.
  intros Hb Hne HR Hn Hm Hs Ha.
  destruct (read_pieces buf r n m Hb Hne HR ltac:(lia) ltac:(lia) Ha) as (r1 & a & r2 & b & E1 & E2 & A & V).
  destruct (read_piece buf r (n + m) Hb Hne HR ltac:(lia) Ha) as (r' & E & A' & _).
  exists r1, a, r2, b, r'. splits; try assumption; [rewrite V; exact E|lia].
Qed.
