(* Lemmas for P_joined: the scanner on two streams one after the other. *)
From Verif Require Import Base S_annexb M_annexb S_joined L_base L_annexb L_zeros.

Lemma scan_joined a : forall cur long d r, whole a -> scan cur (a ++ start_code long ++ d :: r) = scan cur a ++ scan [] (d :: r).
Proof.
  induction a as [a IH] using list_ind_len. intros cur long d r (N & L & S).
  destruct a as [|x [|y [|z [|w a]]]]; [contradiction| | | |].
  - match goal with |- _ = scan cur ?l ++ _ => rewrite (scan_short l ltac:(cbn; lia)) end; rewrite scan_unit; [destruct cur; reflexivity| |exact L|discriminate];
    intros (p & q & E); apply (f_equal (@length Z)) in E as E2; rewrite !app_length in E2; cbn [length] in E2; lia.
  - match goal with |- _ = scan cur ?l ++ _ => rewrite (scan_short l ltac:(cbn; lia)) end; rewrite scan_unit; [destruct cur; reflexivity| |exact L|discriminate];
    intros (p & q & E); apply (f_equal (@length Z)) in E as E2; rewrite !app_length in E2; cbn [length] in E2; lia.
  - match goal with |- _ = scan cur ?l ++ _ => rewrite (scan_short l ltac:(cbn; lia)) end; rewrite scan_unit; [destruct cur; reflexivity| |exact L|discriminate];
    intros (p & q & E); apply (f_equal (@length Z)) in E as E2; rewrite !app_length in E2; cbn [length] in E2.
    destruct p; [|cbn [length] in E2; lia]. destruct q; [|cbn [length] in E2; lia]. apply S. exists []. exact E.
  - assert (W : forall v l, v :: l = w :: a \/ v :: l = y :: z :: w :: a -> whole (v :: l)).
    { intros v l [E|E]; rewrite E; (split; [discriminate|split; [exact L|]]); intros (p & E'); apply S.
      - exists (x :: y :: z :: p). cbn [app]. rewrite E'. reflexivity.
      - exists (x :: p). cbn [app]. rewrite E'. reflexivity. }
    destruct (Z.eq_dec x 0) as [->|X]; [destruct (Z.eq_dec y 0) as [->|Y]; [destruct (Z.eq_dec z 1) as [->|Z]|]|].
    + cbn [app]. rewrite !scan_code. rewrite <- app_assoc. f_equal. apply (IH (w :: a)); [cbn [length]; lia|apply W; left; reflexivity].
    + cbn [app]. rewrite !scan_step by lia. apply (IH (0 :: z :: w :: a)); [cbn [length]; lia|apply W; right; reflexivity].
    + cbn [app]. rewrite !scan_step by lia. apply (IH (y :: z :: w :: a)); [cbn [length]; lia|apply W; right; reflexivity].
    + cbn [app]. rewrite !scan_step by lia. apply (IH (y :: z :: w :: a)); [cbn [length]; lia|apply W; right; reflexivity].
Qed.
Lemma split_joined a b long : whole a -> b <> [] ->
  exists us vs, split_annexb a = Ok us /\ split_annexb b = Ok vs /\ split_annexb (a ++ start_code long ++ b) = Ok (us ++ vs).
Proof.
  intros W N. destruct b as [|d r]; [contradiction|]. rewrite !split_annexb_scan. do 2 eexists. splits; [reflexivity|reflexivity|].
  rewrite scan_joined by exact W. rewrite map_app. reflexivity.
Qed.
