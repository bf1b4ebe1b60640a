From Verif Require Import Base M_annexb L_annexb.

(* Either no start code is found, or what follows the first one is read afresh,
   whatever comes behind it. *)
Lemma scan_afresh : forall a cur,
  scan cur a = [cur ++ a] \/
  exists us p a', a = p ++ [0; 0; 1] ++ a' /\ (length a' < length a)%nat /\
    forall b, scan cur (a ++ b) = us ++ scan [] (a' ++ b).
Proof.
  induction a as [|x a IH]; intros cur.
  - left. rewrite app_nil_r. reflexivity.
  - destruct a as [|y [|z [|w r]]]; try (left; apply scan_short; cbn; lia).
    destruct ((x =? 0) && (y =? 0) && (z =? 1)) eqn:E.
    + right. assert (x = 0 /\ y = 0 /\ z = 1) as (-> & -> & ->) by lia.
      exists (emit cur), [], (w :: r). split; [reflexivity|]. split; [cbn; lia|].
      intros b. reflexivity.
    + assert (N : ~ (x = 0 /\ y = 0 /\ z = 1)) by lia.
      destruct (IH (cur ++ [x])) as [S | (us & p & a' & Ea & El & S)].
      * left. rewrite scan_step by exact N. rewrite S, <- app_assoc. reflexivity.
      * right. exists us, (x :: p), a'. split; [rewrite Ea; reflexivity|].
        split; [cbn [length] in *; lia|]. intros b. rewrite <- S.
        cbn [app]. apply scan_step. exact N.
Qed.

Lemma scan_as_it_comes : forall a, exists p q us,
  a = p ++ q /\ (p = [] \/ exists p', p = p' ++ [0; 0; 1]) /\ scan [] q = [q] /\
  forall b, scan [] (a ++ b) = us ++ scan [] (q ++ b).
Proof.
  induction a as [a IH] using list_ind_len.
  destruct (scan_afresh a []) as [S | (us & p & a' & Ea & El & S)].
  - exists [], a, []. split; [reflexivity|]. split; [left; reflexivity|]. split; [exact S|]. intros b. reflexivity.
  - destruct (IH a' El) as (p' & q & us' & E' & P & Q & S').
    exists (p ++ [0; 0; 1] ++ p'), q, (us ++ us'). split; [rewrite Ea, E', <- !app_assoc; reflexivity|].
    split; [right; destruct P as [-> | (p2 & ->)]; [exists p; rewrite app_nil_r; reflexivity|]|].
    { exists (p ++ [0; 0; 1] ++ p2). rewrite <- !app_assoc. reflexivity. }
    split; [exact Q|]. intros b. rewrite S, S', app_assoc. reflexivity.
Qed.

Lemma split_as_it_comes : forall a, exists p q us u,
  a = p ++ q /\ (p = [] \/ exists p', p = p' ++ [0; 0; 1]) /\ split_annexb q = Ok [u] /\ split_annexb a = Ok (us ++ [u]) /\
  forall b, exists ws,
    split_annexb (q ++ b) = Ok ws /\ split_annexb (a ++ b) = Ok (us ++ ws).
Proof.
  intros a. destruct (scan_as_it_comes a) as (p & q & us & Ea & P & Q & S).
  exists p, q, (map ebsp_to_raw us), (ebsp_to_raw q).
  split; [exact Ea|]. split; [exact P|]. split; [rewrite split_annexb_scan, Q; reflexivity|]. split.
  - rewrite split_annexb_scan. specialize (S []). rewrite !app_nil_r in S.
    rewrite S, Q, map_app. reflexivity.
  - intros b. exists (map ebsp_to_raw (scan [] (q ++ b))).
    rewrite !split_annexb_scan, S, map_app. split; reflexivity.
Qed.
