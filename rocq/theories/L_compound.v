(* Lemmas for compound RTCP packets. *)
From Verif Require Import Base L_base M_rtp S_rtp L_rtp S_compound.

(* what is returned for a packet *)
Definition packet_of (r : report) : rtcp_packet :=
  match r with
  | Sender pad s bl _ => mkRtcp (128 + 32 * bit pad + zlen bl) 200 (report_size r / 4 - 1)
      (Some (mkSR (si_ssrc s) (si_ntp s) (si_rtp s) (si_packets s) (si_octets s) []))
  | Other pad c t _ => mkRtcp (128 + 32 * bit pad + c) t (report_size r / 4 - 1) None
  end.

Lemma report_words r : report_legal r -> word 2 (report_size r / 4 - 1) /\ 4 * (report_size r / 4 - 1 + 1) = report_size r.
Proof.
  intros (M & L & _). assert (G : 4 <= report_size r).
  { destruct r; cbn [report_size]; [pose proof (zlen_nonneg blocks); pose proof (zlen_nonneg ext) | pose proof (zlen_nonneg body)]; lia. }
  pose proof (Z.div_mod (report_size r) 4 ltac:(lia)). unfold word. change (256 ^ Z.of_nat 2) with 65536. split; lia.
Qed.

Lemma report_unpack r rest : report_legal r -> rtcp_unpack (report_bytes r ++ rest) = Ok (packet_of r).
Proof.
  intros H. destruct (report_words r H) as (W & _). destruct H as (_ & _ & H).
  destruct r as [pad s bl ext | pad c t body]; cbn [report_bytes packet_of] in *.
  - destruct H as (Hs & Hb). unfold sr_layout. rewrite <- !app_assoc. change (rtcp_unpack (sr_layout pad (report_size (Sender pad s bl ext) / 4 - 1) s bl (ext ++ rest)) =
      Ok (mkRtcp (128 + 32 * bit pad + zlen bl) 200 (report_size (Sender pad s bl ext) / 4 - 1)
        (Some (mkSR (si_ssrc s) (si_ntp s) (si_rtp s) (si_packets s) (si_octets s) [])))).
    apply rtcp_unpack_sr; assumption.
  - destruct H as (Hc & _ & Ht). rewrite <- app_assoc. apply rtcp_unpack_other; assumption.
Qed.

Lemma report_length r : zlen (report_bytes r) = report_size r.
Proof.
  destruct r; cbn [report_bytes report_size]; unfold sr_layout, rtcp_header_bytes;
    rewrite !zlen_app, !zlen_be_put, !zlen_cons, zlen_nil; [rewrite flat_rb_length|]; lia.
Qed.

Lemma walk_reports : forall rs rest, Forall report_legal rs ->
  walk rtcp_unpack rtcp_ln (length rs) (flat_map report_bytes rs ++ rest) = Ok (map packet_of rs, rest).
Proof.
  induction rs as [|r rs IH]; intros rest H; [reflexivity|]. apply Forall_cons_iff in H. destruct H as (Hr & H).
  cbn [length flat_map map walk]. rewrite <- app_assoc, report_unpack by exact Hr. cbn [bind].
  destruct (report_words r Hr) as (_ & E).
  replace (rtcp_ln (packet_of r)) with (report_size r / 4 - 1) by (destruct r; reflexivity).
  rewrite E, <- report_length. unfold zlen. rewrite Nat2Z.id, skipn_app, skipn_all, Nat.sub_diag. cbn [skipn app].
  rewrite IH by exact H. reflexivity.
Qed.

Lemma firstn4 {A} (a b c d : A) r n : (4 <= n)%nat -> firstn n (a :: b :: c :: d :: r) = a :: b :: c :: d :: firstn (n - 4) r.
Proof. intros H. destruct n as [|[|[|[|n]]]]; try lia. cbn [firstn]. do 4 f_equal. f_equal. lia. Qed.

Lemma firstn_skip {A} k j n (l : list A) : (j + k <= n)%nat -> firstn k (skipn j (firstn n l)) = firstn k (skipn j l).
Proof. intros H. rewrite skipn_firstn_comm, firstn_firstn. f_equal. lia. Qed.

(* what a string says about its first packet depends on what comes behind that just for a sender report
   too short for its blocks *)
Lemma own_bytes a b c d r n : byte_ok a -> (4 <= n)%nat -> (n <= 4 + length r)%nat ->
  let buf := a :: b :: c :: d :: r in
  rtcp_unpack (firstn n buf) = rtcp_unpack buf <->
  ~ (a / 64 = 2 /\ b = 200 /\ Z.of_nat n < 28 + 24 * (a mod 32) <= zlen buf).
Proof.
  intros Ha Hn Hl buf. unfold buf. rewrite firstn4 by exact Hn. rewrite !rtcp_outcome by exact Ha. cbv zeta.
  change 31 with (Z.ones 5). rewrite Z.land_ones by lia. change (2 ^ 5) with 32. rewrite !zlen_cons.
  assert (E : zlen (firstn (n - 4) r) = Z.of_nat n - 4) by (unfold zlen; rewrite firstn_length; lia).
  assert (El : Z.of_nat n <= zlen r + 4) by (unfold zlen; lia).
  rewrite E. destruct (Z.eqb_spec (a / 64) 2) as [V|V]; cbn [negb]; [|split; [tauto|reflexivity]].
  destruct (Z.eqb_spec b 200) as [B|B]; cbn [andb]; [|split; [tauto|reflexivity]].
  assert (A : 0 <= a mod 32 < 32) by (apply Z.mod_pos_bound; lia).
  repeat match goal with |- context [?x <? ?y] => destruct (Z.ltb_spec x y) end.
  - split; [intros _ ?; lia|reflexivity].
  - split; [discriminate|]. intros N; exfalso; apply N; repeat split; lia.
  - lia.
  - split; [intros _ ?; lia|]. intros _.
    rewrite !firstn_skip, firstn_firstn, Nat.min_l by lia. reflexivity.
Qed.

Lemma own_short pad len s bl rest : word 2 len -> zlen bl <= 31 -> 4 * (len + 1) < 28 + 24 * zlen bl ->
  rtcp_unpack (firstn (Z.to_nat (4 * (len + 1))) (sr_layout pad len s bl rest)) = Err ErrPacketTooShort.
Proof.
  intros W Hb L. unfold word in W. assert (Hl : 0 <= len) by lia.
  destruct (rtcp0_join pad (zlen bl)) as (B0 & V & _ & C); [pose proof (zlen_nonneg bl); lia|].
  unfold sr_layout, rtcp_header_bytes. set (b0 := 128 + 32 * bit pad + zlen bl) in *. set (n := Z.to_nat (4 * (len + 1))).
  pose proof (zlen_be_put 2 len) as E2. destruct (be_put 2 len) as [|c [|d [|x q]]] eqn:E; unfold zlen in E2; cbn [length] in E2; try lia.
  cbn [app]. rewrite firstn4 by (subst n; lia). rewrite rtcp_outcome by exact B0. cbv zeta.
  assert (D : b0 / 64 =? 2 = true). { destruct (byte0_split b0 B0) as (Q & _). congruence. }
  rewrite D. cbn [negb]. change (200 =? 200) with true. cbn [andb]. rewrite C.
  match goal with |- context [?x <? ?y] => destruct (Z.ltb_spec x y) as [|G]; [reflexivity|exfalso] end.
  rewrite !zlen_cons in G. unfold zlen in G. rewrite firstn_length in G. subst n. fold (zlen bl) in G. unfold zlen in G, L. lia.
Qed.
