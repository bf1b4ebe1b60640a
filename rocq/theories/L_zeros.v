(* Lemmas: byte streams with zero bytes around the units. *)
From Verif Require Import Base S_annexb M_annexb S_zeros L_base L_annexb.

Lemma raw_app e : forall z, last e 1 <> 0 -> ebsp_to_raw (e ++ z) = ebsp_to_raw e ++ ebsp_to_raw z.
Proof.
  induction e as [e IH] using list_ind_len. intros z L. destruct e as [|a r]; [reflexivity|].
  assert (T : forall x, last r 1 <> 0 -> ebsp_to_raw (r ++ x) = ebsp_to_raw r ++ ebsp_to_raw x) by (intros; apply IH; [cbn [length]; lia|assumption]).
  destruct (Z.eq_dec a 0) as [->|N].
  2:{ cbn [app]. rewrite !raw_nz by exact N. rewrite T; [reflexivity|]. destruct r; [cbn; lia|exact L]. }
  destruct r as [|b r]; [cbn in L; lia|]. destruct (Z.eq_dec b 0) as [->|NB].
  2:{ cbn [app]. rewrite !raw_0nz by exact NB. cbn [app]. rewrite IH; [reflexivity|cbn [length]; lia|]. destruct r; [cbn; lia|exact L]. }
  destruct r as [|c r]; [cbn in L; lia|]. destruct (Z.eq_dec c 3) as [->|NC].
  - cbn [app]. rewrite !raw_003. cbn [app]. rewrite IH; [reflexivity|cbn [length]; lia|]. destruct r; [cbn; lia|exact L].
  - cbn [app]. rewrite !raw_00n by exact NC. cbn [app]. f_equal. exact (T z L).
Qed.
Lemma raw_zeros k : ebsp_to_raw (repeat 0 k) = repeat 0 k.
Proof.
  induction k as [k IH] using lt_wf_ind. destruct k as [|[|[|k]]]; try reflexivity. cbn [repeat].
  rewrite raw_00n by lia. f_equal. exact (IH (S (S k)) ltac:(lia)).
Qed.

Lemma no_start_zeros e m : no_start e -> no_start (e ++ repeat 0 m).
Proof.
  assert (Z0 : forall m, no_start (repeat 0 m)).
  { clear. intros m (a & b & E). assert (In 1 (repeat 0 m)) by (rewrite E; apply in_or_app; right; right; right; left; reflexivity).
    apply repeat_spec in H. discriminate. }
  induction e as [|a e IH]; intros N; [apply Z0|]. destruct (no_start_cons _ _ N) as (N1 & N2). unfold no_start. cbn [app].
  rewrite contains_cons. intros [(t & E)|C]; [|exact (IH N1 C)].
  destruct e as [|b [|c e]].
  - destruct m as [|[|m]]; discriminate E.
  - destruct m as [|m]; discriminate E.
  - cbn [app] in E. injection E as -> -> -> E. eapply N2; reflexivity.
Qed.

Lemma scan_before l : forall cur d r, no_start (l ++ [0; 0]) -> scan cur (l ++ 0 :: 0 :: 1 :: d :: r) = emit (cur ++ l) ++ scan [] (d :: r).
Proof.
  induction l as [|a l IH]; intros cur d r N; [rewrite app_nil_r; apply scan_code|]. cbn [app] in *. destruct (no_start_cons _ _ N) as (N1 & N2).
  replace (cur ++ a :: l) with ((cur ++ [a]) ++ l) by (rewrite <- app_assoc; reflexivity). rewrite <- IH by exact N1.
  apply scan_step'. destruct (Z.eq_dec a 0) as [->|A]; [left|right; left; exact A]. intros r3 E.
  destruct l as [|b [|c l]]; cbn [app] in E; injection E as E1 E2; try discriminate. subst b c. eapply N2. reflexivity.
Qed.

Lemma repeat_snoc k : repeat 0 (S k) = repeat 0 k ++ [0].
Proof. cbn [repeat]. rewrite repeat_cons. reflexivity. Qed.
Lemma emit_zeros e k : last e 1 <> 0 -> e <> [] -> emit (e ++ repeat 0 k) = [e ++ repeat 0 (k - 1)].
Proof.
  intros L N. unfold emit. destruct k as [|k].
  - cbn [repeat Nat.sub]. rewrite !app_nil_r. replace (last e 1 =? 0) with false by lia. destruct e; [contradiction|reflexivity].
  - rewrite repeat_snoc, app_assoc, last_last, removelast_last. cbn [Z.eqb]. replace (S k - 1)%nat with k by lia.
    destruct (e ++ repeat 0 k) eqn:E; [destruct e; [contradiction|discriminate E]|reflexivity].
Qed.
Lemma emit_lead k : emit (repeat 0 k) = if (2 <=? k)%nat then [repeat 0 (k - 1)] else [].
Proof.
  unfold emit. destruct k as [|k]; [reflexivity|]. rewrite repeat_snoc, last_last, removelast_last. cbn [Z.eqb].
  destruct k; [reflexivity|]. replace (2 <=? S (S k))%nat with true by lia. replace (S (S k) - 1)%nat with (S k) by lia. reflexivity.
Qed.

Lemma scan_zero_stream us : forall u t, Forall (fun u => bytes_ok (snd u) /\ snd u <> [] /\ rbsp_legal (snd u)) us ->
  bytes_ok u -> u <> [] -> rbsp_legal u ->
  map ebsp_to_raw (scan [] (encapsulate u ++ zero_stream us t)) = with_zeros u us t.
Proof.
  assert (RAW : forall u k, bytes_ok u -> rbsp_legal u -> ebsp_to_raw (encapsulate u ++ repeat 0 k) = u ++ repeat 0 k).
  { intros u k B R. rewrite raw_app by apply (encapsulate_props u B). rewrite raw_zeros. f_equal.
    unfold encapsulate. pose proof (raw_enc_body [3] (or_intror eq_refl) u 0) as X. cbn in X. rewrite X by (assumption || lia).
    unfold rbsp_legal, trail_zeros in R. rewrite <- Nat.negb_even, R. apply app_nil_r. }
  induction us as [|[k u'] us IH]; intros u t F B N R; destruct (encapsulate_props u B) as (P1 & P2).
  - unfold zero_stream. cbn [flat_map app with_zeros]. rewrite (scan_none _ [] (no_start_zeros _ t P1)). cbn [map app]. rewrite RAW by assumption. reflexivity.
  - apply Forall_cons_iff in F as ((B' & N' & R') & F). cbn [snd] in *. cbn [with_zeros].
    specialize (IH u' t F B' N' R'). pose proof (encapsulate_nonempty u' N') as P3.
    replace (encapsulate u ++ zero_stream ((k, u') :: us) t) with ((encapsulate u ++ repeat 0 k) ++ 0 :: 0 :: 1 :: encapsulate u' ++ zero_stream us t)
      by (unfold zero_stream; cbn [flat_map fst snd]; rewrite <- !app_assoc; reflexivity).
    destruct (encapsulate u') as [|d e] eqn:E; [contradiction|]. cbn [app] in *.
    rewrite scan_before by (rewrite <- app_assoc; replace (repeat 0 k ++ [0; 0]) with (repeat 0 (k + 2)) by (rewrite repeat_app; reflexivity); apply no_start_zeros, P1).
    cbn [app]. rewrite emit_zeros by (try exact P2; apply encapsulate_nonempty, N). cbn [app map]. rewrite RAW by assumption. f_equal. exact IH.
Qed.

Lemma split_zeros k u us t : Forall (fun u => bytes_ok (snd u) /\ snd u <> [] /\ rbsp_legal (snd u)) ((k, u) :: us) ->
  split_annexb (zero_stream ((k, u) :: us) t) = Ok ((if (2 <=? k)%nat then [repeat 0 (k - 1)] else []) ++ with_zeros u us t).
Proof.
  intros F. apply Forall_cons_iff in F as ((B & N & R) & F). cbn [snd] in *. rewrite split_annexb_scan. f_equal.
  replace (zero_stream ((k, u) :: us) t) with (repeat 0 k ++ 0 :: 0 :: 1 :: encapsulate u ++ zero_stream us t)
    by (unfold zero_stream; cbn [flat_map fst snd]; rewrite <- !app_assoc; reflexivity).
  pose proof (scan_zero_stream us u t F B N R) as X. pose proof (encapsulate_nonempty u N) as P3.
  destruct (encapsulate u) as [|d e] eqn:E; [contradiction|]. cbn [app] in *.
  rewrite scan_before.
  2:{ replace (repeat 0 k ++ [0; 0]) with ([] ++ repeat 0 (k + 2)) by (rewrite repeat_app; reflexivity). apply no_start_zeros. intros (a & b & Y). destruct a; discriminate Y. }
  cbn [app]. rewrite map_app, X. f_equal. rewrite emit_lead. destruct (2 <=? k)%nat; [|reflexivity]. cbn [map]. rewrite raw_zeros. reflexivity.
Qed.

Lemma with_zeros_len us : forall u t, length (with_zeros u us t) = S (length us).
Proof. induction us as [|[k u'] us IH]; intros u t; cbn [with_zeros length]; [reflexivity|]. rewrite IH. reflexivity. Qed.
Lemma app_self {A} (a b : list A) : a ++ b = a <-> b = [].
Proof. split; [|intros ->; apply app_nil_r]. intros E. apply (app_inv_head a). rewrite E, app_nil_r. reflexivity. Qed.
Lemma repeat_nil k : repeat 0 k = [] <-> k = 0%nat.
Proof. destruct k; cbn; split; try discriminate; reflexivity. Qed.
Lemma with_zeros_same us : forall u t, with_zeros u us t = u :: map snd us <-> Forall (fun u => (fst u <= 1)%nat) us /\ t = 0%nat.
Proof.
  induction us as [|[k u'] us IH]; intros u t; cbn [with_zeros map snd].
  - split.
    + intros E. injection E as E. apply app_self, repeat_nil in E. split; [constructor|exact E].
    + intros (_ & ->). cbn [repeat]. rewrite app_nil_r. reflexivity.
  - rewrite Forall_cons_iff. cbn [fst]. specialize (IH u' t). split.
    + intros E. injection E as E1 E2. apply app_self, repeat_nil in E1. apply IH in E2 as (E2 & E3). splits; [lia|exact E2|exact E3].
    + intros ((K & F) & T). f_equal; [|apply IH; split; assumption]. replace (k - 1)%nat with 0%nat by lia. apply app_nil_r.
Qed.
