(* Lemmas: how much comes out of a sink. *)
From Verif Require Import Base S_annexb S_nal M_annexb M_nal S_frags S_volume L_base L_annexb L_nal L_frags L_serve.
From Coq Require Import ZifyBool ZifyNat.

Definition frag_bytes (fs : list fragment) : Z := fold_right (fun f n => zlen (u_data (f_unit f)) + n) 0 fs.
Lemma frag_bytes_cons f fs : frag_bytes (f :: fs) = zlen (u_data (f_unit f)) + frag_bytes fs.
Proof. reflexivity. Qed.
Lemma frag_bytes_nonneg fs : 0 <= frag_bytes fs.
Proof. induction fs as [|f fs IH]; [cbn; lia|]. rewrite frag_bytes_cons. pose proof (zlen_nonneg (u_data (f_unit f))). lia. Qed.
Lemma frag_bytes_app a b : frag_bytes (a ++ b) = frag_bytes a + frag_bytes b.
Proof. induction a as [|f a IH]; cbn [app]; [cbn; lia|]. rewrite !frag_bytes_cons, IH. lia. Qed.
Lemma frag_bytes_join fs : zlen (flat_map (fun f => u_data (f_unit f)) fs) = frag_bytes fs.
Proof. induction fs as [|f fs IH]; [reflexivity|]. cbn [flat_map]. rewrite frag_bytes_cons, L_serve.zlen_app, IH. reflexivity. Qed.
Lemma units_bytes_cons u us : units_bytes (u :: us) = unit_bytes u + units_bytes us.
Proof. reflexivity. Qed.
Lemma units_bytes_app a b : units_bytes (a ++ b) = units_bytes a + units_bytes b.
Proof. induction a as [|f a IH]; cbn [app]; [cbn; lia|]. rewrite !units_bytes_cons, IH. lia. Qed.
Lemma units_bytes_nonneg a : 0 <= units_bytes a.
Proof. induction a as [|u a IH]; [cbn; lia|]. rewrite units_bytes_cons. unfold unit_bytes. pose proof (zlen_nonneg (u_data u)). lia. Qed.
Lemma units_bytes_one u : units_bytes [u] = unit_bytes u.
Proof. unfold units_bytes. cbn. lia. Qed.

Lemma slice_zlen {A} (l : list A) lo hi d : slice l lo hi = Ok d -> zlen d = Z.of_nat hi - Z.of_nat lo /\ Z.of_nat hi <= zlen l.
Proof. unfold slice. destruct ((lo <=? hi)%nat && (hi <=? length l)%nat) eqn:E; [|discriminate]. intros [= <-]. unfold zlen. rewrite firstn_length, skipn_length. lia. Qed.
Lemma slice_from_zlen {A} (l : list A) lo d : slice_from l lo = Ok d -> zlen d = zlen l - Z.of_nat lo.
Proof. unfold slice_from. destruct (lo <=? length l)%nat eqn:E; [|discriminate]. intros [= <-]. unfold zlen. rewrite skipn_length. lia. Qed.

Lemma stap_loop_bytes : forall f s buf ts, units_bytes (s_units (fst (stap_loop f s buf ts))) <= units_bytes (s_units s) + zlen buf.
Proof.
  induction f as [|f IH]; intros s buf ts; cbn [stap_loop]; pose proof (zlen_nonneg buf) as NN; destruct (zlen buf <? 2); try (cbn [fst]; lia).
  destruct (be_uint16 buf) as [size| | |]; try (cbn [fst]; lia). cbv zeta. destruct (zlen buf <? u16 (size + 2)); try (cbn [fst]; lia).
  destruct (index buf 2) as [h| | |]; try (cbn [fst]; lia). destruct (slice buf 3 _) as [d| | |] eqn:D; try (cbn [fst]; lia). destruct (slice_from buf _) as [rest| | |] eqn:R; try (cbn [fst]; lia).
  eapply Z.le_trans; [apply IH|]. cbn [s_units]. rewrite units_bytes_app, units_bytes_one. unfold unit_bytes. cbn [u_data]. apply slice_zlen in D. apply slice_from_zlen in R. lia.
Qed.
Lemma mtap_loop_bytes : forall f wide s buf ts, units_bytes (s_units (fst (mtap_loop f wide s buf ts))) <= units_bytes (s_units s) + zlen buf.
Proof.
  induction f as [|f IH]; intros wide s buf ts; cbn [mtap_loop]; cbv zeta; pose proof (zlen_nonneg buf) as NN; destruct (zlen buf <? (if wide then 6 else 5)); try (cbn [fst]; lia).
  destruct (be_uint16 buf) as [size| | |]; try (cbn [fst]; lia). destruct (index buf 2) as [b2| | |]; try (cbn [fst]; lia). destruct (index buf 3) as [b3| | |]; try (cbn [fst]; lia). destruct (index buf 4) as [b4| | |]; try (cbn [fst]; lia).
  destruct (if wide then index buf 5 else Ok 0) as [b5| | |]; try (cbn [fst]; lia). destruct (zlen buf <? u16 (size + _)); try (cbn [fst]; lia).
  destruct (index buf _) as [h| | |]; try (cbn [fst]; lia). destruct (slice buf _ _) as [d| | |] eqn:D; try (cbn [fst]; lia). destruct (slice_from buf _) as [rest| | |] eqn:R; try (cbn [fst]; lia).
  eapply Z.le_trans; [apply IH|]. cbn [s_units]. rewrite units_bytes_app, units_bytes_one. unfold unit_bytes. cbn [u_data]. apply slice_zlen in D. apply slice_from_zlen in R. destruct wide; lia.
Qed.

(* one NAL unit of a payload: either no fragment, or one *)
Lemma add_fragment_units s i h d ts x : s_units (add_fragment s i h d ts x) =
  s_units s ++ (if negb (Z.land h 64 =? 0) then [mkUnit i d ts (flat_map (fun f => u_data (f_unit f)) (s_frags (add_fragment s i h d ts x)))] else []).
Proof. unfold add_fragment. destruct (negb (Z.land h 64 =? 0)); cbn [s_units s_frags]; [reflexivity|rewrite app_nil_r; reflexivity]. Qed.
Lemma parse_volume s n ts : bytes_ok n -> let s' := fst (parse_nal s n ts) in
  match fu_of n with
  | (st, en, d) :: _ => zlen d + 2 <= zlen n /\ frag_bytes (s_frags s') = (if st then 0 else frag_bytes (s_frags s)) + zlen d /\ units_bytes (s_units s') = if en then 1 + frag_bytes (s_frags s') else 0
  | [] => s_frags s' = s_frags s /\ units_bytes (s_units s') <= zlen n
  end.
Proof.
  intros H s'. destruct n as [|h r]; [cbn; split; [reflexivity|lia]|]. apply Forall_cons_iff in H as [Hh H]. pose proof (zlen_nonneg r) as NN. unfold s'. clear s'.
  assert (NF : nal_type h <> 28 -> nal_type h <> 29 -> fu_of (h :: r) = []).
  { intros A B. unfold fu_of. destruct r as [|b1 r]; [reflexivity|]. replace (nal_type h =? 28) with false by lia. replace (nal_type h =? 29) with false by lia. reflexivity. }
  assert (FR : forall i b1 don x, byte_ok b1 -> zlen x + 2 <= zlen (h :: r) -> let s' := add_fragment (fresh s) i b1 don ts x in
    zlen x + 2 <= zlen (h :: r) /\ frag_bytes (s_frags s') = (if 128 <=? b1 then 0 else frag_bytes (s_frags s)) + zlen x /\ units_bytes (s_units s') = if 64 <=? b1 mod 128 then 1 + frag_bytes (s_frags s') else 0).
  { intros i b1 don x B L s'. destruct (flag_bits b1 B) as [F1 F2]. split; [exact L|]. unfold s'. rewrite add_fragment_units, add_fragment_frags, F1, F2. split.
    - rewrite frag_bytes_app, frag_bytes_cons. change (frag_bytes []) with 0. cbn [f_unit u_data]. destruct (128 <=? b1); cbn [fresh s_frags]; [change (frag_bytes []) with 0|]; lia.
    - cbn [fresh s_units app]. destruct (64 <=? b1 mod 128); [|reflexivity]. rewrite units_bytes_one. unfold unit_bytes. cbn [u_data]. rewrite frag_bytes_join. reflexivity. }
  destruct (type_cases h Hh) as [T|[T|[(w & T)|[T|[T|T]]]]].
  - rewrite NF by lia. rewrite parse_stap_a by assumption. unfold stap_run. rewrite stap_loop_frags. split; [reflexivity|]. pose proof (stap_loop_bytes (length r) (fresh s) r ts) as X. cbn [fresh s_units] in X. change (units_bytes []) with 0 in X. rewrite zlen_cons. lia.
  - rewrite NF by lia. destruct (Z_lt_ge_dec (zlen r) 2); [rewrite parse_short by auto; cbn [fst fresh s_frags s_units]; split; [reflexivity|change (units_bytes []) with 0; rewrite zlen_cons; lia]|].
    destruct (split2 r H ltac:(unfold zlen in *; lia)) as (don & x & -> & Hn & Hx). rewrite parse_stap_b by assumption. unfold stap_run. rewrite stap_loop_frags. split; [reflexivity|].
    pose proof (stap_loop_bytes (length x) (mkSink [] (s_frags s) don) x ts) as X. cbn [s_units] in X. change (units_bytes []) with 0 in X. rewrite zlen_cons, L_serve.zlen_app, be_put2. change (zlen [_; _]) with 2. lia.
  - rewrite NF by (unfold is_mtap in T; destruct w; lia). destruct (Z_lt_ge_dec (zlen r) 2); [rewrite parse_short by (destruct w; auto); cbn [fst fresh s_frags s_units]; split; [reflexivity|change (units_bytes []) with 0; rewrite zlen_cons; lia]|].
    destruct (split2 r H ltac:(unfold zlen in *; lia)) as (don & x & -> & Hn & Hx). rewrite (parse_mtap_eq s w) by assumption. unfold mtap_run. rewrite mtap_loop_frags. split; [reflexivity|].
    pose proof (mtap_loop_bytes (length x) w (mkSink [] (s_frags s) don) x ts) as X. cbn [s_units] in X. change (units_bytes []) with 0 in X. rewrite zlen_cons, L_serve.zlen_app, be_put2. change (zlen [_; _]) with 2. lia.
  - destruct r as [|b1 r]; [unfold parse_nal; rewrite land31, T by exact Hh; cbn; split; [reflexivity|lia]|].
    apply Forall_cons_iff in H as [H1 H]. rewrite parse_fua by assumption. cbn [fst]. unfold fu_of. rewrite T, Z.eqb_refl. apply FR; [exact H1|rewrite !zlen_cons; lia].
  - destruct (Z_lt_ge_dec (zlen (h :: r)) 4) as [L|L].
    + unfold parse_nal. rewrite land31, T by exact Hh. cbn [Z.eqb Pos.eqb]. replace (zlen (h :: r) <? 4) with true by lia. unfold fu_of. destruct r as [|b1 r]; [cbn; split; [reflexivity|lia]|]. rewrite T. rewrite !zlen_cons in L. replace (2 <=? zlen r) with false by lia. cbn [fst s_frags s_units andb Z.eqb Pos.eqb]. split; [reflexivity|]. change (units_bytes []) with 0. rewrite !zlen_cons. pose proof (zlen_nonneg r). lia.
    + rewrite zlen_cons in L. destruct r as [|b1 r]; [cbn in L; lia|]. rewrite zlen_cons in L.
      apply Forall_cons_iff in H as [H1 H]. destruct (split2 r H ltac:(unfold zlen in *; lia)) as (don & x & -> & Hn & Hx).
      rewrite parse_fub by assumption. cbn [fst]. unfold fu_of. rewrite T. replace (2 <=? zlen (be_put 2 don ++ x)) with true by lia. cbn [Z.eqb Pos.eqb andb]. rewrite be_put2. cbn [app skipn]. rewrite be_put2 in FR. cbn [app] in FR. apply FR; [exact H1|rewrite !zlen_cons; lia].
  - rewrite NF by (unfold single in T; lia). rewrite parse_single by assumption. cbn [fst s_frags s_units]. split; [reflexivity|]. rewrite units_bytes_one. unfold unit_bytes. cbn [u_data]. rewrite zlen_cons. lia.
Qed.
Lemma parse_bound s n ts : bytes_ok n -> let s' := fst (parse_nal s n ts) in units_bytes (s_units s') <= zlen n + frag_bytes (s_frags s) /\ frag_bytes (s_frags s') <= frag_bytes (s_frags s) + zlen n.
Proof.
  intros H s'. pose proof (parse_volume s n ts H) as V. cbv zeta in V. fold s' in V. pose proof (frag_bytes_nonneg (s_frags s)) as N0. pose proof (zlen_nonneg n). destruct (fu_of n) as [|[[st en] d] ?].
  - destruct V as [-> V]. lia.
  - destruct V as (A & B & C). rewrite C. destruct st, en; lia.
Qed.

(* a payload *)
Definition total_zlen (l : list bytes) : Z := fold_right (fun x n => zlen x + n) 0 l.
Lemma total_zlen_cons x l : total_zlen (x :: l) = zlen x + total_zlen l.
Proof. reflexivity. Qed.
Lemma total_zlen_app a b : total_zlen (a ++ b) = total_zlen a + total_zlen b.
Proof. induction a as [|f a IH]; cbn [app]; [cbn; lia|]. rewrite !total_zlen_cons, IH. lia. Qed.
Lemma emit_zlen cur : total_zlen (emit cur) <= zlen cur.
Proof.
  unfold emit. cbv zeta. assert (R : zlen (removelast cur) <= zlen cur) by (destruct cur as [|a c] using rev_ind; [cbn; lia|rewrite removelast_last, L_serve.zlen_app; pose proof (zlen_nonneg [a]); lia]).
  pose proof (zlen_nonneg cur). destruct (last cur 1 =? 0).
  - destruct (removelast cur) as [|x t]; cbn [total_zlen fold_right]; lia.
  - destruct cur as [|x t]; cbn [total_zlen fold_right] in *; lia.
Qed.
Lemma scan_zlen : forall l cur, total_zlen (scan cur l) <= zlen cur + zlen l.
Proof.
  intros l. induction l as [l IH] using list_ind_len. intros cur. destruct (Nat.le_gt_cases (length l) 3) as [S|L].
  - rewrite scan_short by exact S. cbn [total_zlen fold_right]. rewrite L_serve.zlen_app. lia.
  - destruct l as [|a [|b [|c [|d r]]]]; cbn [length] in L; try lia. destruct ((a =? 0) && (b =? 0) && (c =? 1)) eqn:E.
    + assert (a = 0 /\ b = 0 /\ c = 1) as (-> & -> & ->) by lia. rewrite scan_code, total_zlen_app. pose proof (emit_zlen cur). pose proof (IH (d :: r) ltac:(cbn [length]; lia) []) as X. change (zlen []) with 0 in X. rewrite !zlen_cons in *. lia.
    + rewrite scan_step by (intros (-> & -> & ->); discriminate E). eapply Z.le_trans; [apply IH; cbn [length]; lia|]. rewrite L_serve.zlen_app, !zlen_cons. change (zlen []) with 0. lia.
Qed.
Lemma raw_short l : zlen (ebsp_to_raw l) <= zlen l.
Proof. pose proof (raw_zlen l) as R. assert (O : 0 <= occ l) by (clear; induction l as [|a r IH]; [cbn; lia|]; rewrite occ_cons; unfold at_front; destruct r as [|b [|c t]]; try lia; destruct (_ && _); lia). lia. Qed.

Lemma push_nals_bound nals : forall s ts, nals <> [] -> Forall bytes_ok nals -> let s' := fst (push_nals s nals ts) in
  units_bytes (s_units s') <= total_zlen nals + frag_bytes (s_frags s) /\ frag_bytes (s_frags s') <= frag_bytes (s_frags s) + total_zlen nals.
Proof.
  induction nals as [|n nals IH]; intros s ts N F s'; [contradiction N; reflexivity|]. apply Forall_cons_iff in F as [B F]. unfold s'. clear s' N. cbn [push_nals]. rewrite total_zlen_cons.
  pose proof (parse_bound s n ts B) as P. cbv zeta in P. assert (T : 0 <= total_zlen nals) by (clear; induction nals as [|x l IH]; [cbn; lia|rewrite total_zlen_cons; pose proof (zlen_nonneg x); lia]). pose proof (zlen_nonneg n) as NN. pose proof (frag_bytes_nonneg (s_frags s)) as FN.
  destruct (parse_nal s n ts) as [s1 o]. cbn [fst] in P. destruct o as [u|e| |]; cbn [fst]; try lia.
  destruct nals as [|m nals]; [cbn [push_nals fst]; lia|]. specialize (IH s1 ts ltac:(discriminate) F). cbv zeta in IH. lia.
Qed.
Lemma contains_bytes s buf : contains s buf -> bytes_ok buf -> bytes_ok s.
Proof. intros (a & b & ->) H. unfold bytes_ok in *. apply Forall_app in H as [_ H]. apply Forall_app in H as [H _]. exact H. Qed.
Lemma push_bound s p ts : bytes_ok p -> let s' := fst (push s p ts) in
  units_bytes (s_units s') <= zlen p + frag_bytes (s_frags s) /\ frag_bytes (s_frags s') <= frag_bytes (s_frags s) + zlen p.
Proof.
  intros B s'. unfold s'. unfold push. rewrite split_annexb_scan. pose proof (split_pieces p) as (ss & E & NE & X). rewrite split_annexb_scan in E. injection E as E.
  assert (T : total_zlen (map ebsp_to_raw (scan [] p)) <= zlen p).
  { pose proof (scan_zlen p []) as S. change (zlen []) with 0 in S. assert (M : forall l, total_zlen (map ebsp_to_raw l) <= total_zlen l) by (induction l as [|x l IH]; [cbn; lia|cbn [map]; rewrite !total_zlen_cons; pose proof (raw_short x); lia]). pose proof (M (scan [] p)). lia. }
  assert (F : Forall bytes_ok (map ebsp_to_raw (scan [] p))).
  { rewrite E. apply Forall_map. destruct p as [|b0 p].
    - cbn [scan map] in E. assert (L : length ss = 1%nat) by (apply (f_equal (@length _)) in E; rewrite map_length in E; cbn in E; congruence). destruct ss as [|x [|? ?]]; try discriminate L. cbn [map] in E. injection E as E. symmetry in E. change (ebsp_to_raw []) with (@nil Z) in E. constructor; [rewrite E; constructor|constructor].
    - pose proof (proj1 X (fun e => nil_cons (eq_sym e))) as X1. eapply Forall_impl; [|exact X1]. cbv beta. intros x (_ & C & _). apply bytes_ok_raw. eapply contains_bytes; [exact C|exact B]. }
  assert (NE2 : map ebsp_to_raw (scan [] p) <> []) by (rewrite E; clear - NE; destruct ss; [contradiction NE; reflexivity|discriminate]).
  pose proof (push_nals_bound (map ebsp_to_raw (scan [] p)) s ts NE2 F) as P. cbv zeta in P. lia.
Qed.
Lemma put_in_nonneg ps : 0 <= put_in ps.
Proof. induction ps as [|[p t] ps IH]; [cbn; lia|]. change (put_in ((p, t) :: ps)) with (zlen p + put_in ps). pose proof (zlen_nonneg p). lia. Qed.
Lemma came_out_bound ps : forall s, Forall (fun p => bytes_ok (fst p)) ps -> came_out s ps <= zlen ps * (put_in ps + frag_bytes (s_frags s)).
Proof.
  induction ps as [|[p ts] ps IH]; intros s F; [cbn; lia|]. apply Forall_cons_iff in F as [B F]. cbn [fst] in B. cbn [came_out]. cbv zeta. change (put_in ((p, ts) :: ps)) with (zlen p + put_in ps). rewrite zlen_cons.
  destruct (push_bound s p ts B) as [U K]. specialize (IH (fst (push s p ts)) F). pose proof (put_in_nonneg ps) as PN. pose proof (zlen_nonneg ps) as ZN.
  set (k := frag_bytes (s_frags (fst (push s p ts)))) in *. set (k0 := frag_bytes (s_frags s)) in *. clearbody k k0. clear - U K IH PN ZN. nia.
Qed.

(* orderly fragments: nothing of a unit that has been shown is shown again *)
Lemma came_out_orderly ps : forall s owing, Forall (fun p => bytes_ok (fst p) /\ plain (fst p)) ps -> starts_anew (flat_map (fun p => fu_of (fst p)) ps) ->
  (owing = frag_bytes (s_frags s) \/ owing = 0 /\ match flat_map (fun p => fu_of (fst p)) ps with (st, _, _) :: _ => st = true | [] => True end) ->
  came_out s ps <= put_in ps + owing.
Proof.
  induction ps as [|[p ts] ps IH]; intros s owing F A O; [cbn; destruct O as [->|[-> _]]; [apply frag_bytes_nonneg|lia]|].
  apply Forall_cons_iff in F as [[B P] F]. cbn [fst] in B, P. cbn [came_out]. cbv zeta. change (put_in ((p, ts) :: ps)) with (zlen p + put_in ps). cbn [flat_map fst] in A, O.
  rewrite (push_plain s p ts P). pose proof (parse_volume s p ts B) as V. cbv zeta in V. set (s1 := fst (parse_nal s p ts)) in *. clearbody s1.
  assert (one : fu_of p = [] \/ exists f, fu_of p = [f]).
  { unfold fu_of. destruct p as [|i [|f rest]]; [left; reflexivity..|]. destruct (nal_type i =? 28); [right; eexists; reflexivity|]. destruct (_ && _); [right; eexists; reflexivity|left; reflexivity]. }
  destruct one as [E|([[st en] d] & E)]; rewrite E in *; cbn [app] in *.
  - destruct V as [V1 V2]. pose proof (IH s1 owing F A) as X. rewrite V1 in X. specialize (X O). lia.
  - destruct V as (V1 & V2 & V3). cbn [starts_anew] in A. destruct A as [A1 A2]. pose proof (frag_bytes_nonneg (s_frags s)) as FN.
    assert (K : frag_bytes (s_frags s1) <= owing + zlen d) by (destruct O as [->|[-> O]]; [destruct st; lia|rewrite O in V2; lia]).
    destruct en.
    + pose proof (IH s1 0 F A2 (or_intror (conj eq_refl (A1 eq_refl)))). lia.
    + pose proof (IH s1 (frag_bytes (s_frags s1)) F A2 (or_introl eq_refl)). lia.
Qed.

(* a last fragment over and over *)
Lemma last_plain h : plain (fu_a h false true []).
Proof. split; intros (a & b & E); apply (f_equal (@length Z)) in E; rewrite !app_length in E; cbn in E; lia. Qed.
Lemma lasts_out h ts n : byte_ok h -> forall s, came_out s (repeat (fu_a h false true [], ts) n) = Z.of_nat n * (1 + frag_bytes (s_frags s)).
Proof.
  intros H. induction n as [|n IH]; intros s; [reflexivity|]. cbn [repeat came_out]. cbv zeta. rewrite (push_plain s _ ts (last_plain h)).
  pose proof (parse_volume s (fu_a h false true []) ts (fu_a_bytes h false true [] H (Forall_nil _))) as V. cbv zeta in V. rewrite fu_of_a in V by exact H. destruct V as (_ & V1 & V2).
  rewrite IH, V2, V1. change (zlen []) with 0. lia.
Qed.
Lemma repeated_last h ts d n : byte_ok h -> bytes_ok d -> plain (fu_a h true false d) ->
  let ps := (fu_a h true false d, ts) :: repeat (fu_a h false true [], ts) n in
  Forall (fun p => bytes_ok (fst p) /\ plain (fst p)) ps /\ came_out new_sink ps = Z.of_nat n * (1 + zlen d) /\ put_in ps = zlen d + 2 + 2 * Z.of_nat n.
Proof.
  intros H D P ps. split; [|split].
  - constructor; [split; [apply fu_a_bytes; assumption|exact P]|]. apply Forall_forall. intros x I. apply repeat_spec in I. subst x. split; [apply fu_a_bytes; [exact H|constructor]|apply last_plain].
  - unfold ps. cbn [came_out]. cbv zeta. rewrite (push_plain new_sink _ ts P), lasts_out by exact H.
    pose proof (parse_volume new_sink (fu_a h true false d) ts (fu_a_bytes h true false d H D)) as V. cbv zeta in V. rewrite fu_of_a in V by exact H. destruct V as (_ & V1 & V2). rewrite V2, V1. lia.
  - unfold ps. change (put_in (?a :: ?b)) with (zlen (fst a) + put_in b). cbn [fst]. unfold fu_a at 1. assert (R : put_in (repeat (fu_a h false true [], ts) n) = 2 * Z.of_nat n) by (clear; induction n as [|n IH]; [reflexivity|cbn [repeat]; change (put_in (?a :: ?b)) with (zlen (fst a) + put_in b); rewrite IH; cbn [fst]; unfold fu_a; rewrite !zlen_cons; change (zlen []) with 0; lia]).
    change (zlen (fu_indicator h 28 :: fu_header true false h :: d) + put_in (repeat (fu_a h false true [], ts) n) = zlen d + 2 + 2 * Z.of_nat n). rewrite R, !zlen_cons. lia.
Qed.
Lemma sevens_free pat n : ~ In 7 pat -> pat <> [] -> ~ contains pat (repeat 7 n).
Proof.
  intros N E (a & b & X). destruct pat as [|x pat]; [contradiction E; reflexivity|]. apply N. left. assert (I : In x (repeat 7 n)) by (rewrite X; apply in_or_app; right; left; reflexivity). apply repeat_spec in I. exact I.
Qed.
Lemma any_factor k : exists ps, Forall (fun p => bytes_ok (fst p) /\ plain (fst p)) ps /\ k * put_in ps < came_out new_sink ps.
Proof.
  set (m := Z.to_nat (3 * Z.abs k + 1)). destruct (repeated_last 101 0 (repeat 7 m) m) as (F & O & I).
  - unfold byte_ok. lia.
  - apply Forall_forall. intros x X. apply repeat_spec in X. subst x. unfold byte_ok. lia.
  - split; intros C; unfold fu_a in C; apply contains_nz in C; try discriminate; apply contains_nz in C; try discriminate; revert C; apply sevens_free; try discriminate; cbn; lia.
  - eexists. split; [exact F|]. rewrite O, I. unfold zlen. rewrite repeat_length. unfold m. rewrite Z2Nat.id by lia. nia.
Qed.
