(* Lemmas for packet.go *)
From Verif Require Import Base S_annexb S_nal M_annexb M_nal L_base L_annexb.
From Coq Require Import ZifyBool ZifyNat.

(* ---------- bytes, checked by enumeration ---------- *)
Lemma byte_forall (f : Z -> bool) : forallb f (map Z.of_nat (seq 0 256)) = true -> forall b, byte_ok b -> f b = true.
Proof.
  intros H b Hb. rewrite forallb_forall in H. apply H. unfold byte_ok in Hb.
  replace b with (Z.of_nat (Z.to_nat b)) by lia. apply in_map, in_seq. lia.
Qed.

Lemma land31 b : byte_ok b -> Z.land b 31 = nal_type b.
Proof. intros _. unfold nal_type. change 31 with (Z.ones 5). apply Z.land_ones. lia. Qed.

Lemma land96 b : byte_ok b -> Z.land b 96 = nal_nri b * 32.
Proof.
  intros H. apply Z.eqb_eq. revert b H. apply byte_forall. vm_compute. reflexivity.
Qed.

Lemma header_bits b : byte_ok b ->
  (Z.land b 128 =? 0) = (nal_f b =? 0) /\ Z.shiftr (Z.land b 96) 5 = nal_nri b /\ Z.land b 31 = nal_type b.
Proof.
  intros H. pose proof (byte_forall (fun b => Bool.eqb (Z.land b 128 =? 0) (nal_f b =? 0) &&
     (Z.shiftr (Z.land b 96) 5 =? nal_nri b)) ltac:(vm_compute; reflexivity) b H) as E.
  apply andb_true_iff in E as [E1 E2]. apply eqb_prop in E1. apply Z.eqb_eq in E2. splits; auto. apply land31, H.
Qed.

(* decision procedure for [contains], used on concrete cases *)
Fixpoint prefixb (p l : bytes) : bool :=
  match p, l with
  | [], _ => true
  | a :: p, b :: l => (a =? b) && prefixb p l
  | _, _ => false
  end.
Fixpoint containsb (p l : bytes) : bool :=
  prefixb p l || match l with [] => false | _ :: r => containsb p r end.

Lemma prefixb_spec p : forall l, prefixb p l = true <-> exists t, l = p ++ t.
Proof.
  induction p as [|a p IH]; intros l; cbn [prefixb app]; [split; eauto|].
  destruct l as [|b l]; [split; [discriminate|intros (t & E); discriminate]|].
  rewrite andb_true_iff, IH, Z.eqb_eq. split.
  - intros [-> (t & ->)]. eauto.
  - intros (t & E). injection E as -> ->. eauto.
Qed.

Lemma containsb_spec p l : containsb p l = true <-> contains p l.
Proof.
  induction l as [|b l IH]; cbn [containsb]; rewrite orb_true_iff, prefixb_spec.
  - split.
    + intros [(t & E)|]; [|discriminate]. exists [], t. exact E.
    + intros (x & t & E). left. destruct x; [exists t; exact E|discriminate].
  - rewrite contains_cons, IH. reflexivity.
Qed.

Lemma not_contains p l : containsb p l = false -> ~ contains p l.
Proof. intros H C. apply containsb_spec in C. congruence. Qed.

(* ---------- decoding without emulation ---------- *)
Lemma raw_no3 l : ~ contains [0; 0; 3] l -> ebsp_to_raw l = l.
Proof.
  induction l as [|a r IH]; intros H; [reflexivity|]. rewrite raw_cons.
  assert (H' : ~ contains [0; 0; 3] r) by (intros C; apply H, contains_cons; right; exact C).
  destruct r as [|b [|c r]].
  - reflexivity.
  - rewrite IH by exact H'. reflexivity.
  - destruct ((a =? 0) && (b =? 0) && (c =? 3)) eqn:E; [|rewrite IH by exact H'; reflexivity].
    exfalso. apply H, contains_cons. left. exists r. cbn [app]. f_equal; [lia|]. f_equal; [lia|]. f_equal; lia.
Qed.

Lemma push_one s nal ts : push_nals s [nal] ts = parse_nal s nal ts.
Proof. cbn [push_nals]. destruct (parse_nal s nal ts) as [s' [[]| | |]]; reflexivity. Qed.

Lemma push_no_start s p ts : ~ contains [0; 0; 1] p -> push s p ts = parse_nal s (ebsp_to_raw p) ts.
Proof.
  intros H. unfold push. destruct (split_pieces p) as (ss & E & _ & _ & S). rewrite E, (S H). apply push_one.
Qed.

Lemma push_plain s p ts : plain p -> push s p ts = parse_nal s p ts.
Proof. intros [H1 H2]. rewrite push_no_start by exact H1. rewrite raw_no3 by exact H2. reflexivity. Qed.

Lemma contains_nz x pat l : x <> 0 -> (contains (0 :: pat) (x :: l) <-> contains (0 :: pat) l).
Proof.
  intros H. rewrite contains_cons. split; [|tauto]. intros [(t & E)|?]; [|assumption]. cbn in E. congruence.
Qed.

(* ---------- be_put ---------- *)
Lemma be_uint_put k n x : 0 <= n < 256 ^ Z.of_nat k -> be_uint k (be_put k n ++ x) = Ok n.
Proof.
  intros H. unfold be_uint. rewrite app_length, be_put_length. replace (k <=? k + length x)%nat with true by lia.
  rewrite firstn_app_exact by (rewrite be_put_length; reflexivity). rewrite be_of_put, Z.mod_small by exact H. reflexivity.
Qed.

Lemma be_uint16_put n x : 0 <= n < 65536 -> be_uint16 (be_put 2 n ++ x) = Ok n.
Proof. intros H. apply be_uint_put. exact H. Qed.

Lemma be_put2 n : be_put 2 n = [(n / 256) mod 256; n mod 256].
Proof. cbn. rewrite Z.div_1_r. reflexivity. Qed.

Lemma split2 l : bytes_ok l -> (2 <= length l)%nat -> exists n rest, l = be_put 2 n ++ rest /\ 0 <= n < 65536 /\ bytes_ok rest.
Proof.
  intros H L. destruct l as [|a [|b l]]; cbn in L; try lia.
  apply Forall_cons_iff in H as [Ha H]. apply Forall_cons_iff in H as [Hb H]. unfold byte_ok in *.
  exists (a * 256 + b), l. splits; try lia; auto. rewrite be_put2. cbn [app].
  rewrite Z.div_add_l by lia. rewrite (Z.div_small b) by lia. rewrite Z.add_0_r, (Z.mod_small a) by lia.
  rewrite Z.add_comm, Z.mod_add, Z.mod_small by lia. reflexivity.
Qed.

(* ---------- STAP ---------- *)
Definition stap_run (s : sink) (buf : bytes) (ts : Z) := stap_loop (length buf) s buf ts.

Lemma stap_loop_fuel : forall f1 f2 s buf ts, (length buf <= f1)%nat -> (length buf <= f2)%nat ->
  stap_loop f1 s buf ts = stap_loop f2 s buf ts.
Proof.
  induction f1 as [|f1 IH]; intros f2 s buf ts H1 H2.
  - destruct buf; cbn in H1; [|lia]. destruct f2; reflexivity.
  - destruct f2 as [|f2]; [destruct buf; cbn in H2; [reflexivity|lia]|]. cbn [stap_loop].
    destruct (zlen buf <? 2) eqn:E; [reflexivity|].
    destruct (be_uint16 buf) as [size| | |]; try reflexivity.
    destruct (zlen buf <? u16 (size + 2)); [reflexivity|].
    destruct (index buf 2) as [h| | |]; try reflexivity.
    destruct (slice buf 3 (Z.to_nat (u16 (size + 2)))) as [d| | |] eqn:Es; try reflexivity.
    destruct (slice_from buf (Z.to_nat (u16 (size + 2)))) as [rest| | |] eqn:Er; try reflexivity.
    unfold slice in Es. match type of Es with context [if ?b then _ else _] => destruct b eqn:Eb; [|discriminate] end.
    unfold slice_from in Er. match type of Er with context [if ?b then _ else _] => destruct b eqn:Ec; [|discriminate] end. inversion Er; subst rest; clear Er.
    apply IH; rewrite skipn_length; lia.
Qed.

Lemma stap_short s buf ts : zlen buf < 2 -> stap_run s buf ts = (s, Ok tt).
Proof. intros H. unfold stap_run. destruct (length buf); cbn [stap_loop]; replace (zlen buf <? 2) with true by lia; reflexivity. Qed.

Lemma stap_step s u rest ts : stap_size_ok u -> 
  stap_run s (be_put 2 (zlen u) ++ u ++ rest) ts =
  stap_run (mkSink (s_units s ++ [mkUnit (hd 0 u) (s_don s) ts (tl u)]) (s_frags s) (u16 (s_don s + 1))) rest ts.
Proof.
  unfold stap_size_ok. intros Hu. unfold stap_run at 1.
  assert (L : length (be_put 2 (zlen u) ++ u ++ rest) = S (1 + length (u ++ rest))) by (rewrite app_length, be_put_length; lia).
  assert (Lz : zlen (be_put 2 (zlen u) ++ u ++ rest) = 2 + zlen u + zlen rest) by (rewrite !zlen_app; unfold zlen at 1; rewrite be_put_length; lia).
  pose proof (zlen_nonneg rest) as Hr.
  rewrite L. cbn [stap_loop].
  replace (zlen (be_put 2 (zlen u) ++ u ++ rest) <? 2) with false by lia.
  rewrite be_uint16_put by lia. rewrite (u16_small (zlen u + 2)) by lia.
  replace (zlen (be_put 2 (zlen u) ++ u ++ rest) <? zlen u + 2) with false by lia.
  destruct u as [|h d]; [cbn in Hu; lia|].
  assert (I : index (be_put 2 (zlen (h :: d)) ++ (h :: d) ++ rest) 2 = Ok h) by reflexivity.
  rewrite I.
  assert (Sl : slice (be_put 2 (zlen (h :: d)) ++ (h :: d) ++ rest) 3 (Z.to_nat (zlen (h :: d) + 2)) = Ok d).
  { unfold slice. rewrite L. replace (_ && _) with true by (unfold zlen in *; cbn [length app]; rewrite app_length; lia).
    rewrite be_put2. cbn [app skipn]. rewrite firstn_app_exact; [reflexivity|]. unfold zlen; cbn [length]; lia. }
  rewrite Sl.
  assert (Sf : slice_from (be_put 2 (zlen (h :: d)) ++ (h :: d) ++ rest) (Z.to_nat (zlen (h :: d) + 2)) = Ok rest).
  { unfold slice_from. rewrite L. replace (_ <=? _)%nat with true by (unfold zlen in *; cbn [length app]; rewrite app_length; lia).
    rewrite be_put2. rewrite app_assoc. rewrite skipn_app_exact; [reflexivity|]. unfold zlen; cbn [length app]; lia. }
  rewrite Sf. cbn [hd tl]. apply stap_loop_fuel; [|lia]. cbn [app length]. rewrite app_length. lia.
Qed.

Definition count_don (don : Z) (n : nat) : Z := (don + Z.of_nat n) mod 2 ^ 16.

Lemma stap_entries_run : forall us s rest ts,
  Forall stap_size_ok us -> 0 <= s_don s < 2 ^ 16 ->
  stap_run s (stap_entries us ++ rest) ts =
  stap_run (mkSink (s_units s ++ number (s_don s) ts us) (s_frags s) (count_don (s_don s) (length us))) rest ts.
Proof.
  induction us as [|u us IH]; intros s rest ts HF Hd.
  - cbn [stap_entries flat_map app number length]. unfold count_don. rewrite Z.add_0_r, Z.mod_small, app_nil_r by lia.
    destruct s; reflexivity.
  - apply Forall_cons_iff in HF as [Hu HF]. cbn [stap_entries flat_map].
    change (flat_map (fun u => be_put 2 (zlen u) ++ u) us) with (stap_entries us). rewrite <- !app_assoc.
    rewrite stap_step by exact Hu.
    assert (0 <= u16 (s_don s + 1) < 2 ^ 16) by (unfold u16; apply Z.mod_pos_bound; lia).
    rewrite IH by (cbn [s_don]; assumption). cbn [s_units s_frags s_don]. f_equal. f_equal.
    + rewrite <- app_assoc. reflexivity.
    + unfold count_don, u16. cbn [length]. rewrite Z.add_mod_idemp_l by lia. f_equal. lia.
Qed.

Lemma stap_bad s size rest ts : size = 0 \/ 65534 <= size < 65536 ->
  snd (stap_run s (be_put 2 size ++ rest) ts) = Panic.
Proof.
  intros H. unfold stap_run. rewrite app_length, be_put_length. cbn [Nat.add stap_loop].
  replace (zlen (be_put 2 size ++ rest) <? 2) with false
    by (unfold zlen; rewrite app_length, be_put_length; lia).
  rewrite be_uint16_put by lia.
  assert (N : 0 <= u16 (size + 2) <= 2).
  { destruct H as [-> |H]; [vm_compute; split; discriminate|].
    unfold u16. replace (size + 2) with (size - 65534 + 1 * 2 ^ 16) by lia. rewrite Z.mod_add, Z.mod_small by lia. lia. }
  replace (zlen (be_put 2 size ++ rest) <? u16 (size + 2)) with false
    by (unfold zlen; rewrite app_length, be_put_length; lia).
  assert (Sl : slice (be_put 2 size ++ rest) 3 (Z.to_nat (u16 (size + 2))) = Panic).
  { unfold slice. replace (3 <=? Z.to_nat (u16 (size + 2)))%nat with false by lia. reflexivity. }
  rewrite Sl. destruct (index _ 2); reflexivity.
Qed.

Lemma stap_trunc s size rest ts : 1 <= size <= 65533 -> zlen rest < size ->
  stap_run s (be_put 2 size ++ rest) ts = (s, Err ErrPacketTooShort).
Proof.
  intros H L. unfold stap_run. rewrite app_length, be_put_length. cbn [Nat.add stap_loop].
  replace (zlen (be_put 2 size ++ rest) <? 2) with false
    by (unfold zlen; rewrite app_length, be_put_length; lia).
  rewrite be_uint16_put by lia. rewrite u16_small by lia.
  replace (zlen (be_put 2 size ++ rest) <? size + 2) with true; [reflexivity|].
  unfold zlen in *. rewrite app_length, be_put_length. lia.
Qed.

(* every buffer is: some complete entries, then an end, a bad size or a truncated entry *)
Lemma stap_grammar l : bytes_ok l -> exists us rest, Forall stap_size_ok us /\ l = stap_entries us ++ rest /\
  (zlen rest < 2 \/ exists size x, rest = be_put 2 size ++ x /\
     ((size = 0 \/ 65534 <= size < 65536) \/ (1 <= size <= 65533 /\ zlen x < size))).
Proof.
  induction l as [l IH] using list_ind_len. intros Hok.
  destruct (Z_lt_ge_dec (zlen l) 2) as [H|H]; [exists [], l; auto|].
  destruct (split2 l Hok ltac:(unfold zlen in H; lia)) as (n & x & -> & Hn & Hx).
  destruct (Z.eq_dec n 0) as [-> |N0]; [exists [], (be_put 2 0 ++ x); splits; auto; right; exists 0, x; auto|].
  destruct (Z_lt_ge_dec 65533 n); [exists [], (be_put 2 n ++ x); splits; auto; right; exists n, x; split; auto; left; lia|].
  destruct (Z_lt_ge_dec (zlen x) n); [exists [], (be_put 2 n ++ x); splits; auto; right; exists n, x; split; auto; right; lia|].
  set (u := firstn (Z.to_nat n) x). set (x' := skipn (Z.to_nat n) x).
  assert (Lu : zlen u = n) by (unfold u; rewrite zlen_firstn; lia).
  destruct (IH x') as (us & rest & HF & E & C).
  - unfold x'. rewrite app_length, be_put_length, skipn_length. lia.
  - unfold x'. apply bytes_ok_skipn, Hx.
  - exists (u :: us), rest. splits; auto.
    + constructor; [unfold stap_size_ok; lia|exact HF].
    + cbn [stap_entries flat_map]. change (flat_map (fun u => be_put 2 (zlen u) ++ u) us) with (stap_entries us).
      rewrite Lu, <- !app_assoc, <- E. unfold u, x'. rewrite firstn_skipn. reflexivity.
Qed.

(* ---------- MTAP ---------- *)
Definition wid (wide : bool) : nat := if wide then 3%nat else 2%nat.
Definition mtap_run (wide : bool) (s : sink) (buf : bytes) (ts : Z) := mtap_loop (length buf) wide s buf ts.

Lemma mtap_loop_fuel : forall f1 f2 wide s buf ts, (length buf <= f1)%nat -> (length buf <= f2)%nat ->
  mtap_loop f1 wide s buf ts = mtap_loop f2 wide s buf ts.
Proof.
  induction f1 as [|f1 IH]; intros f2 wide s buf ts H1 H2.
  - destruct buf; cbn in H1; [|lia]. destruct f2, wide; reflexivity.
  - destruct f2 as [|f2]; [destruct buf; cbn in H2; [destruct wide; reflexivity|lia]|]. cbn [mtap_loop].
    set (off := if wide then 6 else 5).
    destruct (zlen buf <? off) eqn:E; [reflexivity|].
    destruct (be_uint16 buf) as [size| | |]; try reflexivity.
    destruct (index buf 2) as [h2| | |]; try reflexivity.
    destruct (index buf 3) as [h3| | |]; try reflexivity.
    destruct (index buf 4) as [h4| | |]; try reflexivity.
    destruct (if wide then index buf 5 else Ok 0) as [h5| | |]; try reflexivity.
    destruct (zlen buf <? u16 (size + off)); [reflexivity|].
    destruct (index buf (Z.to_nat off)) as [h| | |]; try reflexivity.
    destruct (slice buf (Z.to_nat (off + 1)) (Z.to_nat (u16 (size + off)))) as [d| | |] eqn:Es; try reflexivity.
    destruct (slice_from buf (Z.to_nat (u16 (size + off)))) as [rest| | |] eqn:Er; try reflexivity.
    unfold slice in Es. match type of Es with context [if ?b then _ else _] => destruct b eqn:Eb; [|discriminate] end.
    unfold slice_from in Er. match type of Er with context [if ?b then _ else _] => destruct b eqn:Ec; [|discriminate] end. inversion Er; subst rest; clear Er.
    apply IH; rewrite skipn_length; unfold off in *; destruct wide; lia.
Qed.

Lemma mtap_short wide s buf ts : zlen buf < 3 + Z.of_nat (wid wide) -> mtap_run wide s buf ts = (s, Ok tt).
Proof.
  intros H. unfold mtap_run. destruct (length buf); cbn [mtap_loop]; destruct wide; cbn [wid] in H;
    [replace (zlen buf <? 6) with true by lia|replace (zlen buf <? 5) with true by lia
    |replace (zlen buf <? 6) with true by lia|replace (zlen buf <? 5) with true by lia]; reflexivity.
Qed.

(* timestamp offset the code uses for an entry *)
Definition code_tsoff (wide : bool) (ts off : Z) : Z :=
  if wide then (ts * 256 + off mod 256) mod 2 ^ 32 else off.

Lemma shl8 z : Z.shiftl z 8 = z * 256.
Proof. rewrite Z.shiftl_mul_pow2 by lia. reflexivity. Qed.

Lemma mtap_step wide s dond off u rest ts : mtap_entry_ok (wid wide) (dond, off, u) ->
  mtap_run wide s ((be_put 2 (zlen u) ++ [dond] ++ be_put (wid wide) off ++ u) ++ rest) ts =
  mtap_run wide (mkSink (s_units s ++ [mkUnit (hd 0 u) (u16 (s_don s + dond)) (u32 (ts + code_tsoff wide ts off)) (tl u)])
             (s_frags s) (u16 (s_don s + 1))) rest ts.
Proof.
  unfold mtap_entry_ok. intros (Hd & Ho & Hu).
  set (buf := (be_put 2 (zlen u) ++ [dond] ++ be_put (wid wide) off ++ u) ++ rest).
  assert (L : length buf = S (2 + wid wide + length (u ++ rest))).
  { unfold buf. rewrite !app_length, !be_put_length. cbn [length]. lia. }
  assert (Lz : zlen buf = 3 + Z.of_nat (wid wide) + zlen u + zlen rest)
    by (unfold zlen; rewrite L, app_length; lia).
  pose proof (zlen_nonneg rest) as Hr.
  unfold mtap_run at 1. rewrite L. cbn [mtap_loop].
  destruct u as [|h d]; [cbn in Hu; lia|].
  replace (zlen buf <? (if wide then 6 else 5)) with false by (destruct wide; cbn [wid] in *; lia).
  assert (B : be_uint16 buf = Ok (zlen (h :: d))).
  { unfold buf. rewrite <- app_assoc. apply be_uint16_put. lia. }
  rewrite B.
  assert (U : u16 (zlen (h :: d) + (if wide then 6 else 5)) = zlen (h :: d) + (if wide then 6 else 5))
    by (apply u16_small; destruct wide; cbn [wid] in *; lia).
  rewrite U.
  replace (zlen buf <? zlen (h :: d) + (if wide then 6 else 5)) with false by (destruct wide; cbn [wid] in *; lia).
  assert (Sl : slice buf (Z.to_nat ((if wide then 6 else 5) + 1)) (Z.to_nat (zlen (h :: d) + (if wide then 6 else 5))) = Ok d).
  { unfold slice. rewrite L. replace (_ && _) with true by (unfold zlen in *; rewrite app_length; destruct wide; cbn [length wid]; lia).
    unfold buf. rewrite be_put2. destruct wide; cbn [wid be_put app].
    - change (Z.to_nat (6 + 1)) with 7%nat. cbn [skipn]. rewrite firstn_app_exact; [reflexivity|]; unfold zlen; cbn [length]; lia.
    - change (Z.to_nat (5 + 1)) with 6%nat. cbn [skipn]. rewrite firstn_app_exact; [reflexivity|]; unfold zlen; cbn [length]; lia. }
  assert (Sf : slice_from buf (Z.to_nat (zlen (h :: d) + (if wide then 6 else 5))) = Ok rest).
  { unfold slice_from. rewrite L. replace (_ <=? _)%nat with true by (unfold zlen in *; rewrite app_length; destruct wide; cbn [length wid]; lia).
    unfold buf. rewrite skipn_app_exact; [reflexivity|]. rewrite !app_length, !be_put_length. unfold zlen; destruct wide; cbn [length wid]; lia. }
  rewrite Sl, Sf.
  assert (T : (if wide then u32 (u32 (Z.shiftl ts 8) + off mod 256) else u32 (u32 (Z.shiftl (off / 256 mod 256) 8) + off mod 256)) = code_tsoff wide ts off).
  { unfold code_tsoff. rewrite !shl8. destruct wide; cbn [wid] in Ho.
    - unfold u32. rewrite Z.add_mod_idemp_l by lia. reflexivity.
    - assert (off / 256 < 256) by (apply Z.div_lt_upper_bound; lia).
      assert (0 <= off / 256) by (apply Z.div_pos; lia).
      rewrite (Z.mod_small (off / 256)) by lia. pose proof (Z.mod_pos_bound off 256 ltac:(lia)).
      rewrite (u32_small (off / 256 * 256)) by lia. rewrite u32_small by lia.
      pose proof (Z.div_mod off 256 ltac:(lia)). lia. }
  assert (I2 : index buf 2 = Ok dond) by (unfold buf; rewrite be_put2; reflexivity).
  rewrite I2.
  assert (IH : index buf (Z.to_nat (if wide then 6 else 5)) = Ok h) by (unfold buf; rewrite be_put2; destruct wide; reflexivity).
  rewrite IH.
  destruct wide; cbn [wid] in *.
  - assert (I3 : exists x, index buf 3 = Ok x) by (eexists; reflexivity). destruct I3 as (x3 & ->).
    assert (I4 : exists x, index buf 4 = Ok x) by (eexists; reflexivity). destruct I4 as (x4 & ->).
    assert (I5 : index buf 5 = Ok (off mod 256)) by (unfold buf; rewrite be_put2; cbn; rewrite Z.div_1_r; reflexivity).
    rewrite I5. cbn [hd tl]. rewrite T. apply mtap_loop_fuel; [|lia]. cbn [app length Nat.add]. rewrite app_length. lia.
  - assert (I3 : index buf 3 = Ok (off / 256 mod 256)) by (unfold buf; rewrite be_put2; reflexivity).
    assert (I4 : index buf 4 = Ok (off mod 256)) by (unfold buf; rewrite be_put2; cbn; rewrite Z.div_1_r; reflexivity).
    rewrite I3, I4. cbn [hd tl]. rewrite T. apply mtap_loop_fuel; [|lia]. cbn [app length Nat.add]. rewrite app_length. lia.
Qed.

(* what the code produces for a list of entries *)
Fixpoint code_mtap (wide : bool) (don ts : Z) (us : list (Z * Z * bytes)) : list nal_unit :=
  match us with
  | [] => []
  | (dond, off, u) :: us =>
      mkUnit (hd 0 u) (u16 (don + dond)) (u32 (ts + code_tsoff wide ts off)) (tl u) :: code_mtap wide (u16 (don + 1)) ts us
  end.

Lemma mtap_entries_cons w e us : mtap_entries w (e :: us) =
  (let '(dond, off, u) := e in be_put 2 (zlen u) ++ [dond] ++ be_put w off ++ u) ++ mtap_entries w us.
Proof. reflexivity. Qed.

Lemma mtap_entries_run wide : forall us s rest ts,
  Forall (mtap_entry_ok (wid wide)) us -> 0 <= s_don s < 2 ^ 16 ->
  mtap_run wide s (mtap_entries (wid wide) us ++ rest) ts =
  mtap_run wide (mkSink (s_units s ++ code_mtap wide (s_don s) ts us) (s_frags s) (count_don (s_don s) (length us))) rest ts.
Proof.
  induction us as [|[[dond off] u] us IH]; intros s rest ts HF Hd.
  - cbn [mtap_entries flat_map app code_mtap length]. unfold count_don. rewrite Z.add_0_r, Z.mod_small, app_nil_r by lia.
    destruct s; reflexivity.
  - apply Forall_cons_iff in HF as [Hu HF]. rewrite mtap_entries_cons, <- app_assoc.
    rewrite mtap_step by exact Hu.
    assert (0 <= u16 (s_don s + 1) < 2 ^ 16) by (unfold u16; apply Z.mod_pos_bound; lia).
    rewrite IH by (cbn [s_don]; assumption). cbn [s_units s_frags s_don]. f_equal. f_equal.
    + rewrite <- app_assoc. reflexivity.
    + unfold count_don, u16. cbn [length]. rewrite Z.add_mod_idemp_l by lia. f_equal. lia.
Qed.

Lemma code_mtap_nth wide : forall us don ts i dond off u, 0 <= don < 2 ^ 16 ->
  nth_error us i = Some (dond, off, u) ->
  nth_error (code_mtap wide don ts us) i =
  Some (mkUnit (hd 0 u) ((don + Z.of_nat i + dond) mod 2 ^ 16) ((ts + code_tsoff wide ts off) mod 2 ^ 32) (tl u)).
Proof.
  induction us as [|[[dd o] v] us IH]; intros don ts [|i] dond off u Hd E; try discriminate.
  - injection E as -> -> ->. cbn. rewrite Z.add_0_r. reflexivity.
  - cbn [nth_error code_mtap] in *. assert (R : 0 <= u16 (don + 1) < 2 ^ 16) by (unfold u16; apply Z.mod_pos_bound; lia).
    rewrite (IH (u16 (don + 1)) ts i dond off u R E).
    do 2 f_equal. unfold u16. rewrite <- Z.add_assoc, Z.add_mod_idemp_l by lia. f_equal. lia.
Qed.

Lemma code_mtap_length wide us : forall don ts, length (code_mtap wide don ts us) = length us.
Proof. induction us as [|[[dd o] v] us IH]; intros; cbn; auto. Qed.

Lemma mtap_bad wide s size rest ts : 1 + Z.of_nat (wid wide) <= zlen rest ->
  size = 0 \/ 65533 - Z.of_nat (wid wide) <= size < 65536 ->
  snd (mtap_run wide s (be_put 2 size ++ rest) ts) = Panic.
Proof.
  intros L H. unfold mtap_run. rewrite app_length, be_put_length. cbn [Nat.add mtap_loop].
  set (off := if wide then 6 else 5). assert (Hoff : off = 3 + Z.of_nat (wid wide)) by (unfold off; destruct wide; reflexivity).
  assert (Hw : (2 <= wid wide <= 3)%nat) by (destruct wide; cbn; lia).
  replace (zlen (be_put 2 size ++ rest) <? off) with false
    by (unfold zlen in *; rewrite app_length, be_put_length; lia).
  rewrite be_uint16_put by lia.
  assert (N : 0 <= u16 (size + off) <= off).
  { destruct H as [-> |H]; [rewrite u16_small; lia|].
    unfold u16. replace (size + off) with (size + off - 65536 + 1 * 2 ^ 16) by lia. rewrite Z.mod_add, Z.mod_small by lia. lia. }
  replace (zlen (be_put 2 size ++ rest) <? u16 (size + off)) with false
    by (unfold zlen in *; rewrite app_length, be_put_length; lia).
  assert (Sl : slice (be_put 2 size ++ rest) (Z.to_nat (off + 1)) (Z.to_nat (u16 (size + off))) = Panic).
  { unfold slice. replace (Z.to_nat (off + 1) <=? Z.to_nat (u16 (size + off)))%nat with false by lia. reflexivity. }
  rewrite Sl. destruct (index _ 2); try reflexivity. destruct (index _ 3); try reflexivity. destruct (index _ 4); try reflexivity.
  clearbody off.
  destruct wide; [destruct (index _ 5); try reflexivity|]; destruct (index _ (Z.to_nat off)); reflexivity.
Qed.

Lemma mtap_trunc wide s size rest ts : 1 <= size <= 65532 - Z.of_nat (wid wide) ->
  1 + Z.of_nat (wid wide) <= zlen rest < 1 + Z.of_nat (wid wide) + size ->
  mtap_run wide s (be_put 2 size ++ rest) ts = (s, Err ErrPacketTooShort).
Proof.
  intros H L. unfold mtap_run. rewrite app_length, be_put_length. cbn [Nat.add mtap_loop].
  set (off := if wide then 6 else 5). assert (Hoff : off = 3 + Z.of_nat (wid wide)) by (unfold off; destruct wide; reflexivity).
  assert (Hw : (2 <= wid wide <= 3)%nat) by (destruct wide; cbn; lia).
  replace (zlen (be_put 2 size ++ rest) <? off) with false
    by (unfold zlen in *; rewrite app_length, be_put_length; lia).
  rewrite be_uint16_put by lia. rewrite u16_small by lia.
  assert (IX : forall k, (k < 3 + wid wide)%nat -> exists x, index (be_put 2 size ++ rest) k = Ok x).
  { intros k Hk. unfold index. destruct (nth_error (be_put 2 size ++ rest) k) eqn:E; [eauto|].
    apply nth_error_None in E. rewrite app_length, be_put_length in E. unfold zlen in L. lia. }
  destruct (IX 2%nat ltac:(destruct wide; cbn; lia)) as (x2 & ->).
  destruct (IX 3%nat ltac:(destruct wide; cbn; lia)) as (x3 & ->).
  destruct (IX 4%nat ltac:(destruct wide; cbn; lia)) as (x4 & ->).
  assert (exists x5, (if wide then index (be_put 2 size ++ rest) 5 else Ok 0) = Ok x5) as (x5 & ->).
  { destruct wide; [apply (IX 5%nat); cbn; lia|eauto]. }
  replace (zlen (be_put 2 size ++ rest) <? size + off) with true; [reflexivity|].
  unfold zlen in *. rewrite app_length, be_put_length. lia.
Qed.

Lemma mtap_grammar w l : bytes_ok l -> (w <= 3)%nat -> exists us rest, Forall (mtap_entry_ok w) us /\ l = mtap_entries w us ++ rest /\
  (zlen rest < 3 + Z.of_nat w \/ exists size x, rest = be_put 2 size ++ x /\ 1 + Z.of_nat w <= zlen x /\
     ((size = 0 \/ 65533 - Z.of_nat w <= size < 65536) \/
      (1 <= size <= 65532 - Z.of_nat w /\ zlen x < 1 + Z.of_nat w + size))).
Proof.
  intros Hok Hw. induction l as [l IH] using list_ind_len.
  destruct (Z_lt_ge_dec (zlen l) (3 + Z.of_nat w)) as [H|H]; [exists [], l; auto|].
  destruct (split2 l Hok ltac:(unfold zlen in H; lia)) as (n & x & -> & Hn & Hx).
  assert (Lx : 1 + Z.of_nat w <= zlen x) by (unfold zlen in *; rewrite app_length, be_put_length in H; lia).
  destruct (Z.eq_dec n 0) as [-> |N0]; [exists [], (be_put 2 0 ++ x); splits; auto; right; exists 0, x; auto|].
  destruct (Z_lt_ge_dec (65532 - Z.of_nat w) n); [exists [], (be_put 2 n ++ x); splits; auto; right; exists n, x; splits; auto; left; lia|].
  destruct (Z_lt_ge_dec (zlen x) (1 + Z.of_nat w + n)); [exists [], (be_put 2 n ++ x); splits; auto; right; exists n, x; splits; auto; right; lia|].
  destruct x as [|dond x]; [rewrite zlen_nil in Lx; lia|]. rewrite zlen_cons in *.
  apply Forall_cons_iff in Hx as [Hd Hx].
  set (o := firstn w x). set (y := skipn w x). set (u := firstn (Z.to_nat n) y). set (x' := skipn (Z.to_nat n) y).
  assert (Lo : length o = w) by (unfold o; rewrite firstn_length; unfold zlen in *; lia).
  assert (Lu : zlen u = n) by (unfold u, y; rewrite zlen_firstn, zlen_skipn; lia).
  assert (Ho : bytes_ok o) by (apply bytes_ok_firstn, Hx).
  destruct (IH x') as (us & rest & HF & E & C).
  - unfold x', y. rewrite app_length, be_put_length. cbn [length]. rewrite !skipn_length. lia.
  - unfold x', y. apply bytes_ok_skipn, bytes_ok_skipn, Hx.
  - exists ((dond, be_of o, u) :: us), rest. splits; auto.
    + constructor; [|exact HF]. unfold mtap_entry_ok.
      pose proof (be_of_range o Ho) as R. unfold zlen in R. rewrite Lo in R. unfold byte_ok in Hd. splits; lia.
    + rewrite mtap_entries_cons, Lu. rewrite <- Lo at 1. rewrite be_put_of by exact Ho.
      rewrite <- !app_assoc, <- E. unfold u, x'. rewrite firstn_skipn. unfold o, y. cbn [app]. rewrite firstn_skipn. reflexivity.
Qed.

(* ---------- parse_nal by type ---------- *)
Definition fresh (s : sink) : sink := mkSink [] (s_frags s) (s_don s).

Lemma be_put_cut n rest : slice_from (be_put 2 n ++ rest) 2 = Ok rest.
Proof. unfold slice_from. rewrite be_put2. reflexivity. Qed.

Lemma zlen_put2 n (rest : bytes) : zlen (be_put 2 n ++ rest) = 2 + zlen rest.
Proof. rewrite zlen_app. unfold zlen at 1. rewrite be_put_length. lia. Qed.

Lemma parse_stap_a s h rest ts : byte_ok h -> nal_type h = 24 ->
  parse_nal s (h :: rest) ts = stap_run (fresh s) rest ts.
Proof. intros H T. unfold parse_nal. rewrite land31, T by exact H. reflexivity. Qed.

Lemma parse_stap_b s h don rest ts : byte_ok h -> nal_type h = 25 -> 0 <= don < 65536 ->
  parse_nal s (h :: be_put 2 don ++ rest) ts = stap_run (mkSink [] (s_frags s) don) rest ts.
Proof.
  intros H T D. unfold parse_nal. rewrite land31, T by exact H. cbn [Z.eqb Pos.eqb].
  unfold parse_stap. rewrite zlen_put2. pose proof (zlen_nonneg rest).
  replace (2 + zlen rest <? 2) with false by lia.
  rewrite be_uint16_put, be_put_cut by exact D. reflexivity.
Qed.

Definition is_mtap (h : Z) (wide : bool) : Prop := nal_type h = if wide then 27 else 26.

Lemma parse_mtap_eq s wide h don rest ts : byte_ok h -> is_mtap h wide -> 0 <= don < 65536 ->
  parse_nal s (h :: be_put 2 don ++ rest) ts = mtap_run wide (mkSink [] (s_frags s) don) rest ts.
Proof.
  intros H T D. unfold parse_nal. unfold is_mtap in T. rewrite land31 by exact H. rewrite !T. destruct wide; cbn [Z.eqb Pos.eqb].
  all: unfold parse_mtap; rewrite zlen_put2; pose proof (zlen_nonneg rest);
    replace (2 + zlen rest <? 2) with false by lia; rewrite be_uint16_put, be_put_cut by exact D; reflexivity.
Qed.

Lemma parse_short s h rest ts : byte_ok h -> zlen rest < 2 -> nal_type h = 25 \/ is_mtap h true \/ is_mtap h false ->
  parse_nal s (h :: rest) ts = (fresh s, Err ErrPacketTooShort).
Proof.
  intros H L T. unfold parse_nal, parse_stap, parse_mtap. rewrite land31 by exact H.
  unfold is_mtap in T. replace (zlen rest <? 2) with true by lia.
  destruct T as [-> |[-> | ->]]; reflexivity.
Qed.

Lemma parse_fua s b0 b1 d ts : byte_ok b0 -> byte_ok b1 -> nal_type b0 = 28 ->
  parse_nal s (b0 :: b1 :: d) ts = (add_fragment (fresh s) (nal_nri b0 * 32 + nal_type b1) b1 (s_don s) ts d, Ok tt).
Proof.
  intros H0 H1 T. unfold parse_nal. rewrite !land31, T by assumption. cbn [Z.eqb Pos.eqb].
  rewrite !zlen_cons. pose proof (zlen_nonneg d). replace (zlen d + 1 + 1 <? 2) with false by lia.
  cbn [index slice_from nth_error length Nat.leb skipn]. rewrite land96, (land31 b1) by assumption.
  rewrite u8_small; [reflexivity|]. unfold nal_nri, nal_type.
  pose proof (Z.mod_pos_bound (b0 / 32) 4 ltac:(lia)). pose proof (Z.mod_pos_bound b1 32 ltac:(lia)). lia.
Qed.

Lemma parse_fub s b0 b1 don d ts : byte_ok b0 -> byte_ok b1 -> nal_type b0 = 29 -> 0 <= don < 65536 ->
  parse_nal s (b0 :: b1 :: be_put 2 don ++ d) ts = (add_fragment (fresh s) (nal_nri b0 * 32 + nal_type b1) b1 don ts d, Ok tt).
Proof.
  intros H0 H1 T D. unfold parse_nal. rewrite !land31, T by assumption. cbn [Z.eqb Pos.eqb].
  rewrite !zlen_cons, zlen_put2. pose proof (zlen_nonneg d). replace (2 + zlen d + 1 + 1 <? 4) with false by lia.
  assert (E1 : slice_from (b0 :: b1 :: be_put 2 don ++ d) 2 = Ok (be_put 2 don ++ d)) by reflexivity.
  assert (E2 : slice_from (b0 :: b1 :: be_put 2 don ++ d) 4 = Ok d) by (rewrite be_put2; reflexivity).
  rewrite E1, E2. cbn [index nth_error]. rewrite be_uint16_put by exact D. rewrite land96, (land31 b1) by assumption.
  rewrite u8_small; [reflexivity|]. unfold nal_nri, nal_type.
  pose proof (Z.mod_pos_bound (b0 / 32) 4 ltac:(lia)). pose proof (Z.mod_pos_bound b1 32 ltac:(lia)). lia.
Qed.

Definition single (h : Z) : Prop := nal_type h < 24 \/ 29 < nal_type h.

Lemma parse_single s h d ts : byte_ok h -> single h ->
  parse_nal s (h :: d) ts = (mkSink [mkUnit h (s_don s) ts d] (s_frags s) (u16 (s_don s + 1)), Ok tt).
Proof.
  intros H T. unfold parse_nal. rewrite land31 by exact H. unfold single in T.
  do 6 match goal with |- context [nal_type h =? ?k] => replace (nal_type h =? k) with false by lia end. reflexivity.
Qed.

Lemma type_cases h : byte_ok h -> nal_type h = 24 \/ nal_type h = 25 \/ (exists w, is_mtap h w) \/ nal_type h = 28 \/ nal_type h = 29 \/ single h.
Proof.
  intros H. unfold single. destruct (Z.eq_dec (nal_type h) 26); [right; right; left; exists false; assumption|].
  destruct (Z.eq_dec (nal_type h) 27); [right; right; left; exists true; assumption|]. lia.
Qed.

(* ---------- outcomes ---------- *)
Definition outcome_of (s : sink) (n : bytes) (ts : Z) : res unit := snd (parse_nal s n ts).

Lemma stap_outcome s l ts : bytes_ok l -> 0 <= s_don s < 2 ^ 16 ->
  (snd (stap_run s l ts) = Panic /\ exists us size rest, Forall stap_size_ok us /\ l = stap_entries us ++ be_put 2 size ++ rest /\ (size = 0 \/ 65534 <= size < 65536)) \/
  ((snd (stap_run s l ts) = Ok tt \/ snd (stap_run s l ts) = Err ErrPacketTooShort)).
Proof.
  intros H D. destruct (stap_grammar l H) as (us & rest & HF & -> & C).
  rewrite stap_entries_run by assumption. destruct C as [C|(size & x & -> & [C|[C1 C2]])].
  - rewrite stap_short by exact C. auto.
  - left. rewrite stap_bad by exact C. split; [reflexivity|]. exists us, size, x. auto.
  - rewrite stap_trunc by assumption. auto.
Qed.

Lemma mtap_outcome wide s l ts : bytes_ok l -> 0 <= s_don s < 2 ^ 16 ->
  (snd (mtap_run wide s l ts) = Panic /\ exists us size rest, Forall (mtap_entry_ok (wid wide)) us /\
      l = mtap_entries (wid wide) us ++ be_put 2 size ++ rest /\ 1 + Z.of_nat (wid wide) <= zlen rest /\
      (size = 0 \/ 65533 - Z.of_nat (wid wide) <= size < 65536)) \/
  (snd (mtap_run wide s l ts) = Ok tt \/ snd (mtap_run wide s l ts) = Err ErrPacketTooShort).
Proof.
  intros H D. destruct (mtap_grammar (wid wide) l H ltac:(destruct wide; cbn; lia)) as (us & rest & HF & -> & C).
  rewrite mtap_entries_run by assumption. destruct C as [C|(size & x & -> & L & [C|[C1 C2]])].
  - rewrite mtap_short by exact C. auto.
  - left. rewrite mtap_bad by assumption. split; [reflexivity|]. exists us, size, x. auto.
  - rewrite mtap_trunc by (try assumption; lia). auto.
Qed.

Definition ok_or_short (o : res unit) : Prop := o = Ok tt \/ o = Err ErrPacketTooShort.

Lemma parse_outcome s n ts : bytes_ok n -> 0 <= s_don s < 2 ^ 16 ->
  (snd (parse_nal s n ts) = Panic /\ crash n) \/ ok_or_short (snd (parse_nal s n ts)).
Proof.
  intros H D. destruct n as [|h r]; [right; right; reflexivity|].
  apply Forall_cons_iff in H as [Hh H].
  destruct (type_cases h Hh) as [T|[T|[(w & T)|[T|[T|T]]]]].
  - rewrite parse_stap_a by assumption. destruct (stap_outcome (fresh s) r ts H D) as [[E (us & size & x & F & -> & C)]|E]; [|right; exact E].
    left. split; [exact E|]. left. exists h, us, size, x. auto.
  - destruct (Z_lt_ge_dec (zlen r) 2); [rewrite parse_short by auto; right; right; reflexivity|].
    destruct (split2 r H ltac:(unfold zlen in *; lia)) as (don & x & -> & Hn & Hx). rewrite parse_stap_b by assumption.
    destruct (stap_outcome (mkSink [] (s_frags s) don) x ts Hx Hn) as [[E (us & size & y & F & -> & C)]|E]; [|right; exact E].
    left. split; [exact E|]. right. left. exists h, don, us, size, y. auto.
  - destruct (Z_lt_ge_dec (zlen r) 2); [rewrite parse_short by (destruct w; auto); right; right; reflexivity|].
    destruct (split2 r H ltac:(unfold zlen in *; lia)) as (don & x & -> & Hn & Hx). rewrite (parse_mtap_eq s w) by assumption.
    destruct (mtap_outcome w (mkSink [] (s_frags s) don) x ts Hx Hn) as [[E (us & size & y & F & -> & L & C)]|E]; [|right; exact E].
    left. split; [exact E|]. right. right. exists (wid w), h, don, us, size, y. unfold is_mtap in T. destruct w; splits; auto.
  - destruct r as [|b1 r]; [right; right; unfold parse_nal; rewrite land31, T by exact Hh; reflexivity|].
    apply Forall_cons_iff in H as [H1 H]. rewrite parse_fua by assumption. right; left; reflexivity.
  - destruct (Z_lt_ge_dec (zlen (h :: r)) 4) as [L|L].
    + right; right. unfold parse_nal. rewrite land31, T by exact Hh. cbn [Z.eqb Pos.eqb].
      replace (zlen (h :: r) <? 4) with true by lia. reflexivity.
    + rewrite zlen_cons in L. destruct r as [|b1 r]; [cbn in L; lia|]. rewrite zlen_cons in L.
      apply Forall_cons_iff in H as [H1 H]. destruct (split2 r H ltac:(unfold zlen in *; lia)) as (don & x & -> & Hn & Hx).
      rewrite parse_fub by assumption. right; left; reflexivity.
  - rewrite parse_single by assumption. right; left; reflexivity.
Qed.

Lemma be_put2_mod n : be_put 2 n = be_put 2 (n mod 65536).
Proof.
  rewrite !be_put2. f_equal; [|f_equal].
  - change 65536 with (256 * 256). rewrite Z.rem_mul_r by lia.
    rewrite (Z.mul_comm 256), Z.div_add by lia. rewrite (Z.div_small (n mod 256)) by (apply Z.mod_pos_bound; lia).
    rewrite Z.add_0_l, Z.mod_mod by lia. reflexivity.
  - rewrite (Znumtheory.Zmod_div_mod 256 65536) by (try lia; exists 256; reflexivity). reflexivity.
Qed.

Lemma parse_crash s n ts : bytes_ok n -> 0 <= s_don s < 2 ^ 16 -> crash n -> snd (parse_nal s n ts) = Panic.
Proof.
  intros H D [(h & us & size & rest & T & F & -> & C)|[(h & don & us & size & rest & T & F & -> & C)|(w & h & don & us & size & rest & T & F & -> & L & C)]];
    apply Forall_cons_iff in H as [Hh _].
  - rewrite parse_stap_a, stap_entries_run by assumption. apply stap_bad, C.
  - rewrite be_put2_mod, parse_stap_b by (try assumption; apply Z.mod_pos_bound; lia).
    rewrite stap_entries_run by (try assumption; apply Z.mod_pos_bound; lia). apply stap_bad, C.
  - assert (exists wd, w = wid wd /\ is_mtap h wd) as (wd & -> & T').
    { destruct T as [[T ->]|[T ->]]; [exists false|exists true]; auto. }
    rewrite (be_put2_mod don), (parse_mtap_eq s wd) by (try assumption; apply Z.mod_pos_bound; lia).
    rewrite mtap_entries_run by (try assumption; apply Z.mod_pos_bound; lia). apply mtap_bad; assumption.
Qed.

(* DON stays a 16-bit number *)
Lemma stap_loop_don : forall f s buf ts, bytes_ok buf -> 0 <= s_don s < 2 ^ 16 -> 0 <= s_don (fst (stap_loop f s buf ts)) < 2 ^ 16.
Proof.
  induction f as [|f IH]; intros s buf ts Hb Hd; cbn [stap_loop]; destruct (zlen buf <? 2); try exact Hd.
  destruct (be_uint16 buf) as [size| | |]; try exact Hd.
  destruct (zlen buf <? u16 (size + 2)); try exact Hd.
  destruct (index buf 2); try exact Hd. destruct (slice buf 3 _); try exact Hd.
  destruct (slice_from buf _) as [r| | |] eqn:E; try exact Hd.
  apply IH; [|cbn; unfold u16; apply Z.mod_pos_bound; lia].
  unfold slice_from in E. match type of E with context [if ?b then _ else _] => destruct b; [|discriminate] end.
  inversion E. apply bytes_ok_skipn, Hb.
Qed.

Lemma mtap_loop_don : forall f wide s buf ts, bytes_ok buf -> 0 <= s_don s < 2 ^ 16 -> 0 <= s_don (fst (mtap_loop f wide s buf ts)) < 2 ^ 16.
Proof.
  induction f as [|f IH]; intros wide s buf ts Hb Hd; cbn [mtap_loop]; destruct (zlen buf <? (if wide then 6 else 5)); try exact Hd.
  destruct (be_uint16 buf) as [size| | |]; try exact Hd.
  destruct (index buf 2); try exact Hd. destruct (index buf 3); try exact Hd. destruct (index buf 4); try exact Hd.
  destruct (if wide then index buf 5 else Ok 0); try exact Hd.
  destruct (zlen buf <? u16 (size + _)); try exact Hd.
  destruct (index buf _); try exact Hd. destruct (slice buf _ _); try exact Hd.
  destruct (slice_from buf _) as [r| | |] eqn:E; try exact Hd.
  apply IH; [|cbn; unfold u16; apply Z.mod_pos_bound; lia].
  unfold slice_from in E. match type of E with context [if ?b then _ else _] => destruct b; [|discriminate] end.
  inversion E. apply bytes_ok_skipn, Hb.
Qed.

Lemma add_fragment_don s i h d ts x : s_don (add_fragment s i h d ts x) = s_don s.
Proof. unfold add_fragment. destruct (negb (Z.land h 64 =? 0)); reflexivity. Qed.

Lemma parse_don s n ts : bytes_ok n -> 0 <= s_don s < 2 ^ 16 -> 0 <= s_don (fst (parse_nal s n ts)) < 2 ^ 16.
Proof.
  intros H D. destruct n as [|h r]; [exact D|].
  apply Forall_cons_iff in H as [Hh H].
  destruct (type_cases h Hh) as [T|[T|[(w & T)|[T|[T|T]]]]].
  - rewrite parse_stap_a by assumption. apply stap_loop_don; assumption.
  - destruct (Z_lt_ge_dec (zlen r) 2); [rewrite parse_short by auto; exact D|].
    destruct (split2 r H ltac:(unfold zlen in *; lia)) as (don & x & -> & Hn & Hx). rewrite parse_stap_b by assumption.
    apply stap_loop_don; assumption.
  - destruct (Z_lt_ge_dec (zlen r) 2); [rewrite parse_short by (destruct w; auto); exact D|].
    destruct (split2 r H ltac:(unfold zlen in *; lia)) as (don & x & -> & Hn & Hx). rewrite (parse_mtap_eq s w) by assumption.
    apply mtap_loop_don; assumption.
  - destruct r as [|b1 r]; [unfold parse_nal; rewrite land31, T by exact Hh; exact D|].
    apply Forall_cons_iff in H as [H1 H]. rewrite parse_fua by assumption. cbn [fst]. rewrite add_fragment_don. exact D.
  - destruct (Z_lt_ge_dec (zlen (h :: r)) 4) as [L|L].
    + unfold parse_nal. rewrite land31, T by exact Hh. cbn [Z.eqb Pos.eqb].
      replace (zlen (h :: r) <? 4) with true by lia. exact D.
    + rewrite zlen_cons in L. destruct r as [|b1 r]; [cbn in L; lia|]. rewrite zlen_cons in L.
      apply Forall_cons_iff in H as [H1 H]. destruct (split2 r H ltac:(unfold zlen in *; lia)) as (don & x & -> & Hn & Hx).
      rewrite parse_fub by assumption. cbn [fst]. rewrite add_fragment_don. exact D.
  - rewrite parse_single by assumption. cbn. unfold u16. apply Z.mod_pos_bound. lia.
Qed.

Lemma push_nals_outcome : forall nals s ts, Forall bytes_ok nals -> 0 <= s_don s < 2 ^ 16 ->
  (snd (push_nals s nals ts) = Panic /\ Exists crash nals) \/ ok_or_short (snd (push_nals s nals ts)).
Proof.
  induction nals as [|n r IH]; intros s ts H D; [right; left; reflexivity|].
  apply Forall_cons_iff in H as [Hn H]. cbn [push_nals].
  pose proof (parse_outcome s n ts Hn D) as O. pose proof (parse_don s n ts Hn D) as D'.
  destruct (parse_nal s n ts) as [s' o]. cbn [fst snd] in *.
  destruct O as [[-> C]|[-> | ->]].
  - left. split; [reflexivity|left; exact C].
  - destruct (IH s' ts H D') as [[E X]|E]; [left; split; [exact E|right; exact X]|right; exact E].
  - right; right; reflexivity.
Qed.

Lemma push_nals_bytes buf : bytes_ok buf -> exists nals, split_annexb buf = Ok nals /\ Forall bytes_ok nals.
Proof.
  intros H. destruct (split_pieces buf) as (ss & E & N & F & S). exists (map ebsp_to_raw ss). split; [exact E|].
  destruct buf as [|b r].
  - rewrite S; [repeat constructor|]. intros (a & t & X). destruct a; discriminate.
  - specialize (F ltac:(discriminate)). apply Forall_map. eapply Forall_impl; [|exact F]. intros s (_ & (a & t & X) & _).
    apply bytes_ok_raw. rewrite X in H. apply bytes_ok_app in H as [_ H]. apply bytes_ok_app in H as [H _]. exact H.
Qed.

Lemma push_don s buf ts : bytes_ok buf -> 0 <= s_don s < 2 ^ 16 -> 0 <= s_don (fst (push s buf ts)) < 2 ^ 16.
Proof.
  intros H D. unfold push. destruct (push_nals_bytes buf H) as (nals & -> & F). clear buf H. revert s D.
  induction nals as [|n r IH]; intros s D; [exact D|]. apply Forall_cons_iff in F as [Hn F].
  cbn [push_nals]. pose proof (parse_don s n ts Hn D) as D'. destruct (parse_nal s n ts) as [s' [[]| | |]]; try exact D'.
  apply IH; assumption.
Qed.

(* ---------- fragments ---------- *)
Lemma fu_header_bits s e h : byte_ok h ->
  byte_ok (fu_header s e h) /\ nal_type (fu_header s e h) = nal_type h /\
  negb (Z.land (fu_header s e h) 128 =? 0) = s /\ negb (Z.land (fu_header s e h) 64 =? 0) = e.
Proof.
  intros H.
  pose proof (byte_forall (fun h => forallb (fun s => forallb (fun e =>
    let f := fu_header s e h in byte_okb f && (nal_type f =? nal_type h) && Bool.eqb (negb (Z.land f 128 =? 0)) s
     && Bool.eqb (negb (Z.land f 64 =? 0)) e) [true; false]) [true; false]) ltac:(vm_compute; reflexivity) h H) as E.
  rewrite forallb_forall in E. specialize (E s ltac:(destruct s; cbn; auto)). rewrite forallb_forall in E.
  specialize (E e ltac:(destruct e; cbn; auto)). cbn zeta in E.
  apply andb_true_iff in E as [E E4]. apply andb_true_iff in E as [E E3]. apply andb_true_iff in E as [E1 E2].
  apply byte_ok_dec in E1. apply Z.eqb_eq in E2. apply eqb_prop in E3, E4. auto.
Qed.

Lemma fu_indicator_bits h t : byte_ok h -> t = 28 \/ t = 29 ->
  byte_ok (fu_indicator h t) /\ nal_type (fu_indicator h t) = t /\ nal_nri (fu_indicator h t) = nal_nri h /\ fu_indicator h t <> 0.
Proof.
  intros H Ht.
  pose proof (byte_forall (fun h => forallb (fun t =>
    let f := fu_indicator h t in byte_okb f && (nal_type f =? t) && (nal_nri f =? nal_nri h) && negb (f =? 0)) [28; 29])
    ltac:(vm_compute; reflexivity) h H) as E.
  rewrite forallb_forall in E. specialize (E t ltac:(cbn; destruct Ht; auto)). cbn zeta in E.
  apply andb_true_iff in E as [E E4]. apply andb_true_iff in E as [E E3]. apply andb_true_iff in E as [E1 E2].
  apply byte_ok_dec in E1. splits; auto; lia.
Qed.

(* header of a reassembled unit: NRI and type of the original, F cleared *)
Definition no_f (h : Z) : Z := nal_nri h * 32 + nal_type h.

Lemma fu_header_nz s e h : nal_type h <> 0 -> fu_header s e h <> 0.
Proof.
  unfold fu_header, nal_type. intros H. pose proof (Z.mod_pos_bound h 32 ltac:(lia)). destruct s, e; cbn [Z.b2z]; lia.
Qed.

Lemma push_fua s h st en c ts : byte_ok h -> nal_type h <> 0 -> ~ contains [0; 0; 1] c ->
  push s (fu_a h st en c) ts =
  (add_fragment (fresh s) (no_f h) (fu_header st en h) (s_don s) ts (ebsp_to_raw c), Ok tt).
Proof.
  intros H N C. destruct (fu_indicator_bits h 28 H (or_introl eq_refl)) as (I1 & I2 & I3 & I4).
  destruct (fu_header_bits st en h H) as (F1 & F2 & _ & _). pose proof (fu_header_nz st en h N) as F0.
  unfold fu_a. rewrite push_no_start by (rewrite !contains_nz by assumption; exact C).
  rewrite !raw_nz by assumption. rewrite parse_fua by assumption. rewrite I3, F2. reflexivity.
Qed.

Lemma push_fub s h don st en c ts : byte_ok h -> nal_type h <> 0 -> 0 <= don < 65536 ->
  ~ contains [0; 0; 1] (be_put 2 don ++ c) -> ebsp_to_raw (be_put 2 don ++ c) = be_put 2 don ++ ebsp_to_raw c ->
  push s (fu_b h don st en c) ts =
  (add_fragment (fresh s) (no_f h) (fu_header st en h) don ts (ebsp_to_raw c), Ok tt).
Proof.
  intros H N D C R. destruct (fu_indicator_bits h 29 H (or_intror eq_refl)) as (I1 & I2 & I3 & I4).
  destruct (fu_header_bits st en h H) as (F1 & F2 & _ & _). pose proof (fu_header_nz st en h N) as F0.
  unfold fu_b. rewrite push_no_start by (rewrite !contains_nz by assumption; exact C).
  rewrite !raw_nz by assumption. rewrite R, parse_fub by assumption. rewrite I3, F2. reflexivity.
Qed.

Definition mid (s : sink) (h ts : Z) (fl : bool) (c : bytes) : fragment :=
  mkFrag (mkUnit (no_f h) (s_don s) ts (ebsp_to_raw c)) (fu_header fl false h).

Lemma add_first s i h fl don ts d : byte_ok h -> fl = fu_header true false h ->
  add_fragment s i fl don ts d = mkSink (s_units s) [mkFrag (mkUnit i don ts d) fl] (s_don s).
Proof.
  intros H ->. destruct (fu_header_bits true false h H) as (_ & _ & S & E). unfold add_fragment. rewrite S, E. reflexivity.
Qed.
Lemma add_mid s i h fl don ts d : byte_ok h -> fl = fu_header false false h ->
  add_fragment s i fl don ts d = mkSink (s_units s) (s_frags s ++ [mkFrag (mkUnit i don ts d) fl]) (s_don s).
Proof.
  intros H ->. destruct (fu_header_bits false false h H) as (_ & _ & S & E). unfold add_fragment. rewrite S, E. reflexivity.
Qed.
Lemma add_last s i h fl don ts d : byte_ok h -> fl = fu_header false true h ->
  add_fragment s i fl don ts d =
  mkSink (s_units s ++ [mkUnit i don ts (flat_map (fun f => u_data (f_unit f)) (s_frags s) ++ d)])
         (s_frags s ++ [mkFrag (mkUnit i don ts d) fl]) (s_don s).
Proof.
  intros H ->. destruct (fu_header_bits false true h H) as (_ & _ & S & E). unfold add_fragment. rewrite S, E.
  rewrite flat_map_app. cbn [flat_map f_unit u_data]. rewrite app_nil_r. reflexivity.
Qed.

Definition frag_data (s : sink) : bytes := flat_map (fun f => u_data (f_unit f)) (s_frags s).

Lemma push_tail h ts : forall cs s, byte_ok h -> nal_type h <> 0 -> cs <> [] ->
  Forall (fun c => ~ contains [0; 0; 1] c) cs ->
  exists s', push_all s (map (fun p => (p, ts)) (fu_tail (fu_a h) cs)) = (s', repeat (Ok tt) (length cs)) /\
    s_units s' = [mkUnit (no_f h) (s_don s) ts (frag_data s ++ flat_map ebsp_to_raw cs)] /\ s_don s' = s_don s.
Proof.
  induction cs as [|c cs IH]; intros s H N NE F; [congruence|].
  apply Forall_cons_iff in F as [Fc F]. destruct cs as [|c2 cs].
  - cbn [fu_tail map push_all length repeat]. rewrite push_fua by assumption. rewrite (add_last _ _ h) by auto.
    eexists. split; [reflexivity|]. cbn. rewrite app_nil_r. split; reflexivity.
  - change (fu_tail (fu_a h) (c :: c2 :: cs)) with (fu_a h false false c :: fu_tail (fu_a h) (c2 :: cs)).
    cbn [map push_all]. rewrite push_fua by assumption. rewrite (add_mid _ _ h) by auto.
    match goal with |- context [push_all ?x _] => destruct (IH x H N ltac:(discriminate) F) as (s' & -> & U & D) end.
    exists s'. split; [reflexivity|]. rewrite U, D. cbn [s_don fresh]. split; [|reflexivity].
    unfold frag_data. cbn [s_frags fresh]. rewrite flat_map_app. cbn [flat_map f_unit u_data]. rewrite app_nil_r, <- app_assoc. reflexivity.
Qed.

(* ---------- concatenation of decoded chunks ---------- *)
Lemma raw_app a b : no_straddle a b -> ebsp_to_raw (a ++ b) = ebsp_to_raw a ++ ebsp_to_raw b.
Proof.
  induction a as [a IH] using list_ind_len. intros [N1 N2]. destruct a as [|x a]; [reflexivity|].
  assert (K : forall p t, x :: a = p ++ t -> (p = [] -> False) -> no_straddle t b).
  { intros p t E _. split; intros (a' & b' & E1 & E2).
    - apply N1. exists (p ++ a'), b'. rewrite E, E1, app_assoc. auto.
    - apply N2. exists (p ++ a'), b'. rewrite E, E1, app_assoc. auto. }
  cbn [app]. rewrite !raw_cons.
  assert (IH1 : ebsp_to_raw (a ++ b) = ebsp_to_raw a ++ ebsp_to_raw b).
  { apply IH; [cbn; lia|]. apply (K [x]); [reflexivity|discriminate]. }
  destruct a as [|y [|z a]].
  - cbn [app] in *. destruct b as [|y [|z b]]; cbn [app]; try reflexivity.
    destruct ((x =? 0) && (y =? 0) && (z =? 3)) eqn:E; [|reflexivity].
    exfalso. apply N1. exists [], b. assert (x = 0 /\ y = 0 /\ z = 3) as (-> & -> & ->) by lia. split; reflexivity.
  - cbn [app] in *. destruct b as [|z b]; [rewrite app_nil_r; reflexivity|].
    destruct ((x =? 0) && (y =? 0) && (z =? 3)) eqn:E; [|rewrite IH1; reflexivity].
    exfalso. apply N2. exists [], b. assert (x = 0 /\ y = 0 /\ z = 3) as (-> & -> & ->) by lia. split; reflexivity.
  - cbn [app] in *. destruct ((x =? 0) && (y =? 0) && (z =? 3)); [|rewrite IH1; reflexivity].
    rewrite (IH a); [reflexivity|cbn; lia|]. apply (K [x; y; z]); [reflexivity|discriminate].
Qed.

Lemma raw_cuts : forall cs pre, cuts_ok pre cs -> ebsp_to_raw (pre ++ concat cs) = ebsp_to_raw pre ++ flat_map ebsp_to_raw cs.
Proof.
  induction cs as [|c cs IH]; intros pre H; cbn [concat flat_map]; [rewrite !app_nil_r; reflexivity|].
  destruct H as [H1 H2]. rewrite app_assoc, IH by exact H2. rewrite raw_app, <- app_assoc; [reflexivity|].
  destruct H1 as [A B]. split; intros (a' & b' & E1 & E2); [apply A|apply B]; exists a', (b' ++ concat cs); split; auto; rewrite E2; reflexivity.
Qed.

(* an emulation prevention sequence at the front, and their number *)
Definition at_front (l : bytes) : Z := match l with a :: b :: c :: _ => if (a =? 0) && (b =? 0) && (c =? 3) then 1 else 0 | _ => 0 end.
Fixpoint occ (l : bytes) : Z := match l with [] => 0 | _ :: r => at_front l + occ r end.
Lemma occ_cons a r : occ (a :: r) = at_front (a :: r) + occ r.
Proof. reflexivity. Qed.
Lemma at_front_range l : 0 <= at_front l <= 1.
Proof. unfold at_front. destruct l as [|a [|b [|c l]]]; try lia. destruct (_ && _ && _); lia. Qed.

Lemma raw_zlen l : zlen (ebsp_to_raw l) + occ l = zlen l.
Proof.
  induction l as [l IH] using list_ind_len. destruct l as [|a r]; [reflexivity|]. rewrite raw_cons, occ_cons.
  pose proof (IH r ltac:(cbn; lia)) as I. destruct r as [|b [|c r]].
  - reflexivity.
  - unfold at_front. rewrite !zlen_cons in *. lia.
  - destruct ((a =? 0) && (b =? 0) && (c =? 3)) eqn:E.
    + assert (a = 0 /\ b = 0 /\ c = 3) as (-> & -> & ->) by lia. rewrite !zlen_cons, !occ_cons.
      pose proof (IH r ltac:(cbn; lia)) as I2.
      replace (at_front (0 :: 0 :: 3 :: r)) with 1 by reflexivity.
      replace (at_front (0 :: 3 :: r)) with 0 by (destruct r; reflexivity).
      replace (at_front (3 :: r)) with 0 by (destruct r as [|x [|y r]]; reflexivity). lia.
    + unfold at_front. rewrite E. rewrite !zlen_cons in *. lia.
Qed.

Lemma at_front_app l b : at_front l <= at_front (l ++ b).
Proof.
  pose proof (at_front_range (l ++ b)) as R. destruct l as [|x [|y [|z l]]]; try apply R. apply Z.le_refl.
Qed.

Lemma occ_app_le a b : occ a + occ b <= occ (a ++ b).
Proof.
  induction a as [|x a IH]; [cbn [app occ]; lia|]. cbn [app]. rewrite !occ_cons. pose proof (at_front_app (x :: a) b) as A. cbn [app] in A. lia.
Qed.

Lemma occ_straddle a b : occ a + occ b = occ (a ++ b) -> no_straddle a b.
Proof.
  intros E. assert (K : forall p t, a = p ++ t -> at_front t = 0 -> t <> [] -> at_front (t ++ b) = 1 -> False).
  { intros p t Ea T0 N T1. subst a. rewrite <- app_assoc in E.
    assert (X : forall p, occ (p ++ t) + occ b <= occ (p ++ t ++ b) - 1).
    { clear E p. induction p as [|x p IH].
      - destruct t as [|y t]; [congruence|]. cbn [app] in *. rewrite !occ_cons. pose proof (occ_app_le t b). lia.
      - cbn [app]. rewrite !occ_cons. pose proof (at_front_app (x :: p ++ t) b) as A. cbn [app] in A. rewrite <- app_assoc in A. lia. }
    specialize (X p). lia. }
  split; intros (a' & b' & E1 & E2); subst b.
  - apply (K a' [0]); [exact E1|reflexivity|discriminate|reflexivity].
  - apply (K a' [0; 0]); [exact E1|reflexivity|discriminate|reflexivity].
Qed.

Lemma occ_concat_le cs : forall pre, occ pre + fold_right (fun c n => occ c + n) 0 cs <= occ (pre ++ concat cs).
Proof.
  induction cs as [|c cs IH]; intros pre; cbn [concat fold_right]; [rewrite app_nil_r; lia|].
  rewrite app_assoc. pose proof (IH (pre ++ c)). pose proof (occ_app_le pre c). lia.
Qed.

Lemma occ_cuts cs : forall pre, occ pre + fold_right (fun c n => occ c + n) 0 cs = occ (pre ++ concat cs) -> cuts_ok pre cs.
Proof.
  induction cs as [|c cs IH]; intros pre E; [exact I|]. cbn [concat fold_right] in E. cbn [cuts_ok].
  pose proof (occ_concat_le cs (pre ++ c)) as L1. pose proof (occ_app_le pre c) as L2.
  pose proof (occ_app_le pre (c ++ concat cs)) as L3. pose proof (occ_concat_le cs c) as L4.
  split.
  - apply occ_straddle. lia.
  - apply IH. rewrite <- app_assoc. rewrite <- app_assoc in L1. lia.
Qed.

Lemma raw_flat_zlen cs : zlen (flat_map ebsp_to_raw cs) + fold_right (fun c n => occ c + n) 0 cs = zlen (concat cs).
Proof.
  induction cs as [|c cs IH]; [reflexivity|]. cbn [flat_map concat fold_right]. rewrite !zlen_app. pose proof (raw_zlen c). lia.
Qed.

(* decoding the pieces is decoding the whole just when no sequence is cut *)
Lemma raw_cuts_iff cs : flat_map ebsp_to_raw cs = ebsp_to_raw (concat cs) <-> cuts_ok [] cs.
Proof.
  split; intros H.
  - apply occ_cuts. cbn [occ app]. pose proof (raw_flat_zlen cs) as A. pose proof (raw_zlen (concat cs)) as B. rewrite H in A. lia.
  - pose proof (raw_cuts cs [] H) as R. cbn [app ebsp_to_raw] in R. symmetry. exact R.
Qed.

(* two bytes in front stay two bytes *)
Lemma raw_two don c : ebsp_to_raw (be_put 2 don ++ c) = be_put 2 don ++ skipn 2 (ebsp_to_raw (be_put 2 don ++ c)).
Proof.
  rewrite be_put2. cbn [app].
  assert (E : exists t, ebsp_to_raw (don / 256 mod 256 :: don mod 256 :: c) = don / 256 mod 256 :: don mod 256 :: t).
  { rewrite raw_cons. destruct c as [|x c]; [eexists; reflexivity|]. destruct ((don / 256 mod 256 =? 0) && (don mod 256 =? 0) && (x =? 3)) eqn:E.
    - apply Bool.andb_true_iff in E as [E E3]. apply Bool.andb_true_iff in E as [E1 E2]. apply Z.eqb_eq in E1, E2. rewrite E1, E2. eexists. reflexivity.
    - rewrite raw_cons. destruct c as [|y c]; [eexists; reflexivity|]. destruct ((don mod 256 =? 0) && (x =? 0) && (y =? 3)) eqn:F; [|eexists; reflexivity].
      apply Bool.andb_true_iff in F as [F E3]. apply Bool.andb_true_iff in F as [E1 E2]. apply Z.eqb_eq in E1. rewrite E1. eexists. reflexivity. }
  destruct E as (t & ->). reflexivity.
Qed.
Lemma raw_two_iff don c : skipn 2 (ebsp_to_raw (be_put 2 don ++ c)) = ebsp_to_raw c <-> no_straddle (be_put 2 don) c.
Proof.
  split; intros H.
  - apply occ_straddle. pose proof (raw_zlen (be_put 2 don ++ c)) as A. pose proof (raw_zlen c) as B.
    assert (O : occ (be_put 2 don) = 0) by (rewrite be_put2; reflexivity).
    rewrite raw_two, H, !zlen_app, zlen_be_put in A. lia.
  - rewrite raw_app by exact H. rewrite be_put2. reflexivity.
Qed.
Lemma push_fub_raw s h don st en c ts d x : byte_ok h -> nal_type h <> 0 -> 0 <= d < 65536 ->
  ~ contains [0; 0; 1] (be_put 2 don ++ c) -> ebsp_to_raw (be_put 2 don ++ c) = be_put 2 d ++ x ->
  push s (fu_b h don st en c) ts =
  (add_fragment (fresh s) (no_f h) (fu_header st en h) d ts x, Ok tt).
Proof.
  intros H N D C R. destruct (fu_indicator_bits h 29 H (or_intror eq_refl)) as (I1 & I2 & I3 & I4).
  destruct (fu_header_bits st en h H) as (F1 & F2 & _ & _). pose proof (fu_header_nz st en h N) as F0.
  unfold fu_b. rewrite push_no_start by (rewrite !contains_nz by assumption; exact C).
  rewrite !raw_nz by assumption. rewrite R, parse_fub by assumption. rewrite I3, F2. reflexivity.
Qed.

Lemma contains_app_l pat a b : contains pat a -> contains pat (a ++ b).
Proof. intros (x & y & ->). exists x, (y ++ b). rewrite <- !app_assoc. reflexivity. Qed.
Lemma contains_app_r pat a b : contains pat b -> contains pat (a ++ b).
Proof. intros (x & y & ->). exists (a ++ x), y. rewrite <- !app_assoc. reflexivity. Qed.
Lemma contains_concat pat c cs : In c cs -> contains pat c -> contains pat (concat cs).
Proof.
  induction cs as [|d cs IH]; intros I C; [destruct I|]. destruct I as [-> |I]; cbn [concat];
    [apply contains_app_l, C|apply contains_app_r, IH; assumption].
Qed.

(* ---------- several NALs in one payload ---------- *)
Lemma push_nals_single ts : forall us s, us <> [] -> 0 <= s_don s < 2 ^ 16 ->
  Forall (fun u => exists h d, u = h :: d /\ byte_ok h /\ single h) us ->
  push_nals s us ts =
  (mkSink [mkUnit (hd 0 (last us [])) ((s_don s + zlen us - 1) mod 2 ^ 16) ts (tl (last us []))] (s_frags s) ((s_don s + zlen us) mod 2 ^ 16), Ok tt).
Proof.
  induction us as [|u us IH]; intros s NE D F; [congruence|]. apply Forall_cons_iff in F as [(h & d & -> & Hh & Hs) F].
  cbn [push_nals]. rewrite parse_single by assumption. destruct us as [|u us].
  - cbn [last hd tl push_nals]. change (zlen [h :: d]) with 1. replace (s_don s + 1 - 1) with (s_don s) by lia.
    rewrite (Z.mod_small (s_don s)) by lia. reflexivity.
  - rewrite IH; [|discriminate|cbn; unfold u16; apply Z.mod_pos_bound; lia|exact F].
    cbn [s_don s_frags]. change (last ((h :: d) :: u :: us) []) with (last (u :: us) []). rewrite (zlen_cons (h :: d)).
    set (n := zlen (u :: us)).
    assert (E1 : (u16 (s_don s + 1) + n - 1) mod 2 ^ 16 = (s_don s + (n + 1) - 1) mod 2 ^ 16).
    { unfold u16. rewrite <- Z.add_sub_assoc, Z.add_mod_idemp_l by lia. f_equal. lia. }
    assert (E2 : (u16 (s_don s + 1) + n) mod 2 ^ 16 = (s_don s + (n + 1)) mod 2 ^ 16).
    { unfold u16. rewrite Z.add_mod_idemp_l by lia. f_equal. lia. }
    rewrite E1, E2. reflexivity.
Qed.

(* ---------- aggregation packets whose units need no emulation bytes are plain ---------- *)
Definition good_unit (u : bytes) : Prop := stap_size_ok u /\ hd 0 u <> 0 /\ last u 1 <> 0 /\ plain u.

Lemma contains_short pat l : (length l < length pat)%nat -> ~ contains pat l.
Proof. intros H (a & b & ->). rewrite !app_length in H. lia. Qed.

Lemma contains_app_nz x a b : last a 1 <> 0 -> contains [0; 0; x] (a ++ b) -> contains [0; 0; x] a \/ contains [0; 0; x] b.
Proof.
  induction a as [|y a IH]; intros H C; [right; exact C|]. cbn [app] in C. apply contains_cons in C as [(t & E)|C].
  - destruct a as [|y2 [|y3 a]]; cbn [app last] in *.
    + injection E as -> E. contradiction.
    + injection E as -> -> E. contradiction.
    + injection E as -> -> -> E. left. exists [], a. reflexivity.
  - destruct a as [|y2 a]; [right; exact C|]. destruct (IH H C) as [D|D]; [left; apply contains_cons; right; exact D|right; exact D].
Qed.

Lemma contains_size n u x : 1 <= n < 65536 -> hd 0 u <> 0 -> contains [0; 0; x] (be_put 2 n ++ u) -> contains [0; 0; x] u.
Proof.
  intros Hn Hu. rewrite be_put2. cbn [app]. rewrite !contains_cons.
  intros [(t & E)|[(t & E)|C]]; [| |exact C]; exfalso.
  - injection E as E1 E2 _. pose proof (Z.div_mod n 256 ltac:(lia)). rewrite E2 in H.
    assert (n / 256 < 256) by (apply Z.div_lt_upper_bound; lia). assert (0 <= n / 256) by (apply Z.div_pos; lia).
    rewrite Z.mod_small in E1 by lia. lia.
  - destruct u; cbn in E, Hu; [discriminate|]. injection E as _ E _. congruence.
Qed.

Lemma stap_entries_plain us : Forall good_unit us -> plain (stap_entries us) /\ last (stap_entries us) 1 <> 0.
Proof.
  induction us as [|u us IH]; intros F.
  - split; [split; apply contains_short; cbn; lia|cbn; lia].
  - apply Forall_cons_iff in F as [(S & H & L & P1 & P2) F]. destruct (IH F) as [[I1 I2] I3].
    change (stap_entries (u :: us)) with ((be_put 2 (zlen u) ++ u) ++ stap_entries us).
    assert (NE : u <> []) by (destruct u; cbn in H; congruence).
    assert (L' : last (be_put 2 (zlen u) ++ u) 1 <> 0).
    { destruct (exists_last NE) as (m & y & ->). rewrite app_assoc, last_app_cons. rewrite last_app_cons in L. exact L. }
    unfold stap_size_ok in S. split; [split|].
    + intros C. apply contains_app_nz in C as [C|C]; auto. apply contains_size in C; auto. lia.
    + intros C. apply contains_app_nz in C as [C|C]; auto. apply contains_size in C; auto. lia.
    + destruct (list_last_dec (stap_entries us)) as [E|(m & y & E)]; rewrite E in *; [rewrite app_nil_r; exact L'|].
      rewrite app_assoc, last_app_cons. rewrite last_app_cons in I3. exact I3.
Qed.

Lemma stap_a_plain h us : h <> 0 -> Forall good_unit us -> plain (stap_a h us).
Proof.
  intros H F. destruct (stap_entries_plain us F) as [[P1 P2] _]. unfold stap_a. split; rewrite contains_nz; assumption.
Qed.

Lemma type_nz h t : nal_type h = t -> t <> 0 -> h <> 0.
Proof. intros T H ->. apply H. symmetry. exact T. Qed.

(* STAP-B: the DON field and the first size field must not form a pattern *)
Lemma stap_a_plain' don us : Forall good_unit us -> don mod 256 <> 0 -> plain (be_put 2 don ++ stap_entries us).
Proof.
  intros F D. destruct (stap_entries_plain us F) as [[P1 P2] _]. rewrite be_put2.
  split; intros C; apply contains_app_nz in C as [C|C]; auto; revert C; apply contains_short; cbn; lia.
Qed.

(* ---------- don_diff ---------- *)
Lemma don_diff_rfc m n : 0 <= m < 65536 -> 0 <= n < 65536 -> don_diff m n = rfc_don_diff m n.
Proof.
  intros Hm Hn. unfold don_diff, rfc_don_diff.
  repeat match goal with |- context [if ?b then _ else _] => destruct b eqn:?; try lia end.
Qed.

(* ---- which payloads are gone through ---- *)
Lemma stap_taken s l ts : bytes_ok l -> 0 <= s_don s < 2 ^ 16 -> snd (stap_run s l ts) = Ok tt -> exists us tail, Forall stap_size_ok us /\ l = stap_entries us ++ tail /\ zlen tail < 2.
Proof.
  intros H D. destruct (stap_grammar l H) as (us & rest & HF & -> & C). rewrite stap_entries_run by assumption. destruct C as [C|(size & x & -> & [C|[C1 C2]])].
  - intros _. exists us, rest. auto.
  - rewrite stap_bad by exact C. discriminate.
  - rewrite stap_trunc by assumption. discriminate.
Qed.
Lemma mtap_taken wide s l ts : bytes_ok l -> 0 <= s_don s < 2 ^ 16 -> snd (mtap_run wide s l ts) = Ok tt ->
  exists us tail, Forall (mtap_entry_ok (wid wide)) us /\ l = mtap_entries (wid wide) us ++ tail /\ zlen tail < 3 + Z.of_nat (wid wide).
Proof.
  intros H D. destruct (mtap_grammar (wid wide) l H ltac:(destruct wide; cbn; lia)) as (us & rest & HF & -> & C). rewrite mtap_entries_run by assumption. destruct C as [C|(size & x & -> & L & [C|[C1 C2]])].
  - intros _. exists us, rest. auto.
  - rewrite mtap_bad by assumption. discriminate.
  - rewrite mtap_trunc by (try assumption; lia). discriminate.
Qed.
Lemma parse_taken s n ts : bytes_ok n -> 0 <= s_don s < 2 ^ 16 -> (snd (parse_nal s n ts) = Ok tt <-> taken n).
Proof.
  intros H D. destruct n as [|h r]; [split; [discriminate|intros (h & r & E & _); discriminate E]|].
  apply Forall_cons_iff in H as [Hh H]. split.
  - intros E. exists h, r. split; [reflexivity|]. destruct (type_cases h Hh) as [T|[T|[(w & T)|[T|[T|T]]]]].
    + right. left. split; [exact T|]. rewrite parse_stap_a in E by assumption. exact (stap_taken (fresh s) r ts H D E).
    + right. right. left. split; [exact T|]. destruct (Z_lt_ge_dec (zlen r) 2); [rewrite parse_short in E by auto; discriminate E|].
      destruct (split2 r H ltac:(unfold zlen in *; lia)) as (don & x & -> & Hn & Hx). rewrite parse_stap_b in E by assumption. apply stap_taken in E as (us & tail & F & -> & L); [|exact Hx|exact Hn]. exists don, us, tail. auto.
    + right. right. right. left. destruct (Z_lt_ge_dec (zlen r) 2); [rewrite parse_short in E by (destruct w; auto); discriminate E|].
      destruct (split2 r H ltac:(unfold zlen in *; lia)) as (don & x & -> & Hn & Hx). rewrite (parse_mtap_eq s w) in E by assumption. apply mtap_taken in E as (us & tail & F & -> & L); [|exact Hx|exact Hn].
      exists (wid w), don, us, tail. unfold is_mtap in T. destruct w; splits; auto.
    + right. right. right. right. left. split; [exact T|]. destruct r as [|b1 r]; [unfold parse_nal in E; rewrite land31, T in E by exact Hh; discriminate E|]. rewrite zlen_cons. pose proof (zlen_nonneg r). lia.
    + right. right. right. right. right. split; [exact T|]. destruct (Z_lt_ge_dec (zlen (h :: r)) 4) as [L|L]; [|rewrite zlen_cons in L; lia].
      unfold parse_nal in E. rewrite land31, T in E by exact Hh. cbn [Z.eqb Pos.eqb] in E. replace (zlen (h :: r) <? 4) with true in E by lia. discriminate E.
    + left. exact T.
  - intros (h' & r' & E & C). injection E as <- <-. destruct C as [T|[(T & us & tail & F & -> & L)|[(T & don & us & tail & F & -> & L)|[(w & don & us & tail & T & F & -> & L)|[(T & L)|(T & L)]]]]].
    + rewrite parse_single by assumption. reflexivity.
    + rewrite parse_stap_a, stap_entries_run, stap_short by assumption. reflexivity.
    + rewrite be_put2_mod, parse_stap_b by (try assumption; apply Z.mod_pos_bound; lia). rewrite stap_entries_run, stap_short by (try assumption; apply Z.mod_pos_bound; lia). reflexivity.
    + assert (exists wd, w = wid wd /\ is_mtap h wd) as (wd & -> & T') by (destruct T as [[T ->]|[T ->]]; [exists false|exists true]; auto).
      rewrite (be_put2_mod don), (parse_mtap_eq s wd) by (try assumption; apply Z.mod_pos_bound; lia). rewrite mtap_entries_run, mtap_short by (try assumption; apply Z.mod_pos_bound; lia). reflexivity.
    + destruct r as [|b1 r]; [cbn in L; lia|]. apply Forall_cons_iff in H as [H1 H]. rewrite parse_fua by assumption. reflexivity.
    + destruct r as [|b1 r]; [cbn in L; lia|]. rewrite zlen_cons in L. apply Forall_cons_iff in H as [H1 H]. destruct (split2 r H ltac:(unfold zlen in *; lia)) as (don & x & -> & Hn & Hx).
      rewrite parse_fub by assumption. reflexivity.
Qed.
Lemma push_nals_exact nals : forall s ts, Forall bytes_ok nals -> 0 <= s_don s < 2 ^ 16 ->
  (snd (push_nals s nals ts) = Ok tt <-> Forall taken nals) /\ (snd (push_nals s nals ts) = Panic <-> breaks_at nals) /\
  (snd (push_nals s nals ts) = Err ErrPacketTooShort <-> ~ Forall taken nals /\ ~ breaks_at nals).
Proof.
  induction nals as [|n r IH]; intros s ts H D.
  { cbn [push_nals snd]. assert (NB : ~ breaks_at []) by (intros (a & x & b & E & _); destruct a; discriminate E). splits; split; intros X; try discriminate X; try constructor; try contradiction. destruct X as [X _]. elim X. constructor. }
  apply Forall_cons_iff in H as [Hn H]. cbn [push_nals].
  pose proof (parse_outcome s n ts Hn D) as O. pose proof (parse_don s n ts Hn D) as D'. pose proof (parse_taken s n ts Hn D) as T. pose proof (parse_crash s n ts Hn D) as K.
  destruct (parse_nal s n ts) as [s' o]. cbn [fst snd] in *.
  assert (B : breaks_at (n :: r) <-> crash n \/ taken n /\ breaks_at r).
  { split.
    - intros (a & x & b & E & F & C). destruct a as [|y a]; injection E as <- ->; [left; exact C|]. apply Forall_cons_iff in F as [Fy F]. right. split; [exact Fy|]. exists a, x, b. auto.
    - intros [C|(Tn & a & x & b & -> & F & C)]; [exists [], n, r; auto|]. exists (n :: a), x, b. splits; auto. }
  assert (A : Forall taken (n :: r) <-> taken n /\ Forall taken r) by apply Forall_cons_iff. rewrite B, A. clear A B.
  destruct O as [[-> C]|[-> | ->]]; cbn [snd].
  - assert (NT : ~ taken n) by (intros X; apply T in X; discriminate X). splits; split; intros X; try discriminate X; tauto.
  - assert (Tn : taken n) by (apply T; reflexivity). assert (NC : ~ crash n) by (intros X; apply K in X; discriminate X). destruct (IH s' ts H D') as (I1 & I2 & I3). rewrite I1, I2, I3. splits; split; tauto.
  - assert (NT : ~ taken n) by (intros X; apply T in X; discriminate X). assert (NC : ~ crash n) by (intros X; apply K in X; discriminate X). splits; split; intros X; try discriminate X; tauto.
Qed.
