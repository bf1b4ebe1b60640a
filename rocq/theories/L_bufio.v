(* Lemmas about the buffered reader. *)
From Coq Require Import String.
From Verif Require Import Base GoStrings M_conn M_transport M_digest M_sdp M_message M_session M_bufio S_bufio L_base.
From Coq Require Import ZifyBool ZifyNat.

(* ---- arrays ---- *)
Lemma put_length buf off l : (off + length l <= length buf)%nat -> length (put buf off l) = length buf.
Proof. intros H. unfold put. rewrite !app_length, firstn_length, skipn_length. lia. Qed.
Lemma skipn_add {A} a b (l : list A) : skipn (a + b) l = skipn b (skipn a l).
Proof. revert l; induction a as [|a IH]; intros l; [reflexivity|]. destruct l; [now rewrite !skipn_nil|apply IH]. Qed.
Lemma firstn_add {A} a b (l : list A) : firstn (a + b) l = firstn a l ++ firstn b (skipn a l).
Proof. revert l; induction a as [|a IH]; intros l; [reflexivity|]. destruct l as [|x l]; [destruct b; reflexivity|]. cbn. f_equal. apply IH. Qed.
Lemma sub_add buf off a b : sub buf off (a + b) = sub buf off a ++ sub buf (off + a) b.
Proof. unfold sub. rewrite firstn_add, skipn_add. reflexivity. Qed.
Lemma sub_length buf off n : (off + n <= length buf)%nat -> length (sub buf off n) = n.
Proof. intros H. unfold sub. rewrite firstn_length, skipn_length. lia. Qed.
Lemma sub_put_here buf off l : (off + length l <= length buf)%nat -> sub (put buf off l) off (length l) = l.
Proof.
  intros H. unfold sub, put. rewrite skipn_app, skipn_all2 by (rewrite firstn_length; lia). rewrite firstn_length.
  replace (off - Nat.min off (length buf))%nat with 0%nat by lia. cbn [skipn app]. rewrite firstn_app, Nat.sub_diag, firstn_all. cbn [firstn]. apply app_nil_r.
Qed.
Lemma sub_put_before buf off l o n : (o + n <= off)%nat -> (off <= length buf)%nat -> sub (put buf off l) o n = sub buf o n.
Proof.
  intros H L. unfold sub, put. rewrite skipn_app, firstn_length, firstn_app, skipn_length, firstn_length.
  replace (n - (Nat.min off (length buf) - o))%nat with 0%nat by lia. cbn [firstn]. rewrite app_nil_r.
  rewrite skipn_firstn_comm, firstn_firstn. f_equal. lia.
Qed.
Lemma sub_nth (buf : bytes) off : (off < length buf)%nat -> sub buf off 1 = [nth off buf 0].
Proof.
  unfold sub. revert buf; induction off as [|o IH]; intros [|x buf] H; cbn [length] in H; try lia; [reflexivity|].
  cbn [skipn nth]. apply IH. lia.
Qed.
Lemma sub_all (buf : bytes) : sub buf 0 (length buf) = buf.
Proof. unfold sub. cbn. apply firstn_all. Qed.

(* ---- the reader as a stream ---- *)
Definition bytes_of (b : reader) : bytes := sub (b_buf b) (b_r b) (avail b).
Definition due (b : reader) : stream := match b_err b with Some ErrTimeout => [None] | _ => [] end.
Definition tail (b : reader) : stream := due b ++ flow (b_net b).
Definition view (b : reader) : stream := map Some (bytes_of b) ++ tail b.
Definition sound (b : reader) : Prop :=
  length (b_buf b) = Z.to_nat bufio_size /\ (b_r b <= b_w b <= size b)%nat /\ pieces_ok (b_net b) /\
  match b_err b with None => True | Some ErrTimeout => True | Some ErrEOF => b_net b = [] | Some _ => False end.

Lemma bytes_of_length b : sound b -> length (bytes_of b) = avail b.
Proof. intros (L & W & _). unfold bytes_of. apply sub_length. unfold avail, size in *. lia. Qed.

Lemma conn_read_ok room net net' l e : pieces_ok net -> (0 < room)%nat -> conn_read room net = (net', l, e) ->
  pieces_ok net' /\ (length l <= room)%nat /\
  match e with
  | None => l <> [] /\ flow net = map Some l ++ flow net' /\ (length l = room \/ (length net' < length net)%nat)
  | Some ErrTimeout => l = [] /\ flow net = None :: flow net'
  | Some ErrEOF => l = [] /\ net = [] /\ net' = []
  | Some _ => False
  end.
Proof.
  intros P R. unfold conn_read. destruct net as [|[d|] r]; intros E; injection E as <- <- <-.
  - splits; auto; cbn; lia.
  - assert (Pr : pieces_ok r) by (intros I; apply P; right; exact I).
    assert (Hd : d <> []) by (intros ->; apply P; left; reflexivity).
    destruct (length d <=? room)%nat eqn:C.
    + rewrite firstn_all2 by lia. splits; auto; cbn [length]; lia.
    + splits.
      * intros [I|I]; [injection I as I|exact (Pr I)]. apply (f_equal (@length Z)) in I. rewrite skipn_length in I. cbn in I. lia.
      * rewrite firstn_length. lia.
      * intros I. apply (f_equal (@length Z)) in I. rewrite firstn_length in I. cbn in I. lia.
      * change (flow (Data d :: r)) with (map Some d ++ flow r). change (flow (Data (skipn room d) :: r)) with (map Some (skipn room d) ++ flow r).
        rewrite app_assoc, <- map_app, firstn_skipn. reflexivity.
      * left. rewrite firstn_length. lia.
  - splits; auto; cbn [length]; try lia. intros I. apply P. right. exact I.
Qed.

(* What a fill does when the buffer is not full and no error waits. *)
Lemma fill_ok b : sound b -> b_err b = None -> (avail b < size b)%nat ->
  exists b' l, fill b = (b', Ok tt) /\ sound b' /\ bytes_of b' = bytes_of b ++ l /\ view b' = view b /\
    (b_err b' = None /\ l <> [] /\ (avail b' = size b' \/ (length (b_net b') < length (b_net b))%nat) \/ l = [] /\ b_err b' <> None).
Proof.
  intros S E A. destruct S as (L & W & P & _). unfold fill.
  set (b1 := if (0 <? b_r b)%nat then _ else b).
  assert (H : length (b_buf b1) = length (b_buf b) /\ b_r b1 = 0%nat /\ b_w b1 = avail b /\ b_err b1 = None /\ b_net b1 = b_net b /\
              sub (b_buf b1) 0 (b_w b1) = bytes_of b).
  { unfold b1. destruct (0 <? b_r b)%nat eqn:R; cbn [b_buf b_r b_w b_err b_net].
    - assert (K : length (sub (b_buf b) (b_r b) (avail b)) = avail b) by (apply sub_length; unfold avail, size in *; lia).
      splits; auto; [apply put_length; unfold avail, size in *; lia|]. pose proof (sub_put_here (b_buf b) 0 (sub (b_buf b) (b_r b) (avail b))) as Q. rewrite K in Q. apply Q. unfold avail, size in *. lia.
    - assert (R0 : b_r b = 0%nat) by lia. splits; auto; unfold avail; rewrite ?R0; try lia. unfold bytes_of, avail. rewrite R0. f_equal. lia. }
  clearbody b1. destruct H as (H1 & H2 & H3 & H4 & H5 & H6). unfold size in *.
  replace (length (b_buf b1) <=? b_w b1)%nat with false by lia.
  destruct (conn_read (length (b_buf b1) - b_w b1) (b_net b1)) as [[net l] e] eqn:C.
  rewrite H5 in C. apply conn_read_ok in C as (N & K & M); [|assumption|lia].
  eexists _, l. split; [reflexivity|].
  set (b2 := mkB _ _ _ _ _).
  assert (B : bytes_of b2 = bytes_of b ++ l).
  { unfold bytes_of at 1, avail, b2. cbn [b_buf b_r b_w]. rewrite H2. replace (b_w b1 + length l - 0)%nat with (b_w b1 + length l)%nat by lia.
    rewrite sub_add. f_equal; [|apply sub_put_here; lia]. rewrite sub_put_before by lia. exact H6. }
  assert (Z : b_err b2 = e) by (unfold b2; cbn [b_err]; destruct e; [reflexivity|exact H4]).
  splits.
  - unfold sound, size. rewrite Z. unfold b2; cbn [b_buf b_r b_w b_net b_err]. rewrite put_length by lia. splits; try lia; try assumption.
    destruct e as [[]|]; try tauto. 
  - exact B.
  - unfold view, tail, due. rewrite B, Z, E. unfold b2; cbn [b_net]. rewrite map_app, <- app_assoc. f_equal. cbn [app].
    destruct e as [[]|]; try tauto.
    + destruct M as (-> & -> & ->). reflexivity.
    + destruct M as (-> & ->). reflexivity.
    + destruct M as (_ & -> & _). reflexivity.
  - destruct e as [g|].
    + right. split; [destruct g; tauto|]. rewrite Z. discriminate.
    + left. rewrite Z. destruct M as (M1 & _ & M2). splits; auto. unfold avail, size, b2; cbn [b_buf b_r b_w b_net]. rewrite put_length by lia. lia.
Qed.

(* ---- Peek ---- *)
Definition need (b : reader) : nat :=
  match b_err b with Some _ => 1 | None => if (size b <=? avail b)%nat then 1 else S (S (length (b_net b))) end.
Lemma need_start b : (need b <= S (S (length (b_net b))))%nat.
Proof. unfold need. destruct (b_err b); [lia|]. destruct (size b <=? avail b)%nat; lia. Qed.
Lemma fill_need b : sound b -> b_err b = None -> (avail b < size b)%nat ->
  exists b' l, fill b = (b', Ok tt) /\ sound b' /\ bytes_of b' = bytes_of b ++ l /\ view b' = view b /\ (need b' < need b)%nat /\
    (l = [] -> b_err b' <> None).
Proof.
  intros S E A. destruct (fill_ok b S E A) as (b' & l & F & S' & B & V & C). exists b', l. splits; auto.
  - unfold need at 2. rewrite E. replace (size b <=? avail b)%nat with false by lia. unfold need.
    destruct C as [(E' & _ & C)|(_ & C)].
    + rewrite E'. destruct (size b' <=? avail b')%nat eqn:Q; lia.
    + destruct (b_err b'); [lia|congruence].
  - intros ->. destruct C as [(_ & C & _)|(_ & C)]; [congruence|exact C].
Qed.
Lemma need_pos b : (0 < need b)%nat.
Proof. unfold need. destruct (b_err b); [lia|]. destruct (size b <=? avail b)%nat; lia. Qed.

Lemma peek_loop_ok n : forall fuel b, sound b -> (need b <= fuel)%nat ->
  exists b', peek_loop fuel n b = (b', Ok tt) /\ sound b' /\ view b' = view b /\
    (n <= Z.of_nat (avail b') \/ (size b' <= avail b')%nat \/ b_err b' <> None) /\ (n <= Z.of_nat (avail b) -> b' = b).
Proof.
  induction fuel as [|f IH]; intros b S N; [pose proof (need_pos b); lia|]. cbn [peek_loop].
  destruct (Z.of_nat (avail b) <? n) eqn:C1; [|exists b; splits; auto; left; lia].
  destruct (avail b <? size b)%nat eqn:C2; [|exists b; splits; auto; right; left; lia].
  destruct (b_err b) as [e|] eqn:C3; [exists b; splits; auto; right; right; congruence|]. cbn [andb].
  destruct (fill_need b S C3 ltac:(lia)) as (b1 & l & F & S1 & _ & V & N1 & _). rewrite F.
  destruct (IH b1 S1 ltac:(lia)) as (b2 & P & S2 & V2 & H & _). exists b2. splits; auto; [congruence|lia].
Qed.

Lemma take_all n : forall l t, (n <= length l)%nat -> take_bytes n (map Some l ++ t) = (map Some l ++ t, Ok (firstn n l)).
Proof.
  induction n as [|n IH]; intros [|x l] t H; cbn [length] in H; try lia; try reflexivity.
  cbn [map app take_bytes firstn]. rewrite IH by lia. reflexivity.
Qed.
Lemma take_more : forall l n t, (length l < n)%nat ->
  take_bytes n (map Some l ++ None :: t) = (map Some l ++ t, Err ErrTimeout) /\ take_bytes n (map Some l) = (map Some l, Err ErrEOF).
Proof.
  induction l as [|x l IH]; intros [|n] t H; cbn [length] in H; try lia; [split; reflexivity|].
  cbn [map app take_bytes]. destruct (IH n t ltac:(lia)) as [-> ->]. split; reflexivity.
Qed.

Definition seen (b : reader) (o : res (nat * nat)) : res bytes := let! s := o in Ok (sub (b_buf b) (fst s) (snd s)).

Lemma clear_sound b : sound b -> sound (clear b).
Proof. intros (A & B & C & D). unfold sound, clear, size in *. cbn. tauto. Qed.
Lemma view_clear b : view (clear b) = map Some (bytes_of b) ++ flow (b_net b).
Proof. reflexivity. Qed.

Lemma sub_sub buf off n m : (m <= n)%nat -> firstn m (sub buf off n) = sub buf off m.
Proof. intros H. unfold sub. rewrite firstn_firstn. f_equal. lia. Qed.

Lemma b_peek_ok n b : sound b ->
  exists b' o, b_peek n b = (b', o) /\ sound b' /\ peek n (view b) = (view b', seen b' o) /\
    match o with
    | Ok s => s = (b_r b', Z.to_nat n) /\ n <= Z.of_nat (avail b') /\ (n <= Z.of_nat (avail b) -> b' = b)
    | Err _ => Z.of_nat (avail b) < n
    | _ => False
    end.
Proof.
  intros S. unfold b_peek.
  destruct (peek_loop_ok n _ b S (need_start b)) as (b1 & P & S1 & V & W & K). rewrite P. rewrite <- V. clear P.
  assert (Z1 : Z.of_nat (size b1) = bufio_size) by (destruct S1 as (L & _); unfold size; rewrite L; reflexivity).
  unfold peek. rewrite Z1. destruct (n >? bufio_size) eqn:C1.
  - exists b1, (Err ErrBufferFull). splits; auto. destruct S as (L & (_ & L2) & _). unfold avail, size in *. lia.
  - destruct (Z.of_nat (avail b1) <? n) eqn:C2.
    + assert (A : Z.of_nat (avail b) < n) by (destruct (Z_lt_ge_dec (Z.of_nat (avail b)) n); [assumption|]; rewrite K in C2 by lia; lia).
      assert (LB : length (bytes_of b1) = avail b1) by now apply bytes_of_length.
      destruct (b_err b1) as [e|] eqn:E; [|destruct W as [W|[W|W]]; [lia|lia|congruence]].
      exists (clear b1), (Err e). splits; auto using clear_sound. rewrite view_clear. unfold view, tail, due. rewrite E.
      destruct S1 as (_ & _ & _ & S1). rewrite E in S1. destruct e; try tauto; cbn [seen bind app].
      * rewrite S1. cbn [flow flat_map]. rewrite !app_nil_r. apply (take_more _ _ []). lia.
      * apply take_more. lia.
    + exists b1, (Ok (b_r b1, Z.to_nat n)). splits; auto; [|lia]. cbn [seen bind fst snd].
      rewrite <- (sub_sub _ _ (avail b1)) by lia. apply (take_all _ (bytes_of b1)). rewrite bytes_of_length by assumption. lia.
Qed.

(* ---- Discard, ReadBytes ---- *)
Lemma advance_sound b n : sound b -> (n <= avail b)%nat -> sound (advance b n).
Proof. intros (A & B & C & D) H. unfold sound, advance, size, avail in *. cbn. splits; try assumption; lia. Qed.
Lemma bytes_advance b n : (n <= avail b)%nat -> bytes_of b = sub (b_buf b) (b_r b) n ++ bytes_of (advance b n).
Proof.
  intros H. unfold bytes_of at 1. replace (avail b) with (n + (avail b - n))%nat by lia. rewrite sub_add. f_equal.
  unfold bytes_of, advance, avail. cbn [b_buf b_r b_w]. replace (b_w b - (b_r b + n))%nat with (b_w b - b_r b - n)%nat by lia. reflexivity.
Qed.
Lemma view_advance b n : (n <= avail b)%nat -> view b = map Some (sub (b_buf b) (b_r b) n) ++ view (advance b n).
Proof. intros H. unfold view. rewrite (bytes_advance b n H), map_app, <- app_assoc. reflexivity. Qed.
Lemma advance_0 b : advance b 0 = b.
Proof. destruct b. unfold advance. cbn. f_equal. lia. Qed.

Lemma b_discard_ok n b : sound b -> (n <= avail b)%nat -> b_discard n b = (advance b n, Ok tt).
Proof.
  intros S H. unfold b_discard. destruct (n =? 0)%nat eqn:C; [replace n with 0%nat by lia; rewrite advance_0; reflexivity|].
  cbn [discard_loop]. replace (avail b =? 0)%nat with false by lia. cbv zeta. replace (Nat.min (avail b) n) with n by lia.
  rewrite Nat.eqb_refl. reflexivity.
Qed.
Lemma view_skip b n : sound b -> (n <= avail b)%nat -> skipn n (view b) = view (advance b n).
Proof.
  intros S H. rewrite (view_advance b n H), skipn_app, map_length, sub_length by (destruct S as (L & W & _); unfold avail, size in *; lia).
  rewrite Nat.sub_diag, skipn_all2 by (rewrite map_length, sub_length; destruct S as (L & W & _); unfold avail, size in *; lia). reflexivity.
Qed.

Lemma b_read_bytes_ok n b : sound b ->
  exists b' o, b_read_bytes n b = (b', o) /\ sound b' /\ read_bytes n (view b) = (view b', seen b' o) /\
    match o with
    | Ok s => snd s = Z.to_nat n /\ (n <= Z.of_nat (avail b) -> b_buf b' = b_buf b /\ b' = advance b (Z.to_nat n))
    | Err _ => Z.of_nat (avail b) < n
    | _ => False
    end.
Proof.
  intros S. unfold b_read_bytes, read_bytes. destruct (b_peek_ok n b S) as (b1 & o & E & S1 & P & C). rewrite E, P.
  destruct o as [s|e| |]; try tauto.
  - destruct C as (-> & A & K). rewrite b_discard_ok by (auto; lia). exists (advance b1 (Z.to_nat n)), (Ok (b_r b1, Z.to_nat n)).
    splits; auto.
    + apply advance_sound; [assumption|lia].
    + cbn [seen bind fst snd advance b_buf]. f_equal. unfold discard.
      rewrite sub_length by (destruct S1 as (L & W & _); unfold avail, size in *; lia). apply view_skip; [assumption|lia].
    + intros Q. rewrite (K Q). split; reflexivity.
  - exists b1, (Err e). splits; auto.
Qed.

(* ---- ReadByte, Read, ReadUint16 ---- *)
Definition gives (b b' : reader) (e : goerr) : Prop :=
  match e with ErrTimeout => view b = None :: view b' | ErrEOF => view b = [] /\ view b' = [] | _ => False end.

Lemma empty_err b e : sound b -> avail b = 0%nat -> b_err b = Some e -> gives b (clear b) e.
Proof.
  intros S A E. pose proof (bytes_of_length b S) as L. rewrite A in L. destruct (bytes_of b) eqn:B; [|discriminate].
  destruct S as (_ & _ & _ & S). rewrite E in S. unfold gives. rewrite view_clear. unfold view, tail, due. rewrite B, E.
  destruct e; try tauto; cbn; rewrite ?S; auto.
Qed.
Lemma head_byte b : sound b -> (0 < avail b)%nat -> view b = Some (nth (b_r b) (b_buf b) 0) :: view (advance b 1).
Proof.
  intros S H. rewrite (view_advance b 1) by lia. rewrite sub_nth by (destruct S as (L & W & _); unfold avail, size in *; lia). reflexivity.
Qed.

Lemma b_read_byte_ok b : sound b ->
  exists b' o, b_read_byte b = (b', o) /\ sound b' /\ read_byte (view b) = (view b', o) /\
    ((0 < avail b)%nat -> b' = advance b 1) /\ match o with Ok _ | Err _ => True | _ => False end.
Proof.
  intros S. unfold b_read_byte. cbn [byte_loop].
  assert (G : forall b, sound b -> (0 < avail b)%nat -> read_byte (view b) = (view (advance b 1), Ok (nth (b_r b) (b_buf b) 0)))
    by (intros b0 S0 H; now rewrite head_byte).
  assert (R : forall b e, sound b -> avail b = 0%nat -> b_err b = Some e -> read_byte (view b) = (view (clear b), Err e)).
  { intros b0 e S0 A E. pose proof (empty_err b0 e S0 A E) as Q. unfold gives in Q. destruct e; try tauto.
    - destruct Q as [-> ->]. reflexivity.
    - rewrite Q. reflexivity. }
  destruct (avail b =? 0)%nat eqn:A.
  - destruct (b_err b) as [e|] eqn:E.
    + exists (clear b), (Err e). splits; auto using clear_sound; [|lia]. apply R; auto; lia.
    + assert (Z1 : (0 < size b)%nat) by (destruct S as (L & _); unfold size; rewrite L; vm_compute; lia).
      destruct (fill_need b S E ltac:(lia)) as (b1 & l & F & S1 & B & V & _ & K). rewrite F.
      destruct (avail b1 =? 0)%nat eqn:A1.
      * assert (Hl : l = []).
        { pose proof (bytes_of_length b1 S1) as L. rewrite B, app_length in L. destruct l; [reflexivity|]. cbn in L. lia. }
        destruct (b_err b1) as [e|] eqn:E1; [|now elim (K Hl)].
        exists (clear b1), (Err e). splits; auto using clear_sound; [|lia]. rewrite <- V. apply R; auto; lia.
      * exists (advance b1 1), (Ok (nth (b_r b1) (b_buf b1) 0)). splits; auto; [apply advance_sound; auto; lia| |lia].
        rewrite <- V. apply G; auto; lia.
  - exists (advance b 1), (Ok (nth (b_r b) (b_buf b) 0)). splits; auto; [apply advance_sound; auto; lia|]. apply G; auto; lia.
Qed.

Lemma b_read_ok n b : (0 < n)%nat -> sound b ->
  exists b' o, b_read n b = (b', o) /\ sound b' /\
    match o with
    | Ok l => l <> [] /\ (length l <= n)%nat /\ view b = map Some l ++ view b'
    | Err e => gives b b' e
    | _ => False
    end /\ ((n <= avail b)%nat -> b' = advance b n /\ o = Ok (sub (b_buf b) (b_r b) n)).
Proof.
  intros H S. unfold b_read.
  assert (G : forall b, sound b -> (0 < avail b)%nat -> let k := Nat.min n (avail b) in
    sound (advance b k) /\ sub (b_buf b) (b_r b) k <> [] /\ (length (sub (b_buf b) (b_r b) k) <= n)%nat /\
    view b = map Some (sub (b_buf b) (b_r b) k) ++ view (advance b k)).
  { intros b0 S0 A k. assert (Hk : (0 < k <= avail b0)%nat) by (unfold k; lia).
    assert (L : length (sub (b_buf b0) (b_r b0) k) = k) by (apply sub_length; destruct S0 as (L & W & _); unfold avail, size in *; lia).
    splits; [apply advance_sound; auto; lia| |lia|apply view_advance; lia]. intros Q. rewrite Q in L. cbn in L. lia. }
  destruct (avail b =? 0)%nat eqn:A.
  - destruct (b_err b) as [e|] eqn:E.
    + exists (clear b), (Err e). splits; auto using clear_sound; [|lia]. apply empty_err; auto; lia.
    + destruct (conn_read (size b) (b_net b)) as [[net l] e] eqn:C.
      pose proof S as (L & W & P & _).
      apply conn_read_ok in C as (N & K & M); [|assumption|unfold size; rewrite L; vm_compute; lia].
      assert (B : bytes_of b = []) by (pose proof (bytes_of_length b S) as Q; destruct (bytes_of b); [reflexivity|cbn in Q; lia]).
      assert (Vb : view b = flow (b_net b)) by (unfold view, tail, due; rewrite B, E; reflexivity).
      destruct e as [e|].
      * eexists _, (Err e). split; [reflexivity|]. splits; [| |lia].
        -- unfold sound, size in *. cbn. splits; auto; lia.
        -- unfold gives. destruct e; try tauto.
           ++ destruct M as (_ & Q & ->). rewrite Vb, Q. split; reflexivity.
           ++ rewrite Vb. apply M.
      * set (b1 := mkB (put (b_buf b) 0 l) 0 (length l) None net). cbv zeta. destruct M as (M1 & M2 & _).
        assert (S1 : sound b1) by (unfold sound, size in *; unfold b1; cbn [b_buf b_r b_w b_net b_err]; rewrite put_length by lia; splits; auto; lia).
        assert (A1 : (0 < avail b1)%nat) by (unfold avail, b1; cbn [b_r b_w]; destruct l; [congruence|cbn; lia]).
        assert (V1 : view b1 = view b).
        { rewrite Vb, M2. unfold view, tail, due, bytes_of, avail, b1. cbn [b_buf b_r b_w b_net b_err app]. f_equal. f_equal.
          rewrite Nat.sub_0_r. apply sub_put_here. unfold size in K. lia. }
        destruct (G b1 S1 A1) as (G1 & G2 & G3 & G4). eexists _, (Ok _). split; [reflexivity|]. splits; auto; [|lia]. rewrite <- V1. exact G4.
  - destruct (G b S ltac:(lia)) as (G1 & G2 & G3 & G4). cbv zeta. eexists _, (Ok _). split; [reflexivity|]. splits; auto.
    intros Q. replace (Nat.min n (avail b)) with n by lia. split; reflexivity.
Qed.

Lemma b_read_uint16_ok b : sound b ->
  exists b' o, b_read_uint16 b = (b', o) /\ sound b' /\ read_uint16 (view b) = (view b', o) /\
    ((2 <= avail b)%nat -> b' = advance b 2) /\ match o with Ok _ | Err _ => True | _ => False end.
Proof.
  intros S. unfold b_read_uint16. cbn [read_full Nat.eqb].
  destruct (b_read_ok 2 b ltac:(lia) S) as (b1 & o & E & S1 & C & D). rewrite E.
  destruct o as [l|e| |]; try tauto.
  - destruct C as (C1 & C2 & C3). destruct l as [|x [|y [|z l]]]; cbn [length] in C2; try lia; try congruence.
    + cbn [length Nat.sub Nat.eqb]. destruct (b_read_ok 1 b1 ltac:(lia) S1) as (b2 & o2 & E2 & S2 & C & _). rewrite E2.
      assert (D' : (2 <= avail b)%nat -> False).
      { intros Q. destruct (D Q) as [_ Q2]. injection Q2 as Q2. apply (f_equal (@length Z)) in Q2.
        rewrite sub_length in Q2 by (destruct S as (L & W & _); unfold avail, size in *; lia). cbn in Q2. lia. }
      cbn [map app] in C3. unfold read_uint16. rewrite C3. cbn [read_byte].
      destruct o2 as [l|e| |]; try tauto.
      * destruct C as (G1 & G2 & G3). destruct l as [|y [|z l]]; cbn [length] in G2; try lia; try congruence.
        cbn [length Nat.sub]. rewrite G3. cbn. exists b2, (Ok (x * 256 + y)). splits; auto. intros Q. now elim (D' Q).
      * exists b2, (Err e). unfold gives in C. splits; auto; [|intros Q; now elim (D' Q)].
        destruct e; try tauto; [destruct C as [-> ->]; reflexivity|rewrite C; reflexivity].
    + cbn [length Nat.sub Nat.eqb]. cbn [map app] in C3. unfold read_uint16. rewrite C3. cbn.
      exists b1, (Ok (x * 256 + y)). splits; auto. intros Q. apply D, Q.
  - exists b1, (Err e). unfold gives in C. unfold read_uint16. splits; auto; [|intros Q; destruct (D Q); discriminate].
    destruct e; try tauto; [destruct C as [-> ->]; reflexivity|rewrite C; reflexivity].
Qed.

(* ---- lines ---- *)
Lemma index_some c : forall l i, index c l = Some i -> exists r, l = firstn i l ++ c :: r /\ ~ In c (firstn i l) /\ length (firstn i l) = i.
Proof.
  induction l as [|x l IH]; intros i H; [discriminate|]. cbn [index] in H. destruct (x =? c) eqn:C.
  - injection H as <-. exists l. replace x with c by lia. cbn. splits; auto.
  - destruct (index c l) as [j|]; [|discriminate]. injection H as <-. destruct (IH j eq_refl) as (r & E & N & L). exists r. cbn [firstn app In length].
    splits; [now rewrite <- E| |now rewrite L]. intros [Q|Q]; [lia|tauto].
Qed.
Lemma index_none c l : index c l = None -> ~ In c l.
Proof.
  induction l as [|x l IH]; intros H; [tauto|]. cbn [index] in H. destruct (x =? c) eqn:C; [discriminate|].
  destruct (index c l); [discriminate|]. intros [Q|Q]; [lia|]. now apply IH.
Qed.
Lemma index_skip c : forall n l, ~ In c (firstn n l) -> index c l = option_map (fun i => i + n)%nat (index c (skipn n l)).
Proof.
  induction n as [|n IH]; intros l H; [cbn; destruct (index c l); cbn; f_equal; lia|].
  destruct l as [|x l]; [reflexivity|]. cbn [firstn] in H. cbn [index skipn]. destruct (x =? c) eqn:C; [elim H; left; lia|].
  rewrite (IH l) by (intros Q; apply H; now right). destruct (index c (skipn n l)); cbn; f_equal. lia.
Qed.

(* the end of a reading of a line from the reader b that leaves b' *)
Definition line_end (b b' : reader) (l : bytes) (e : option goerr) : Prop :=
  match e with
  | None => exists l0, l = l0 ++ [10] /\ ~ In 10 l0 /\ view b = map Some l ++ view b'
  | Some ErrBufferFull => ~ In 10 l /\ l <> [] /\ view b = map Some l ++ view b'
  | Some ErrTimeout => ~ In 10 l /\ view b = map Some l ++ None :: view b'
  | Some ErrEOF => ~ In 10 l /\ view b = map Some l /\ view b' = []
  | _ => False
  end.

Lemma skipn_sub buf off n s : skipn s (sub buf off n) = sub buf (off + s) (n - s).
Proof.
  unfold sub. rewrite skipn_firstn_comm, skipn_add. reflexivity.
Qed.

Lemma slice_loop_ok : forall fuel s b, sound b -> (need b <= fuel)%nat -> (s <= avail b)%nat -> ~ In 10 (firstn s (bytes_of b)) ->
  exists b' l e, slice_loop fuel s b = (b', Ok (l, e)) /\ sound b' /\ line_end b b' l e /\
    (forall i, index 10 (bytes_of b) = Some i -> b' = advance b (i + 1) /\ e = None).
Proof.
  induction fuel as [|f IH]; intros s b S N Hs H; [pose proof (need_pos b); lia|]. cbn [slice_loop].
  rewrite <- skipn_sub. change (sub (b_buf b) (b_r b) (avail b)) with (bytes_of b).
  pose proof (index_skip 10 s (bytes_of b) H) as Q. destruct (index 10 (skipn s (bytes_of b))) as [i|] eqn:I.
  - cbn [option_map] in Q. destruct (index_some _ _ _ Q) as (r & E & H1 & H2).
    pose proof (bytes_of_length b S) as LB. assert (K : (i + s + 1 <= avail b)%nat) by (rewrite <- LB, E, app_length, H2; cbn; lia).
    exists (advance b (i + s + 1)), (sub (b_buf b) (b_r b) (i + s + 1)), None. splits; auto; [now apply advance_sound| |].
    + exists (firstn (i + s) (bytes_of b)). splits; auto; [|now apply view_advance].
      rewrite <- (sub_sub _ _ (avail b)) by lia. fold (bytes_of b). rewrite firstn_add. f_equal. rewrite E at 1.
      rewrite skipn_app, H2, Nat.sub_diag, skipn_all2 by lia. reflexivity.
    + intros j J. rewrite Q in J. injection J as <-. split; reflexivity.
  - cbn [option_map] in Q. pose proof (index_none _ _ Q) as NI. destruct (b_err b) as [e|] eqn:E.
    + exists (clear (advance b (avail b))), (bytes_of b), (Some e). splits; auto.
      * now apply clear_sound, advance_sound.
      * assert (A : avail (advance b (avail b)) = 0%nat) by (unfold avail, advance; cbn; lia).
        pose proof (empty_err (advance b (avail b)) e (advance_sound b _ S (le_n _)) A E) as G.
        pose proof (view_advance b (avail b) (le_n _)) as V. fold (bytes_of b) in V.
        unfold gives in G. destruct e; try tauto; cbn [line_end].
        -- destruct G as [G1 G2]. rewrite G1, app_nil_r in V. auto.
        -- rewrite G in V. auto.
      * congruence.
    + destruct (size b <=? avail b)%nat eqn:C.
      * exists (advance b (avail b)), (b_buf b), (Some ErrBufferFull).
        assert (R : b_r b = 0%nat /\ avail b = length (b_buf b)) by (destruct S as (L & W & _); unfold avail, size in *; lia).
        destruct R as [R1 R2].
        assert (B : bytes_of b = b_buf b) by (unfold bytes_of; rewrite R1, R2; apply sub_all).
        splits; auto.
        -- now apply advance_sound.
        -- cbn [line_end]. rewrite <- B. splits; auto; [|apply view_advance; lia].
           intros Z. pose proof (bytes_of_length b S) as L. destruct S as (L0 & _). rewrite Z, R2, L0 in L. vm_compute in L. discriminate.
        -- congruence.
      * destruct (fill_need b S E ltac:(lia)) as (b1 & l & F & S1 & B & V & N1 & _). rewrite F.
        pose proof (bytes_of_length b S) as LB. pose proof (bytes_of_length b1 S1) as LB1. rewrite B, app_length in LB1.
        destruct (IH (avail b) b1 S1 ltac:(lia) ltac:(lia)) as (b2 & l2 & e2 & E2 & S2 & D & _).
        { rewrite B, firstn_app, <- LB, Nat.sub_diag, firstn_all. cbn [firstn]. now rewrite app_nil_r. }
        exists b2, l2, e2. rewrite E2. splits; auto; [|congruence]. unfold line_end in *. rewrite V in D. exact D.
Qed.


Lemma coming_count b : sound b -> coming b = length (filter (fun x => match x with Some _ => true | None => false end) (view b)).
Proof.
  intros S. unfold coming, view, tail. rewrite !filter_app, !app_length. rewrite <- (bytes_of_length b S).
  assert (F : forall l : bytes, filter (fun x : option Z => match x with Some _ => true | None => false end) (map Some l) = map Some l)
    by (induction l as [|x l IH]; cbn; [reflexivity|now rewrite IH]).
  rewrite F, map_length. f_equal.
  replace (length (filter _ (due b))) with 0%nat by (unfold due; destruct (b_err b) as [[]|]; reflexivity). cbn [Nat.add].
  induction (b_net b) as [|[l|] r IH]; cbn [flat_map flow]; [reflexivity| |]; fold (flow r).
  - rewrite filter_app, !app_length, F, map_length, IH. reflexivity.
  - exact IH.
Qed.
Lemma coming_less b b' l : sound b -> sound b' -> view b = map Some l ++ view b' -> coming b = (length l + coming b')%nat.
Proof.
  intros S S' V. rewrite !coming_count, V by assumption. rewrite filter_app, app_length. f_equal. clear V.
  induction l as [|x l IH]; cbn; [reflexivity|]. rewrite IH; reflexivity.
Qed.

Lemma read_line_app l : forall s, ~ In 10 l -> read_line (map Some l ++ s) = (fst (read_line s), let! x := snd (read_line s) in Ok (l ++ x)).
Proof.
  induction l as [|x l IH]; intros s H.
  - cbn. destruct (read_line s) as [s' []]; reflexivity.
  - cbn [map app read_line]. replace (x =? 10) with false by (symmetry; apply Z.eqb_neq; intros ->; apply H; now left).
    rewrite IH by (intros Q; apply H; now right). destruct (read_line s) as [s' []]; reflexivity.
Qed.

Lemma string_loop_ok : forall fuel acc b, sound b -> (coming b < fuel)%nat ->
  exists b' o, string_loop fuel acc b = (b', o) /\ sound b' /\ fst (read_line (view b)) = view b' /\
    o = (let! x := snd (read_line (view b)) in Ok (acc ++ x)) /\ match o with Ok _ | Err _ => True | _ => False end.
Proof.
  induction fuel as [|f IH]; intros acc b S H; [lia|]. cbn [string_loop]. unfold read_slice.
  destruct (slice_loop_ok _ 0 b S (need_start b)) as (b1 & l & e & E & S1 & D & _); [lia|cbn; tauto|]. rewrite E.
  destruct e as [[]|]; cbn [line_end] in D; try tauto.
  - destruct D as (D1 & D2 & D3). exists b1, (Err ErrEOF). rewrite D2, D3, <- (app_nil_r (map Some l)), read_line_app by assumption. splits; auto.
  - destruct D as (D1 & D2). exists b1, (Err ErrTimeout). rewrite D2, read_line_app by assumption. splits; auto.
  - destruct D as (D1 & D2 & D3). pose proof (coming_less _ _ _ S S1 D3) as C.
    assert (0 < length l)%nat by (destruct l; [congruence|cbn; lia]).
    destruct (IH (acc ++ l) b1 S1 ltac:(lia)) as (b2 & o & E2 & S2 & R1 & R2 & R3). exists b2, o. rewrite E2, D3, read_line_app by assumption.
    cbn [fst snd]. splits; auto. rewrite R2. destruct (snd (read_line (view b1))); cbn; rewrite ?app_assoc; reflexivity.
  - destruct D as (l0 & -> & D2 & D3). exists b1, (Ok (acc ++ l0 ++ [10])). rewrite D3, map_app, <- app_assoc, read_line_app by assumption.
    cbn. splits; auto.
Qed.

Lemma b_read_line_ok b : sound b ->
  exists b' o, b_read_line b = (b', o) /\ sound b' /\ read_line (view b) = (view b', o) /\ match o with Ok _ | Err _ => True | _ => False end.
Proof.
  intros S. destruct (string_loop_ok (Datatypes.S (coming b)) [] b S ltac:(lia)) as (b' & o & E & S' & F & R & K). exists b', o. splits; auto.
  rewrite (surjective_pairing (read_line (view b))), F, R. destruct (snd (read_line (view b))); reflexivity.
Qed.

Lemma read_line_used s : forall s' l, read_line s = (s', Ok l) -> s = map Some l ++ s' /\ l <> [].
Proof.
  induction s as [|[x|] s IH]; intros s' l H; cbn [read_line] in H; try discriminate.
  destruct (x =? 10); [injection H as <- <-; split; [reflexivity|discriminate]|].
  destruct (read_line s) as [r [q| | |]]; try discriminate. injection H as <- <-. destruct (IH _ _ eq_refl) as [-> _]. split; [reflexivity|discriminate].
Qed.
Lemma b_read_line_used b b' l : sound b -> sound b' -> read_line (view b) = (view b', Ok l) -> (coming b' < coming b)%nat /\ (length (view b') < length (view b))%nat.
Proof.
  intros S S' R. destruct (read_line_used _ _ _ R) as [V N]. assert (0 < length l)%nat by (destruct l; [congruence|cbn; lia]).
  split; [rewrite (coming_less _ _ _ S S' V); lia|]. rewrite V, app_length, map_length. lia.
Qed.

(* ---- messages ---- *)
Lemma b_header_lines_ok : forall f1 f2 h b, sound b -> (coming b < f1)%nat -> (length (view b) < f2)%nat ->
  exists b' o, b_header_lines f1 h b = (b', o) /\ sound b' /\ header_lines f2 h (view b) = (view b', o) /\ match o with Ok _ | Err _ => True | _ => False end.
Proof.
  induction f1 as [|f1 IH]; intros f2 h b S H1 H2; [lia|]. destruct f2 as [|f2]; [lia|]. cbn [b_header_lines header_lines].
  destruct (b_read_line_ok b S) as (b1 & o & E & S1 & R & K). rewrite E, R. destruct o as [l|e| |]; try tauto.
  - destruct (b_read_line_used _ _ _ S S1 R) as [L1 L2]. cbv zeta. destruct (beq (trim_space l) []); [exists b1, (Ok h); auto|].
    destruct (split2 58 (trim_space l)) as [|k [|v [|]]]; try (eexists b1, (Err _); splits; auto; fail).
    apply IH; [assumption|lia|lia].
  - eexists b1, (Err _). auto.
Qed.
Lemma b_http_lines_ok : forall f1 f2 b, sound b -> (coming b < f1)%nat -> (length (view b) < f2)%nat ->
  exists b' o, b_http_lines f1 b = (b', o) /\ sound b' /\ http_lines f2 (view b) = (view b', o) /\ match o with Ok _ | Err _ => True | _ => False end.
Proof.
  induction f1 as [|f1 IH]; intros f2 b S H1 H2; [lia|]. destruct f2 as [|f2]; [lia|]. cbn [b_http_lines http_lines].
  destruct (b_read_line_ok b S) as (b1 & o & E & S1 & R & K). rewrite E, R. destruct o as [l|e| |]; try tauto.
  - destruct (b_read_line_used _ _ _ S S1 R) as [L1 L2]. cbv zeta. destruct (beq (trim_space l) []); [exists b1, (Ok tt); auto|].
    destruct (split2 58 (trim_space l)) as [|k [|v [|]]]; try (eexists b1, (Err _); splits; auto; fail).
    apply IH; [assumption|lia|lia].
  - eexists b1, (Err _). auto.
Qed.
Lemma b_receive_http_ok b : sound b ->
  exists b' o, b_receive_http b = (b', o) /\ sound b' /\ receive_http (view b) = (view b', o).
Proof.
  intros S. unfold b_receive_http, receive_http.
  destruct (b_read_line_ok b S) as (b1 & o & E & S1 & R & K). rewrite E, R. destruct o as [l|e| |]; try tauto.
  - destruct (status_line (bs "HTTP/1.0") l) as [a|e| |]; try (eexists b1, _; splits; auto; fail).
    destruct (b_http_lines_ok (Datatypes.S (coming b1)) (Datatypes.S (length (view b1))) b1 S1 ltac:(lia) ltac:(lia)) as (b2 & o2 & E2 & S2 & R2 & _). eauto.
  - eexists b1, (Err _). auto.
Qed.

Lemma b_unpack_ok b : sound b ->
  exists b' o, b_unpack b = (b', o) /\ sound b' /\ unpack_response (view b) = (view b', let! x := o in Ok (fst x)) /\
    match o with Ok (r, s) => p_body r = option_map (fun s => sub (b_buf b') (fst s) (snd s)) s | _ => True end.
Proof.
  intros S. unfold b_unpack, unpack_response.
  destruct (b_read_line_ok b S) as (b1 & o & E & S1 & R & K). rewrite E, R. destruct o as [l|e| |]; try tauto; [|eexists b1, (Err _); auto].
  destruct (status_line (bs "RTSP/1.0") l) as [[st code]|e| |].
  2-4: eexists b1, _; splits; [reflexivity|assumption|reflexivity|exact I].
  destruct (b_header_lines_ok (Datatypes.S (coming b1)) (Datatypes.S (length (view b1))) [] b1 S1 ltac:(lia) ltac:(lia)) as (b2 & o2 & E2 & S2 & R2 & K2).
  rewrite E2, R2. destruct o2 as [h|e| |]; try tauto; [|eexists b2, (Err _); auto].
  cbv zeta. set (len := match atoi (header_get h (bs "Content-Length")) with (n, None) => n | _ => 0 end).
  destruct (len >? 0) eqn:C; [|eexists b2, (Ok _); splits; auto; reflexivity].
  destruct (b_read_bytes_ok len b2 S2) as (b3 & o3 & E3 & S3 & R3 & K3). rewrite E3, R3.
  destruct o3 as [s|e| |]; try tauto; [|eexists b3, (Err _); auto].
  eexists b3, (Ok _). splits; [reflexivity|assumption|reflexivity|reflexivity].
Qed.

(* ---- the session does not look at the incoming bytes but by reading them ---- *)
Definition blind (f : world -> world * res unit) : Prop := forall w x, f (upd_in w x) = (upd_in (fst (f w)) x, snd (f w)).
Lemma upd_s_in w x f : upd_s (upd_in w x) f = upd_in (upd_s w f) x.
Proof. reflexivity. Qed.
Lemma note_in w x e : note (upd_in w x) e = upd_in (note w e) x.
Proof. reflexivity. Qed.
Lemma notify_in w x st : notify (upd_in w x) st = upd_in (notify w st) x.
Proof. reflexivity. Qed.
Lemma write_in again r : blind (fun w => write w again r).
Proof.
  intros w x. unfold write. cbn [upd_in w_s w_writes w_in w_listens w_rand w_log].
  destruct (s_proto (w_s w) =? ProtoHTTP); [reflexivity|]. cbv zeta. destruct (w_writes w) as [|[e|] l]; reflexivity.
Qed.
Lemma command_in verb uri h : blind (fun w => command w verb uri h).
Proof.
  intros w x. unfold command. change (w_s (upd_in w x)) with (w_s w). destruct (negb (s_conn (w_s w))); [reflexivity|]. cbv zeta.
  destruct (call_auth (w_s w) verb) as [s a]. destruct (enqueue _ _) as [s' r]. rewrite upd_s_in. apply (write_in false r).
Qed.
Lemma with_conn_in (k : world -> session -> world * res unit) : (forall s, blind (fun w => k w s)) -> blind (fun w => with_conn w (k w)).
Proof. intros H w x. unfold with_conn. change (w_s (upd_in w x)) with (w_s w). destruct (s_conn (w_s w)); [apply H|reflexivity]. Qed.
Lemma setup_from_in todo : forall i, blind (fun w => setup_from w i todo).
Proof.
  induction todo as [|f rest IH]; intros i w x; cbn [setup_from]; [reflexivity|]. change (w_s (upd_in w x)) with (w_s w).
  destruct (setup_uri (w_s w) (m_control (fd_media f))) as [uri|e| |]; try reflexivity.
  pose proof (command_in (bs "SETUP") uri [(bs "Transport", transport_string (fd_transp f))] w x) as C. cbv beta in C. rewrite C.
  destruct (command w (bs "SETUP") uri _) as [w' [u|e| |]]; cbn [fst snd]; try reflexivity. rewrite upd_s_in. apply IH.
Qed.
Lemma setup_in : blind setup.
Proof. intros w x. unfold setup. change (w_s (upd_in w x)) with (w_s w). apply setup_from_in. Qed.
Lemma keepalive_in t1 t2 : blind (fun w => keepalive w t1 t2).
Proof.
  unfold keepalive. apply (with_conn_in (fun w s => _)). intros s w x. cbv beta. destruct (_ && _); [|reflexivity].
  destruct (match s_last s with None => true | Some l => t1 - l >=? keepAliveTimeout end); [|reflexivity].
  rewrite upd_s_in, note_in. apply command_in.
Qed.
Lemma do_cmd_in c : blind (fun w => do_cmd w c).
Proof.
  destruct c; cbn [do_cmd]; try apply setup_in; try apply keepalive_in.
  all: unfold options, describe, play, pause, teardown; apply (with_conn_in (fun w s => command w _ _ _)); intros s; apply command_in.
Qed.
Lemma add_sink_in ch port : blind (fun w => add_sink w ch port).
Proof. intros w x. unfold add_sink. cbn [upd_in w_listens]. destruct (w_listens w) as [|[e|] l]; reflexivity. Qed.
Lemma setup_feeds_in cseq value todo : forall i, blind (fun w => setup_feeds w cseq value i todo).
Proof.
  induction todo as [|f rest IH]; intros i w x; cbn [setup_feeds]; [reflexivity|]. destruct (fd_cseq f =? cseq); [|apply IH]. cbv zeta.
  rewrite !upd_s_in. destruct (transport_setup f value) as [f' [u|e| |]]; try reflexivity. rewrite upd_s_in.
  destruct (t_tcp (fd_transp f')); [apply IH|].
  set (w1 := upd_s (upd_s w _) _). change (w_s (upd_in w1 x)) with (w_s w1).
  set (ch := u8 (u8 (s_feedidx (w_s w1)) * 2)). pose proof (add_sink_in ch (p_one (t_port (fd_transp f'))) w1 x) as A. cbv beta in A. rewrite A.
  destruct (add_sink w1 ch _) as [w2 [u2|e| |]]; cbn [fst snd]; try reflexivity.
  pose proof (add_sink_in (u8 (ch + 1)) (p_two (t_port (fd_transp f'))) w2 x) as A2. cbv beta in A2. rewrite A2.
  destruct (add_sink w2 (u8 (ch + 1)) _) as [w3 [u3|e| |]]; cbn [fst snd]; try reflexivity. apply IH.
Qed.
Lemma handle_setup_in r : blind (fun w => handle_setup w r).
Proof.
  intros w x. unfold handle_setup. cbv zeta.
  set (finish := fun w : world => if s_feedidx (w_s w) >=? zlen (s_feeds (w_s w)) then (note (notify w StageReady) Started, @Ok unit tt) else (w, Ok tt)).
  assert (F : blind finish) by (intros w0 x0; unfold finish; change (w_s (upd_in w0 x0)) with (w_s w0); destruct (_ >=? _); reflexivity).
  destruct (p_code r =? 200).
  - change (w_s (upd_in w x)) with (w_s w).
    pose proof (setup_feeds_in (p_cseq r) (header_get (p_header r) (bs "Transport")) (s_feeds (w_s w)) 0 w x) as A. cbv beta in A. rewrite A.
    destruct (setup_feeds w _ _ 0 _) as [w' [u|e| |]]; cbn [fst snd]; try reflexivity. apply F.
  - destruct (negb (p_code r =? 401)); [rewrite upd_s_in|]; apply F.
Qed.
Lemma authorize_in c : blind (fun w => authorize w c).
Proof.
  intros w x. unfold authorize. cbn [upd_in w_s w_rand w_writes w_listens w_in w_log]. destruct (new_digest _ _) as [d|e| |]; try reflexivity.
  destruct (s_user (w_s w)) as [[u p]|]; [|reflexivity]. destruct (authenticate d u p _); reflexivity.
Qed.
Lemma retry_in req r : blind (fun w => retry w req r).
Proof.
  intros w x. unfold retry. pose proof (authorize_in (header_get (p_header r) (bs "WWW-Authenticate")) w x) as A. cbv beta in A. rewrite A.
  destruct (authorize w _) as [w' [u|e| |]]; cbn [fst snd]; try reflexivity. change (w_s (upd_in w' x)) with (w_s w').
  destruct (call_auth (w_s w') (q_verb req)) as [s a]. destruct (enqueue _ _) as [s' q]. rewrite upd_s_in. apply write_in.
Qed.
Lemma react_in req r : blind (fun w => react w req r).
Proof.
  intros w x. unfold react. cbv zeta. change (w_s (upd_in w x)) with (w_s w).
  repeat (match goal with |- (if ?c then _ else _) = _ => destruct c end); try reflexivity; try apply handle_setup_in; try (destruct (p_code r =? 200); reflexivity).
  - rewrite upd_s_in. apply (do_cmd_in CDescribe).
  - destruct (p_body r) as [body|]; [|reflexivity]. destruct (parse_feeds _ body); try reflexivity. rewrite upd_s_in. apply setup_in.
Qed.
Lemma handle_response_in r : blind (fun w => handle_response w r).
Proof.
  intros w x. unfold handle_response. cbv zeta. rewrite note_in. change (w_s (upd_in (note w (Got r)) x)) with (w_s (note w (Got r))).
  destruct (qget _ _) as [q|]; [|reflexivity]. rewrite upd_s_in. destruct (p_code r =? 401); [apply retry_in|].
  rewrite upd_s_in. apply react_in.
Qed.

(* ---- the session over the reader and over the stream ---- *)
Lemma not_dollar {A} c (x y : A) : c <> 36 -> match c with 36 => x | _ => y end = y.
Proof.
  intros N. destruct c as [|c|c]; try reflexivity.
  destruct c as [c|c|]; try reflexivity. destruct c as [c|c|]; try reflexivity. destruct c as [c|c|]; try reflexivity.
  destruct c as [c|c|]; try reflexivity. destruct c as [c|c|]; try reflexivity. destruct c; try reflexivity. congruence.
Qed.
Lemma b_receive_ok w b : sound b ->
  exists w' b' o, b_receive w b = (w', b', o) /\ sound b' /\ receive (upd_in w (view b)) = (upd_in w' (view b'), o).
Proof.
  intros S. unfold b_receive, receive. change (w_in (upd_in w (view b))) with (view b).
  destruct (b_peek_ok 1 b S) as (b0 & o & E & S0 & R & K). rewrite E, R.
  destruct o as [[off len]|e| |]; try tauto; cbn [seen bind fst snd]; [|exists w, b0, (Err e); auto].
  destruct K as (Q & A & _). injection Q as -> ->. change (Z.to_nat 1) with 1%nat.
  rewrite sub_nth by (destruct S0 as (L & W & _); unfold avail, size in *; lia).
  set (c := nth (b_r b0) (b_buf b0) 0).
  assert (D : (c =? 36) = true /\ c = 36 \/ (c =? 36) = false /\ c <> 36) by lia.
  destruct D as [[-> ->]|[-> N]].
  - rewrite b_discard_ok by (auto; lia). unfold discard. rewrite view_skip by (auto; lia).
    pose proof (advance_sound b0 1 S0 ltac:(lia)) as S0'.
    destruct (b_read_byte_ok _ S0') as (b1 & o1 & E1 & S1 & R1 & _ & K1). rewrite E1, R1. destruct o1 as [ch|e| |]; try tauto; [|exists w, b1, (Err e); auto].
    destruct (b_read_uint16_ok _ S1) as (b2 & o2 & E2 & S2 & R2 & _ & K2). rewrite E2, R2. destruct o2 as [len|e| |]; try tauto; [|exists w, b2, (Err e); auto].
    destruct (b_read_bytes_ok len b2 S2) as (b3 & o3 & E3 & S3 & R3 & K3). rewrite E3, R3.
    destruct o3 as [s|e| |]; try tauto; cbn [seen bind]; [|exists w, b3, (Err e); auto].
    exists (note w (Delivered ch (sub (b_buf b3) (fst s) (snd s)))), b3, (Ok tt). auto.
  - rewrite (not_dollar c) by exact N.
    destruct (b_unpack_ok b0 S0) as (b1 & o & E1 & S1 & R1 & _). rewrite E1, R1.
    destruct o as [[r s]|e| |]; cbn [bind fst]; [|exists w, b1, (Err e); auto|exists w, b1, Panic; auto|exists w, b1, Fuel; auto].
    pose proof (handle_response_in r w (view b1)) as H. cbv beta in H. exists (fst (handle_response w r)), b1, (snd (handle_response w r)).
    splits; auto. destruct (handle_response w r); reflexivity.
Qed.

Lemma b_turn_ok w b t1 t2 : sound b ->
  exists w' b' o, b_turn w b t1 t2 = (w', b', o) /\ sound b' /\ turn (upd_in w (view b)) t1 t2 = (upd_in w' (view b'), o).
Proof.
  intros S. unfold b_turn, turn. cbv zeta. pose proof (keepalive_in t1 t2 w (view b)) as K. cbv beta in K. rewrite K.
  destruct (keepalive w t1 t2) as [w1 o1]; cbn [fst snd].
  assert (R : exists w' b' o, match b_receive w1 b with (w, b, Ok _) => (w, b, Again) | (w, b, Err e) => (w, b, if is_timeout e then Again else Stop) | (w, b, Panic) | (w, b, Fuel) => (w, b, Crash) end = (w', b', o) /\ sound b' /\
    match receive (upd_in w1 (view b)) with (w, Ok _) => (w, Again) | (w, Err e) => (w, if is_timeout e then Again else Stop) | (w, Panic) | (w, Fuel) => (w, Crash) end = (upd_in w' (view b'), o)).
  { destruct (b_receive_ok w1 b S) as (w2 & b2 & o & E & S2 & R). rewrite E, R. destruct o; eauto 7. }
  destruct o1; [exact R| |eauto 7|eauto 7]. change (s_stage (w_s (upd_in w1 (view b)))) with (s_stage (w_s w1)).
  destruct (s_stage (w_s w1) =? StageDone); [eauto 7|exact R].
Qed.

Lemma b_run_ok es : forall w b l, sound b ->
  exists w' b' l', b_run (w, b, l) es = (w', b', l') /\ sound b' /\ M_session.run (upd_in w (view b), l) es = (upd_in w' (view b'), l').
Proof.
  induction es as [|e es IH]; intros w b l S; [exists w, b, l; auto|].
  assert (H : exists w' b' l', b_step (w, b, l) e = (w', b', l') /\ sound b' /\ step (upd_in w (view b), l) e = (upd_in w' (view b'), l')).
  { unfold b_step, step. destruct l, e; try (eauto 7; fail).
    1, 3: pose proof (do_cmd_in c w (view b)) as K; cbv beta in K; rewrite K; destruct (do_cmd w c) as [w' []]; cbn [fst snd]; eauto 7.
    destruct (b_turn_ok w b t1 t2 S) as (w' & b' & o & E & S' & R). rewrite E, R. destruct o; eauto 7. }
  destruct H as (w' & b' & l' & E & S' & R). cbn [b_run M_session.run fold_left]. rewrite E, R. apply IH, S'.
Qed.

Lemma new_reader_sound net : pieces_ok net -> sound (new_reader net).
Proof. intros P. unfold sound, size, new_reader. cbn [b_buf b_r b_w b_net b_err]. rewrite repeat_length. splits; auto. lia. Qed.
Lemma new_reader_view net : view (new_reader net) = flow net.
Proof. reflexivity. Qed.

(* ---- reading what is already in the buffer moves nothing ---- *)
Definition moved (b b' : reader) (s' : stream) : Prop := exists k, (k <= avail b)%nat /\ b' = advance b k /\ s' = map Some (bytes_of b').
Lemma moved_sound b b' s' : sound b -> moved b b' s' -> sound b'.
Proof. intros S (k & K & -> & _). now apply advance_sound. Qed.
Lemma moved_trans b b1 b2 s1 s2 : moved b b1 s1 -> moved b1 b2 s2 -> moved b b2 s2.
Proof.
  intros (k & K & -> & _) (j & J & -> & ->). exists (k + j)%nat. unfold avail, advance in *. cbn [b_buf b_r b_w b_err b_net] in *.
  splits; [lia| |]; [now rewrite Nat.add_assoc|]. reflexivity.
Qed.
Lemma moved_buf b b' s' : moved b b' s' -> b_buf b' = b_buf b.
Proof. intros (k & _ & -> & _). reflexivity. Qed.

Lemma app_inj_length {A} (a b c d : list A) : a ++ b = c ++ d -> length a = length c -> a = c /\ b = d.
Proof.
  revert c; induction a as [|x a IH]; intros [|y c] H L; cbn in *; try lia; [auto|]. injection H as -> H. destruct (IH c H ltac:(lia)) as [-> ->]. auto.
Qed.
Lemma map_some_inj (l l' : bytes) : map Some l = map Some l' -> l = l'.
Proof. revert l'; induction l as [|x l IH]; intros [|y l'] H; try discriminate; [reflexivity|]. cbn in H. injection H as -> H. f_equal. now apply IH. Qed.
Lemma index_of_line l : forall s' x, read_line (map Some l) = (s', Ok x) -> exists i, index 10 l = Some i /\ length x = (i + 1)%nat.
Proof.
  induction l as [|c l IH]; intros s' x H; [discriminate|]. cbn [map read_line index] in *. destruct (c =? 10) eqn:C.
  - injection H as <- <-. exists 0%nat. split; reflexivity.
  - destruct (read_line (map Some l)) as [r [q| | |]]; try discriminate. injection H as <- <-. destruct (IH _ _ eq_refl) as (i & -> & L).
    exists (S i). split; [reflexivity|]. cbn. now rewrite L.
Qed.
Lemma line_here b s' x : sound b -> read_line (map Some (bytes_of b)) = (s', Ok x) -> moved b (fst (b_read_line b)) s' /\ snd (b_read_line b) = Ok x.
Proof.
  intros S R. destruct (index_of_line _ _ _ R) as (i & I & L). destruct (read_line_used _ _ _ R) as [V _].
  unfold b_read_line. cbn [string_loop]. unfold read_slice.
  destruct (slice_loop_ok _ 0 b S (need_start b)) as (b1 & l & e & E & S1 & D & K); [lia|cbn; tauto|]. rewrite E.
  destruct (K i I) as [-> ->]. cbn [fst snd app]. destruct (index_some _ _ _ I) as (r & Q & H1 & H2).
  assert (A : (i + 1 <= avail b)%nat) by (rewrite <- (bytes_of_length b S), Q, app_length, H2; cbn; lia).
  pose proof (bytes_advance b (i + 1) A) as B.
  assert (Lx : length (sub (b_buf b) (b_r b) (i + 1)) = (i + 1)%nat) by (apply sub_length; destruct S as (LL & W & _); unfold avail, size in *; lia).
  assert (X : sub (b_buf b) (b_r b) (i + 1) = x /\ s' = map Some (bytes_of (advance b (i + 1)))).
  { rewrite B, map_app in V. destruct (app_inj_length _ _ _ _ V) as [V1 V2]; [rewrite !map_length; lia|]. split; [now apply map_some_inj|now symmetry]. }
  destruct X as [X ->]. split; [exists (i + 1)%nat; auto|]. destruct D as (l0 & -> & N0 & Vl).
  rewrite (view_advance b (i + 1) A), X in Vl. f_equal.
  destruct (Nat.eq_dec (length (l0 ++ [10])) (length x)) as [El|Nl].
  - destruct (app_inj_length _ _ _ _ Vl) as [V1 _]; [rewrite !map_length; lia|]. symmetry. now apply map_some_inj.
  - exfalso. rewrite !app_length in Nl. apply (f_equal (@length _)) in Vl. rewrite !app_length, !map_length, app_length in Vl. lia.
Qed.

Lemma lines_here : forall f1 f2 h b s' x, sound b -> (coming b < f1)%nat -> header_lines f2 h (map Some (bytes_of b)) = (s', Ok x) ->
  moved b (fst (b_header_lines f1 h b)) s' /\ snd (b_header_lines f1 h b) = Ok x.
Proof.
  induction f1 as [|f1 IH]; intros f2 h b s' x S H R; [lia|]. destruct f2 as [|f2]; [discriminate|]. cbn [header_lines] in R. cbn [b_header_lines].
  destruct (read_line (map Some (bytes_of b))) as [s1 [l|e| |]] eqn:Q; try discriminate.
  destruct (line_here b s1 l S Q) as [M E]. destruct (b_read_line_ok b S) as (b1 & o & E1 & S1 & R1 & _). rewrite E1 in M, E |- *. cbn [fst snd] in M, E. subst o.
  cbv zeta in R |- *. destruct (beq (trim_space l) []); [injection R as <- <-; auto|].
  destruct (split2 58 (trim_space l)) as [|k [|v [|]]]; try discriminate.
  destruct (b_read_line_used _ _ _ S S1 R1) as [L1 _]. pose proof M as (k0 & _ & _ & Es). rewrite Es in R.
  destruct (IH f2 _ b1 s' x S1 ltac:(lia) R) as [M2 E2]. split; [eapply moved_trans; eassumption|exact E2].
Qed.
Lemma http_here : forall f1 f2 b s' x, sound b -> (coming b < f1)%nat -> http_lines f2 (map Some (bytes_of b)) = (s', Ok x) ->
  moved b (fst (b_http_lines f1 b)) s'.
Proof.
  induction f1 as [|f1 IH]; intros f2 b s' x S H R; [lia|]. destruct f2 as [|f2]; [discriminate|]. cbn [http_lines] in R. cbn [b_http_lines].
  destruct (read_line (map Some (bytes_of b))) as [s1 [l|e| |]] eqn:Q; try discriminate.
  destruct (line_here b s1 l S Q) as [M E]. destruct (b_read_line_ok b S) as (b1 & o & E1 & S1 & R1 & _). rewrite E1 in M, E |- *. cbn [fst snd] in M, E. subst o.
  cbv zeta in R |- *. destruct (beq (trim_space l) []); [injection R as <- <-; auto|].
  destruct (split2 58 (trim_space l)) as [|k [|v [|]]]; try discriminate.
  destruct (b_read_line_used _ _ _ S S1 R1) as [L1 _]. pose proof M as (k0 & _ & _ & Es). rewrite Es in R.
  eapply moved_trans; [eassumption|]. eapply IH; [assumption|lia|exact R].
Qed.

Lemma take_bytes_enough n : forall l s' x, take_bytes n (map Some l) = (s', Ok x) -> (n <= length l)%nat.
Proof.
  intros l s' x H. destruct (Nat.le_gt_cases n (length l)) as [C|C]; [assumption|]. destruct (take_more l n [] C) as [_ Q]. rewrite Q in H. discriminate.
Qed.
Lemma peek_here n b s' x : sound b -> peek n (map Some (bytes_of b)) = (s', Ok x) -> n <= Z.of_nat (avail b) /\ s' = map Some (bytes_of b) /\ x = sub (b_buf b) (b_r b) (Z.to_nat n).
Proof.
  intros S H. unfold peek in H. destruct (n >? bufio_size); [discriminate|]. pose proof (take_bytes_enough _ _ _ _ H) as L.
  rewrite <- (app_nil_r (map Some (bytes_of b))), take_all in H by assumption. rewrite app_nil_r in H. injection H as <- <-.
  rewrite bytes_of_length in L by assumption. splits; [lia|reflexivity|]. apply sub_sub. lia.
Qed.
Lemma bytes_here n b s' x : sound b -> read_bytes n (map Some (bytes_of b)) = (s', Ok x) ->
  exists s, b_read_bytes n b = (advance b (Z.to_nat n), Ok s) /\ x = sub (b_buf b) (fst s) (snd s) /\ moved b (advance b (Z.to_nat n)) s'.
Proof.
  intros S H. unfold read_bytes in H. destruct (peek n (map Some (bytes_of b))) as [s1 [y|e| |]] eqn:P; try discriminate.
  injection H as <- <-. destruct (peek_here _ _ _ _ S P) as (A & -> & ->).
  destruct (b_read_bytes_ok n b S) as (b' & o & E & S' & R & K). destruct o as [s|e| |]; try tauto; [|lia].
  destruct K as (Ks & K). destruct (K A) as [_ ->]. exists s. split; [exact E|].
  assert (Hn : (Z.to_nat n <= avail b)%nat) by lia.
  assert (Ln : length (sub (b_buf b) (b_r b) (Z.to_nat n)) = Z.to_nat n) by (apply sub_length; destruct S as (LL & W & _); unfold avail, size in *; lia).
  split.
  - unfold read_bytes in R. unfold peek in P. unfold peek in R. destruct (n >? bufio_size); [discriminate|].
    unfold view in R. rewrite take_all in R by (rewrite bytes_of_length by assumption; lia). injection R as _ R.
    cbn [advance b_buf] in R. rewrite <- R. symmetry. apply sub_sub. lia.
  - exists (Z.to_nat n). splits; auto. unfold discard. rewrite Ln, (bytes_advance b _ Hn), map_app, skipn_app, map_length, Ln, Nat.sub_diag.
    rewrite skipn_all2 by (rewrite map_length; lia). reflexivity.
Qed.
Lemma byte_here b s' x : sound b -> read_byte (map Some (bytes_of b)) = (s', Ok x) -> moved b (fst (b_read_byte b)) s'.
Proof.
  intros S H. assert (A : (0 < avail b)%nat) by (rewrite <- (bytes_of_length b S); destruct (bytes_of b); [discriminate|cbn; lia]).
  destruct (b_read_byte_ok b S) as (b' & o & E & _ & _ & K & _). rewrite E. cbn [fst]. rewrite (K A).
  exists 1%nat. splits; auto. rewrite (bytes_advance b 1) in H by lia. rewrite sub_nth in H by (destruct S as (LL & W & _); unfold avail, size in *; lia).
  cbn in H. injection H as <- _. reflexivity.
Qed.
Lemma uint16_here b s' x : sound b -> read_uint16 (map Some (bytes_of b)) = (s', Ok x) -> moved b (fst (b_read_uint16 b)) s'.
Proof.
  intros S H. assert (A : (2 <= avail b)%nat) by (rewrite <- (bytes_of_length b S); destruct (bytes_of b) as [|? [|? ?]]; [discriminate|discriminate|cbn; lia]).
  destruct (b_read_uint16_ok b S) as (b' & o & E & _ & _ & K & _). rewrite E. cbn [fst]. rewrite (K A).
  exists 2%nat. splits; auto. rewrite (bytes_advance b 2) in H by lia.
  assert (L2 : length (sub (b_buf b) (b_r b) 2) = 2%nat) by (apply sub_length; destruct S as (LL & W & _); unfold avail, size in *; lia).
  destruct (sub (b_buf b) (b_r b) 2) as [|u [|v [|]]]; try discriminate. cbn in H. injection H as <- _. reflexivity.
Qed.
Lemma unpack_here b s' x : sound b -> unpack_response (map Some (bytes_of b)) = (s', Ok x) ->
  moved b (fst (b_unpack b)) s' /\ exists s, snd (b_unpack b) = Ok (x, s).
Proof.
  intros S H. unfold unpack_response in H. unfold b_unpack.
  destruct (read_line (map Some (bytes_of b))) as [s1 [l|e| |]] eqn:Q; try discriminate.
  destruct (line_here b s1 l S Q) as [M E]. destruct (b_read_line_ok b S) as (b1 & o & E1 & S1 & R1 & _). rewrite E1 in M, E |- *. cbn [fst snd] in M, E. subst o.
  destruct (status_line (bs "RTSP/1.0") l) as [[st code]|e| |]; try discriminate.
  pose proof M as (k0 & _ & _ & Es). rewrite Es in H.
  destruct (header_lines _ [] (map Some (bytes_of b1))) as [s2 [h|e| |]] eqn:Q2; try discriminate.
  destruct (lines_here (Datatypes.S (coming b1)) _ _ b1 _ _ S1 ltac:(lia) Q2) as [M2 E2].
  destruct (b_header_lines_ok (Datatypes.S (coming b1)) (Datatypes.S (length (view b1))) [] b1 S1 ltac:(lia) ltac:(lia)) as (b2 & o2 & E3 & S2 & _ & _).
  rewrite E3 in M2, E2 |- *. cbn [fst snd] in M2, E2. subst o2. pose proof (moved_trans _ _ _ _ _ M M2) as M3.
  cbv zeta in H |- *. set (len := match atoi (header_get h (bs "Content-Length")) with (n, None) => n | _ => 0 end) in *.
  destruct (len >? 0) eqn:C; [|injection H as <- <-; cbn [fst snd]; eauto].
  pose proof M2 as (k1 & _ & _ & Es2). rewrite Es2 in H.
  destruct (read_bytes len (map Some (bytes_of b2))) as [s3 [body|e| |]] eqn:Q3; try discriminate. injection H as <- <-.
  destruct (bytes_here _ _ _ _ S2 Q3) as (s & E4 & X & M4). rewrite E4. cbn [fst snd]. split; [eapply moved_trans; eassumption|].
  exists (Some s). rewrite X. reflexivity.
Qed.
Lemma receive_http_here b s' x : sound b -> receive_http (map Some (bytes_of b)) = (s', Ok x) -> moved b (fst (b_receive_http b)) s'.
Proof.
  intros S H. unfold receive_http in H. unfold b_receive_http.
  destruct (read_line (map Some (bytes_of b))) as [s1 [l|e| |]] eqn:Q; try discriminate.
  destruct (line_here b s1 l S Q) as [M E]. destruct (b_read_line_ok b S) as (b1 & o & E1 & S1 & R1 & _). rewrite E1 in M, E |- *. cbn [fst snd] in M, E. subst o.
  destruct (status_line (bs "HTTP/1.0") l) as [a|e| |]; try discriminate.
  pose proof M as (k0 & _ & _ & Es). rewrite Es in H. eapply moved_trans; [eassumption|]. eapply http_here; [assumption|lia|exact H].
Qed.

Lemma do_sound op b : sound b -> sound (b_do op b).
Proof.
  intros S. destruct op; cbn [b_do].
  - destruct (b_peek_ok n b S) as (b' & o & -> & S' & _). exact S'.
  - destruct (b_read_line_ok b S) as (b' & o & -> & S' & _). exact S'.
  - destruct (b_read_byte_ok b S) as (b' & o & -> & S' & _). exact S'.
  - destruct (b_read_uint16_ok b S) as (b' & o & -> & S' & _). exact S'.
  - destruct (b_read_bytes_ok n b S) as (b' & o & -> & S' & _). exact S'.
  - destruct (b_unpack_ok b S) as (b' & o & -> & S' & _). exact S'.
  - destruct (b_receive_http_ok b S) as (b' & o & -> & S' & _). exact S'.
Qed.
Lemma dos_sound ops : forall b, sound b -> sound (fold_left (fun b op => b_do op b) ops b).
Proof. induction ops as [|op ops IH]; intros b S; [assumption|]. apply IH, do_sound, S. Qed.

Lemma do_here op b : sound b -> snd (s_do op (map Some (bytes_of b))) = true -> moved b (b_do op b) (fst (s_do op (map Some (bytes_of b)))).
Proof.
  intros S. destruct op; cbn [s_do b_do].
  - destruct (peek n (map Some (bytes_of b))) as [s' [x|e| |]] eqn:Q; intros G; try discriminate. cbn [fst].
    destruct (peek_here _ _ _ _ S Q) as (A & -> & _). destruct (b_peek_ok n b S) as (b' & o & E & _ & _ & K). rewrite E. cbn [fst].
    destruct o as [s|e| |]; try tauto; [|lia]. destruct K as (_ & _ & K). rewrite (K A). exists 0%nat. splits; [lia|now rewrite advance_0|reflexivity].
  - destruct (read_line (map Some (bytes_of b))) as [s' [x|e| |]] eqn:Q; intros G; try discriminate. apply (line_here _ _ _ S Q).
  - destruct (read_byte (map Some (bytes_of b))) as [s' [x|e| |]] eqn:Q; intros G; try discriminate. apply (byte_here _ _ _ S Q).
  - destruct (read_uint16 (map Some (bytes_of b))) as [s' [x|e| |]] eqn:Q; intros G; try discriminate. apply (uint16_here _ _ _ S Q).
  - destruct (read_bytes n (map Some (bytes_of b))) as [s' [x|e| |]] eqn:Q; intros G; try discriminate.
    destruct (bytes_here _ _ _ _ S Q) as (s & E & _ & M). rewrite E. exact M.
  - destruct (unpack_response (map Some (bytes_of b))) as [s' [x|e| |]] eqn:Q; intros G; try discriminate. apply (unpack_here _ _ _ S Q).
  - destruct (receive_http (map Some (bytes_of b))) as [s' [x|e| |]] eqn:Q; intros G; try discriminate. apply (receive_http_here _ _ _ S Q).
Qed.
Lemma dos_here ops : forall b, sound b -> enough ops (map Some (bytes_of b)) -> b_buf (fold_left (fun b op => b_do op b) ops b) = b_buf b.
Proof.
  induction ops as [|op ops IH]; intros b S H; [reflexivity|]. cbn [enough fold_left] in *. destruct H as [H1 H2].
  pose proof (do_here op b S H1) as M. rewrite IH; [now apply moved_buf in M|now apply do_sound|].
  destruct M as (k & _ & _ & E). rewrite E in H2. exact H2.
Qed.

(* ---- two readers of the same bytes ---- *)
Lemma blind_keeps f w : blind f -> w_in (fst (f w)) = w_in w.
Proof.
  intros B. pose proof (B w (w_in w)) as H. replace (upd_in w (w_in w)) with w in H by (destruct w; reflexivity).
  rewrite H. reflexivity.
Qed.
Lemma b_receive_keeps w b : w_in (fst (fst (b_receive w b))) = w_in w.
Proof.
  unfold b_receive. destruct (b_peek 1 b) as [b0 [[off n]|e| |]]; try reflexivity. destruct (nth off (b_buf b0) 0 =? 36).
  - destruct (b_discard 1 b0) as [b1 o1]. 
    assert (R : w_in (fst (fst (match b_read_byte b1 with
            | (b1, Ok ch) =>
                match b_read_uint16 b1 with
                | (b2, Ok len) =>
                    match b_read_bytes len b2 with
                    | (b3, Ok s) => (note w (Delivered ch (sub (b_buf b3) (fst s) (snd s))), b3, Ok tt)
                    | (b3, Err e) => (w, b3, Err e)
                    | (b3, Panic) => (w, b3, Panic)
                    | (b3, Fuel) => (w, b3, Fuel)
                    end
                | (b2, Err e) => (w, b2, Err e)
                | (b2, Panic) => (w, b2, Panic)
                | (b2, Fuel) => (w, b2, Fuel)
                end
            | (b1, Err e) => (w, b1, Err e)
            | (b1, Panic) => (w, b1, Panic)
            | (b1, Fuel) => (w, b1, Fuel)
            end))) = w_in w).
    { destruct (b_read_byte b1) as [b2 [ch|e| |]]; try reflexivity. destruct (b_read_uint16 b2) as [b3 [len|e| |]]; try reflexivity.
      destruct (b_read_bytes len b3) as [b4 [s|e| |]]; reflexivity. }
    destruct o1; try exact R; reflexivity.
  - destruct (b_unpack b0) as [b1 [[r s]|e| |]]; try reflexivity. pose proof (blind_keeps _ w (handle_response_in r)) as H. cbv beta in H.
    destruct (handle_response w r) as [w' o]. exact H.
Qed.
Lemma b_turn_keeps w b t1 t2 : w_in (fst (fst (b_turn w b t1 t2))) = w_in w.
Proof.
  unfold b_turn. cbv zeta. pose proof (blind_keeps _ w (keepalive_in t1 t2)) as H. cbv beta in H. destruct (keepalive w t1 t2) as [w1 o]. cbn [fst] in H.
  pose proof (b_receive_keeps w1 b) as R. destruct (b_receive w1 b) as [[w2 b2] o2]. cbn [fst] in R.
  destruct o as [u|e| |]; [|destruct (s_stage (w_s w1) =? StageDone); [exact H|]|exact H|exact H]; destruct o2; cbn [fst]; congruence.
Qed.
Lemma b_run_keeps es : forall w b l, w_in (fst (fst (b_run (w, b, l) es))) = w_in w.
Proof.
  induction es as [|e es IH]; intros w b l; [reflexivity|]. change (b_run (w, b, l) (e :: es)) with (b_run (b_step (w, b, l) e) es).
  assert (H : w_in (fst (fst (b_step (w, b, l) e))) = w_in w).
  { unfold b_step. destruct l, e; try reflexivity.
    1, 3: pose proof (blind_keeps _ w (do_cmd_in c)) as K; cbv beta in K; destruct (do_cmd w c) as [w' []]; exact K.
    pose proof (b_turn_keeps w b t1 t2) as K. destruct (b_turn w b t1 t2) as [[w' b'] []]; exact K. }
  destruct (b_step (w, b, l) e) as [[w' b'] l']. cbn [fst] in H. rewrite IH. exact H.
Qed.
Lemma b_run_same es w b b' l : sound b -> sound b' -> view b = view b' ->
  exists w1 b1 b2 l1, b_run (w, b, l) es = (w1, b1, l1) /\ b_run (w, b', l) es = (w1, b2, l1).
Proof.
  intros S S' V. destruct (b_run_ok es w b l S) as (w1 & b1 & l1 & E1 & _ & R1). destruct (b_run_ok es w b' l S') as (w2 & b2 & l2 & E2 & _ & R2).
  pose proof (b_run_keeps es w b l) as K1. pose proof (b_run_keeps es w b' l) as K2. rewrite E1 in K1. rewrite E2 in K2. cbn [fst] in K1, K2.
  rewrite V, R2 in R1. exists w1, b1, b2, l1. split; [exact E1|]. rewrite E2. destruct w1, w2. cbn in *. injection R1 as -> _ -> -> -> -> ->. congruence.
Qed.

(* an empty buffer is filled from its start, whatever slices of it are still held *)
Lemma peek_over b d more n : sound b -> fetched b = [] -> b_err b = None -> b_net b = Data d :: more ->
  0 < n <= Z.of_nat (length d) -> (length d <= size b)%nat ->
  b_buf (b_do (RPeek n) b) = d ++ skipn (length d) (b_buf b).
Proof.
  intros S F E N Hn L. pose proof (bytes_of_length b S) as A. change (bytes_of b) with (fetched b) in A. rewrite F in A. cbn [length] in A.
  assert (D : d <> []) by (intros ->; cbn in Hn; lia). destruct S as (L0 & W & _). cbn [b_do]. unfold b_peek.
  set (b1 := mkB (d ++ skipn (length d) (b_buf b)) 0 (length d) None more).
  assert (AV : avail b1 = length d) by (unfold avail, b1; cbn [b_w b_r]; lia).
  assert (FL : fill b = (b1, Ok tt)).
  { assert (U : (if (0 <? b_r b)%nat then mkB (put (b_buf b) 0 (sub (b_buf b) (b_r b) (avail b))) 0 (avail b) (b_err b) (b_net b) else b)
                = mkB (b_buf b) 0 0 None (b_net b)).
    { rewrite <- A. destruct (Nat.ltb_spec 0 (b_r b)).
      - unfold put, sub. cbn [firstn app length skipn plus]. now rewrite E.
      - destruct b as [bf r w e nt]. unfold avail in A. cbn [b_buf b_r b_w b_err b_net] in *. assert (r = 0%nat) by lia. assert (w = 0%nat) by lia. subst. reflexivity. }
    unfold fill. rewrite U. unfold size in *. cbn [b_w b_buf b_net b_r b_err].
    destruct (Nat.leb_spec (length (b_buf b)) 0) as [Z0|_]; [destruct d; [congruence|cbn [length] in L; lia]|].
    rewrite N. unfold conn_read. rewrite (proj2 (Nat.leb_le _ _)) by lia. rewrite firstn_all2 by lia. reflexivity. }
  assert (P : peek_loop (S (S (length (b_net b)))) n b = (b1, Ok tt)).
  { cbn [peek_loop]. rewrite E. rewrite (proj2 (Z.ltb_lt _ _)) by lia. rewrite (proj2 (Nat.ltb_lt _ _)).
    2:{ unfold size in *. destruct d; [congruence|cbn [length] in L; lia]. }
    cbn [andb]. rewrite FL. rewrite N. cbn [length peek_loop]. rewrite AV. rewrite (proj2 (Z.ltb_ge (Z.of_nat (length d)) n)) by lia. reflexivity. }
  rewrite P.
  destruct (n >? Z.of_nat (size b1)); [reflexivity|]. rewrite AV. rewrite (proj2 (Z.ltb_ge _ _)) by lia. reflexivity.
Qed.
