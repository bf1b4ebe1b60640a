(* Lemmas: reading rendered playlists back. *)
From Coq Require Import String.
From Verif Require Import Base GoStrings S_hls M_hls S_m3u8 L_base L_hls L_strings.
From Coq Require Import ZifyBool ZifyNat.

Lemma lines_from_line a : ~ In 10 a -> forall cur r, lines_from cur (a ++ 10 :: r) = (rev cur ++ a) :: lines_from [] r.
Proof.
  induction a as [|c a IH]; intros H cur r; cbn [app lines_from].
  - rewrite Z.eqb_refl, app_nil_r. reflexivity.
  - destruct (Z.eqb_spec c 10) as [->|_]; [exfalso; apply H; left; reflexivity|].
    rewrite IH by (intros Q; apply H; right; exact Q). cbn [rev]. rewrite <- app_assoc. reflexivity.
Qed.
Lemma lines_line a r : ~ In 10 a -> lines (a ++ 10 :: r) = a :: lines r.
Proof. intros H. exact (lines_from_line a H [] r). Qed.

Lemma after_prefix_app p s : after_prefix p (p ++ s) = Some s.
Proof. induction p as [|a p IH]; cbn; [reflexivity|]. rewrite Z.eqb_refl. exact IH. Qed.
Lemma before_absent c s : ~ In c s -> before c s = s.
Proof.
  induction s as [|x s IH]; intros H; cbn; [reflexivity|]. destruct (Z.eqb_spec x c) as [->|_]; [exfalso; apply H; left; reflexivity|].
  rewrite IH by (intros Q; apply H; right; exact Q). reflexivity.
Qed.
Lemma before_app c a b : ~ In c a -> before c (a ++ c :: b) = a.
Proof.
  induction a as [|x a IH]; intros H; cbn; [rewrite Z.eqb_refl; reflexivity|].
  destruct (Z.eqb_spec x c) as [->|_]; [exfalso; apply H; left; reflexivity|].
  rewrite IH by (intros Q; apply H; right; exact Q). reflexivity.
Qed.
Lemma behind_app c a b : ~ In c a -> behind c (a ++ c :: b) = Some b.
Proof.
  induction a as [|x a IH]; intros H; cbn; [rewrite Z.eqb_refl; reflexivity|].
  destruct (Z.eqb_spec x c) as [->|_]; [exfalso; apply H; left; reflexivity|].
  apply IH. intros Q. apply H. right. exact Q.
Qed.

Lemma itoa_no c z : c <> 45 -> ~ (48 <= c <= 57) -> ~ In c (itoa z).
Proof. intros A B Q. apply itoa_chars in Q. lia. Qed.

Lemma decimal_itoa n : 0 <= n -> decimal (itoa n) = Some n.
Proof.
  intros H. unfold itoa. destruct (Z.ltb_spec n 0); [lia|]. destruct (digits_spec n H) as (A & B & C & _).
  unfold decimal. destruct (digits n) as [|c r] eqn:E; [contradiction|]. rewrite <- E in *.
  replace (forallb _ _) with true; [rewrite <- C at 2; reflexivity|]. symmetry. apply forallb_forall.
  intros x Hx. unfold all_digits in A. rewrite Forall_forall in A. specialize (A x Hx). unfold is_digit in A. lia.
Qed.

Lemma read_inf p d : ~ In 44 d -> read_line p (bs "#EXTINF:" ++ d) = Some (mkM3u8 (u_first p) (u_segs p) (u_end p) (Some d) (u_range p)).
Proof. intros H. unfold read_line. rewrite after_prefix_app, before_absent by exact H. reflexivity. Qed.
Lemma read_range p n o : 0 <= n -> 0 <= o ->
  read_line p (bs "#EXT-X-BYTERANGE:" ++ itoa n ++ bs "@" ++ itoa o) = Some (mkM3u8 (u_first p) (u_segs p) (u_end p) (u_dur p) (Some (n, o))).
Proof.
  intros Hn Ho. unfold read_line.
  replace (after_prefix (bs "#EXTINF:") (bs "#EXT-X-BYTERANGE:" ++ itoa n ++ bs "@" ++ itoa o)) with (@None bytes) by reflexivity.
  rewrite after_prefix_app. change (bs "@" ++ itoa o) with (64 :: itoa o).
  rewrite before_app, behind_app by (apply itoa_no; lia). rewrite !decimal_itoa by lia. reflexivity.
Qed.
Lemma read_uri p uri d : uri_line uri -> u_dur p = Some d ->
  read_line p uri = Some (mkM3u8 (u_first p) (u_segs p ++ [mkHeard (u_first p + Z.of_nat (length (u_segs p))) d (u_range p) uri]) (u_end p) None None).
Proof.
  intros (_ & c & r & -> & Hc) Hd. unfold read_line. rewrite Hd. 
  assert (A : forall x, after_prefix (35 :: x) (c :: r) = None) by (intros x; cbn [after_prefix]; destruct (Z.eqb_spec 35 c); [congruence|reflexivity]).
  change (bs "#EXTINF:") with (35 :: bs "EXTINF:"). change (bs "#EXT-X-BYTERANGE:") with (35 :: bs "EXT-X-BYTERANGE:").
  change (bs "#EXT-X-MEDIA-SEQUENCE:") with (35 :: bs "EXT-X-MEDIA-SEQUENCE:"). rewrite !A.
  destruct (beq (c :: r) (bs "#EXT-X-ENDLIST")) eqn:E; [apply beq_eq in E; injection E; intros; contradiction|].
  destruct (Z.eqb_spec c 35); [contradiction|]. reflexivity.
Qed.

Lemma no_lf_app a b : ~ In 10 a -> ~ In 10 b -> ~ In 10 (a ++ b).
Proof. intros A B Q. apply in_app_or in Q. tauto. Qed.
Ltac lit_no := let Q := fresh in intros Q; vm_compute in Q; repeat (destruct Q as [Q|Q]; [discriminate Q|]); exact Q.

Definition entry_lines (fmt : Z -> bytes) (uri : bytes) (e : Z * Z * Z) : list bytes :=
  let '(d, l, p) := e in [bs "#EXTINF:" ++ fmt d; bs "#EXT-X-BYTERANGE:" ++ itoa l ++ bs "@" ++ itoa p; uri].
Lemma entry_text_lines fmt uri e r : duration_ok fmt -> uri_line uri -> lines (entry_text fmt uri e ++ r) = entry_lines fmt uri e ++ lines r.
Proof.
  intros HF [HU _]. destruct e as [[d l] p]. unfold entry_text, entry_lines.
  replace ((bs "#EXTINF:" ++ fmt d ++ [10] ++ bs "#EXT-X-BYTERANGE:" ++ itoa l ++ bs "@" ++ itoa p ++ [10] ++ uri ++ [10]) ++ r)
    with ((bs "#EXTINF:" ++ fmt d) ++ 10 :: (bs "#EXT-X-BYTERANGE:" ++ itoa l ++ bs "@" ++ itoa p) ++ 10 :: uri ++ 10 :: r)
    by (rewrite <- !app_assoc; reflexivity).
  rewrite lines_line by (apply no_lf_app; [lit_no|apply HF]).
  rewrite lines_line by (apply no_lf_app; [lit_no|]; apply no_lf_app; [apply itoa_no; lia|]; apply no_lf_app; [lit_no|apply itoa_no; lia]).
  rewrite lines_line by exact HU. reflexivity.
Qed.
Lemma entries_lines fmt uri es r : duration_ok fmt -> uri_line uri -> lines (flat_map (entry_text fmt uri) es ++ r) = flat_map (entry_lines fmt uri) es ++ lines r.
Proof.
  intros HF HU. induction es as [|e es IH]; cbn [flat_map]; [reflexivity|]. rewrite <- !app_assoc.
  rewrite entry_text_lines by assumption. rewrite IH. reflexivity.
Qed.
Lemma text_lines fmt uri es : duration_ok fmt -> uri_line uri ->
  lines (playlist_text fmt uri es) = bs "#EXTM3U" :: bs "#EXT-X-VERSION:4" :: flat_map (entry_lines fmt uri) es ++ [bs "#EXT-X-ENDLIST"].
Proof.
  intros HF HU. unfold playlist_text.
  change (lines (bs "#EXTM3U" ++ 10 :: bs "#EXT-X-VERSION:4" ++ 10 :: flat_map (entry_text fmt uri) es ++ bs "#EXT-X-ENDLIST" ++ [10])
    = bs "#EXTM3U" :: bs "#EXT-X-VERSION:4" :: flat_map (entry_lines fmt uri) es ++ [bs "#EXT-X-ENDLIST"]).
  rewrite lines_line by lit_no. rewrite lines_line by lit_no. rewrite entries_lines by assumption. reflexivity.
Qed.

Definition heard_at (fmt : Z -> bytes) (uri : bytes) (i : nat) (e : Z * Z * Z) : heard :=
  let '(d, l, p) := e in mkHeard (Z.of_nat i) (fmt d) (Some (l, p)) uri.
Fixpoint number (fmt : Z -> bytes) (uri : bytes) (i : nat) (es : list (Z * Z * Z)) : list heard :=
  match es with [] => [] | e :: r => heard_at fmt uri i e :: number fmt uri (S i) r end.
Definition entry_nonneg (e : Z * Z * Z) : Prop := let '(_, l, p) := e in 0 <= l /\ 0 <= p.

Lemma read_entries fmt uri : duration_ok fmt -> uri_line uri -> forall es segs rest, Forall entry_nonneg es ->
  read_lines (mkM3u8 0 segs false None None) (flat_map (entry_lines fmt uri) es ++ rest) =
  read_lines (mkM3u8 0 (segs ++ number fmt uri (length segs) es) false None None) rest.
Proof.
  intros HF HU. induction es as [|[[d l] p] es IH]; intros segs rest HN; cbn [flat_map number].
  - rewrite app_nil_r. reflexivity.
  - inversion HN as [|? ? HX HN']; subst. cbn in HX. destruct HX as [Hl Hp]. cbn [entry_lines app read_lines].
    rewrite read_inf by apply HF. rewrite read_range by assumption.
    rewrite (read_uri _ uri (fmt d) HU) by reflexivity. cbn [u_first u_segs u_end u_range]. rewrite Z.add_0_l.
    rewrite IH by exact HN'. rewrite app_length. cbn [length]. rewrite Nat.add_1_r, <- app_assoc. reflexivity.
Qed.
Lemma read_text fmt uri es : duration_ok fmt -> uri_line uri -> Forall entry_nonneg es ->
  read_playlist (playlist_text fmt uri es) = Some (mkM3u8 0 (number fmt uri 0 es) true None None).
Proof.
  intros HF HU HN. unfold read_playlist. rewrite text_lines by assumption.
  change (beq (bs "#EXTM3U") (bs "#EXTM3U")) with true. cbv iota.
  change (read_lines (mkM3u8 0 [] false None None) (bs "#EXT-X-VERSION:4" :: flat_map (entry_lines fmt uri) es ++ [bs "#EXT-X-ENDLIST"]))
    with (read_lines (mkM3u8 0 [] false None None) (flat_map (entry_lines fmt uri) es ++ [bs "#EXT-X-ENDLIST"])).
  rewrite read_entries by assumption. reflexivity.
Qed.

Lemma firstn_total_nonneg h j : Forall (fun e => 0 <= snd e) h -> 0 <= total (firstn j h).
Proof.
  revert j. induction h as [|e h IH]; intros j H; destruct j; try (cbn; lia). inversion H as [|? ? H1 H2]; subst.
  specialize (IH j H2). cbn [firstn]. unfold total in *. cbn [fold_right]. lia.
Qed.
Lemma entries_nonneg h js : Forall (fun e => 0 <= snd e) h -> Forall entry_nonneg (map (entry h) js).
Proof.
  intros H. apply Forall_forall. intros e He. apply in_map_iff in He. destruct He as (j & <- & _). unfold entry.
  destruct (nth j h (0, 0)) as [d l] eqn:E. split; [|apply firstn_total_nonneg; exact H].
  destruct (Nat.lt_ge_cases j (length h)) as [Hj|Hj].
  - rewrite Forall_forall in H. specialize (H (nth j h (0, 0)) (nth_In _ _ Hj)). rewrite E in H. exact H.
  - rewrite nth_overflow in E by exact Hj. injection E as <- <-. lia.
Qed.
Lemma number_seq fmt uri h : forall n i j, number fmt uri i (map (entry h) (seq j n)) = map (fun x => as_heard fmt uri h (i + x) (j + x)) (seq 0 n).
Proof.
  induction n as [|n IH]; intros i j; cbn [seq map number]; [reflexivity|]. f_equal.
  - unfold heard_at, as_heard, entry. rewrite !Nat.add_0_r. destruct (nth j h (0, 0)). reflexivity.
  - rewrite IH. rewrite <- (seq_shift n 0), map_map. apply map_ext. intros x. f_equal; lia.
Qed.

(* the playlist after n additions, as read *)
Definition loaded (fmt : Z -> bytes) (uri : bytes) (k : nat) (h : list (Z * Z)) : m3u8 :=
  mkM3u8 0 (map (fun i => as_heard fmt uri h i (length h - k + i)) (seq 0 (Nat.min (length h) k))) true None None.
Lemma loaded_ok k uri h fmt : (0 < k)%nat -> file_ok h -> (1 <= length h < 2 * k)%nat -> duration_ok fmt -> uri_line uri ->
  exists pl t, add_all (new_playlist uri k) h = Ok pl /\ render fmt pl = Ok t /\ read_playlist t = Some (loaded fmt uri k h) /\
    t = playlist_text fmt uri (map (entry h) (shown (length h) k)).
Proof.
  intros Hk HF Hn HD HU. destruct (history k uri h Hk) as (pl & E & I). exists pl, (playlist_text fmt uri (map (entry h) (shown (length h) k))).
  assert (R : render fmt pl = Ok (playlist_text fmt uri (map (entry h) (shown (length h) k)))).
  { rewrite (render_spec k uri h pl fmt Hk I) by (intros ->; cbn in Hn; lia).
    destruct (Nat.ltb_spec (length h) (2 * k)); [|lia]. do 2 f_equal. apply map_ext. intros j. apply file_wrap; exact HF. }
  splits; [exact E|exact R| |reflexivity].
  rewrite read_text by (try assumption; apply entries_nonneg; apply HF). unfold shown. rewrite number_seq. reflexivity.
Qed.

(* what a player loads after the history h: the text String renders, as read *)
Definition player_loads (fmt : Z -> bytes) (uri : bytes) (k : nat) (h : list (Z * Z)) (p : m3u8) : Prop :=
  exists pl t, add_all (new_playlist uri k) h = Ok pl /\ render fmt pl = Ok t /\ read_playlist t = Some p.
Lemma loads_loaded k uri h fmt p : (0 < k)%nat -> file_ok h -> (1 <= length h < 2 * k)%nat -> duration_ok fmt -> uri_line uri ->
  player_loads fmt uri k h p -> p = loaded fmt uri k h.
Proof.
  intros Hk HF Hn HD HU (pl & t & E & R & P). destruct (loaded_ok k uri h fmt Hk HF Hn HD HU) as (pl' & t' & E' & R' & P' & _).
  rewrite E' in E. injection E as <-. rewrite R' in R. injection R as <-. rewrite P' in P. injection P as <-. reflexivity.
Qed.

Lemma no_prefix_lines fmt uri es p l v : uri_line uri -> (forall x, after_prefix (35 :: p) (bs "#EXTINF:" ++ x) = None) ->
  (forall x, after_prefix (35 :: p) (bs "#EXT-X-BYTERANGE:" ++ x) = None) -> In l (flat_map (entry_lines fmt uri) es) -> after_prefix (35 :: p) l = Some v -> False.
Proof.
  intros (_ & c & r & -> & Hc) A B H E. apply in_flat_map in H. destruct H as ([[d n] o] & _ & H). cbn [entry_lines] in H.
  destruct H as [<-|[<-|[<-|[]]]]; [rewrite A in E; discriminate|rewrite B in E; discriminate|].
  cbn [after_prefix] in E. destruct (Z.eqb_spec 35 c); [congruence|discriminate].
Qed.
Lemma no_target fmt uri es : duration_ok fmt -> uri_line uri -> ~ has_target (playlist_text fmt uri es).
Proof.
  intros HF HU (l & v & H & E). rewrite text_lines in H by assumption.
  destruct H as [<-|[<-|H]]; [vm_compute in E; discriminate|vm_compute in E; discriminate|].
  apply in_app_or in H. destruct H as [H|[<-|[]]]; [|vm_compute in E; discriminate].
  exact (no_prefix_lines fmt uri es (bs "EXT-X-TARGETDURATION:") l v HU (fun x => eq_refl) (fun x => eq_refl) H E).
Qed.
Lemma no_commas fmt uri e es : duration_ok fmt -> uri_line uri -> ~ has_commas (playlist_text fmt uri (e :: es)).
Proof.
  intros HF HU H. destruct e as [[d n] o]. apply (proj2 (HF d)). apply (H (bs "#EXTINF:" ++ fmt d)); [|apply after_prefix_app].
  rewrite text_lines by assumption. right. right. apply in_or_app. left. cbn [flat_map]. left. reflexivity.
Qed.

Lemma total_prefix (h : list (Z * Z)) n j : (j <= n)%nat -> firstn j (firstn n h) = firstn j h.
Proof. intros H. rewrite firstn_firstn. f_equal. lia. Qed.
Lemma nth_firstn_lt {A} (d : A) h : forall n j, (j < n)%nat -> nth j (firstn n h) d = nth j h d.
Proof. induction h as [|x h IH]; intros n j H; destruct n; try lia; destruct j; cbn; try reflexivity. apply IH. lia. Qed.
Lemma as_heard_prefix fmt uri h n i j : (j < n)%nat -> as_heard fmt uri (firstn n h) i j = as_heard fmt uri h i j.
Proof. intros H. unfold as_heard. rewrite nth_firstn_lt by exact H. rewrite total_prefix by lia. reflexivity. Qed.
Lemma as_heard_no fmt uri h i j : g_no (as_heard fmt uri h i j) = Z.of_nat i.
Proof. unfold as_heard. destruct (nth j h (0, 0)). reflexivity. Qed.

Lemma filter_none {A} (f : A -> bool) l : (forall x, In x l -> f x = false) -> filter f l = [].
Proof. induction l as [|x l IH]; intros H; cbn; [reflexivity|]. rewrite H by (left; reflexivity). apply IH. intros y Hy. apply H. right. exact Hy. Qed.
Lemma filter_all {A} (f : A -> bool) l : (forall x, In x l -> f x = true) -> filter f l = l.
Proof. induction l as [|x l IH]; intros H; cbn; [reflexivity|]. rewrite H by (left; reflexivity). f_equal. apply IH. intros y Hy. apply H. right. exact Hy. Qed.
Lemma new_ones (F : nat -> heard) b m : (forall i, g_no (F i) = Z.of_nat i) -> (b <= m)%nat ->
  filter (fun g => Z.of_nat b - 1 <? g_no g) (map F (seq 0 m)) = map F (seq b (m - b)).
Proof.
  intros HF H. replace m with (b + (m - b))%nat at 1 by lia. rewrite seq_app, map_app, filter_app. cbn [plus].
  rewrite filter_none, filter_all; [reflexivity| |]; intros x Hx; apply in_map_iff in Hx; destruct Hx as (i & <- & Hi); apply in_seq in Hi; rewrite HF; lia.
Qed.

Lemma file_ok_prefix h n : file_ok h -> file_ok (firstn n h).
Proof.
  intros [A B]. split.
  - apply Forall_forall. intros e He. rewrite Forall_forall in A. apply A. rewrite <- (firstn_skipn n h). apply in_or_app. left. exact He.
  - assert (Q : total h = total (firstn n h) + total (skipn n h)) by (rewrite <- total_app, firstn_skipn; reflexivity).
    assert (0 <= total (skipn n h)); [|lia]. clear -A. revert n. induction h as [|e h IH]; intros n; destruct n; cbn [skipn]; try (cbn; lia).
    + rewrite <- (firstn_all (e :: h)). apply firstn_total_nonneg. exact A.
    + inversion A; subst. apply IH. assumption.
Qed.

Lemma follow_loaded fmt uri k h : (0 < k)%nat -> forall c a, (a + c <= length h)%nat ->
  follow false (Z.of_nat (Nat.min a k) - 1) (map (fun n => loaded fmt uri k (firstn n h)) (seq (S a) c)) =
  map (fun i => as_heard fmt uri h i i) (seq a (Nat.min (a + c) k - a)).
Proof.
  intros Hk. induction c as [|c IH]; intros a Ha.
  - cbn [seq map follow]. replace (Nat.min (a + 0) k - a)%nat with 0%nat by lia. reflexivity.
  - cbn [seq map follow]. cbn [andb]. unfold loaded at 1 2. cbn [u_segs].
    rewrite firstn_length_le by lia.
    rewrite new_ones by (try (intros; apply as_heard_no); lia).
    specialize (IH (S a) ltac:(lia)).
    destruct (Nat.lt_ge_cases a k) as [L|G].
    + replace (Nat.min (S a) k - Nat.min a k)%nat with 1%nat by lia. replace (Nat.min a k) with a by lia. cbn [seq map fold_left app].
      rewrite as_heard_no. replace (Z.max (Z.of_nat a - 1) (Z.of_nat a)) with (Z.of_nat (Nat.min (S a) k) - 1) by lia. rewrite IH.
      replace (Nat.min (a + S c) k - a)%nat with (S (Nat.min (S a + c) k - S a)) by lia. cbn [seq map]. f_equal.
      replace (S a - k + a)%nat with a by lia. apply as_heard_prefix. lia.
    + replace (Nat.min (S a) k - Nat.min a k)%nat with 0%nat by lia. cbn [seq map fold_left app].
      replace (Nat.min a k) with (Nat.min (S a) k) by lia. rewrite IH.
      replace (Nat.min (S a + c) k - S a)%nat with 0%nat by lia. replace (Nat.min (a + S c) k - a)%nat with 0%nat by lia. reflexivity.
Qed.

Lemma loads_each fmt uri k h : (0 < k)%nat -> file_ok h -> duration_ok fmt -> uri_line uri -> forall ns ps, Forall (fun n => 1 <= n <= length h /\ n < 2 * k)%nat ns ->
  Forall2 (fun n p => player_loads fmt uri k (firstn n h) p) ns ps -> ps = map (fun n => loaded fmt uri k (firstn n h)) ns.
Proof.
  intros Hk HF HD HU ns ps HN H. induction H as [|n p ns ps H1 H2 IH]; [reflexivity|]. inversion HN as [|? ? Hn HN']; subst. cbn [map]. f_equal; [|apply IH; exact HN'].
  apply loads_loaded; try assumption; [apply file_ok_prefix; exact HF|rewrite firstn_length_le; lia].
Qed.
Lemma total_pos h : forall n, Forall (fun e => 0 < snd e) h -> (0 < n <= length h)%nat -> 0 < total (firstn n h).
Proof.
  intros n H Hn. destruct h as [|e h]; [cbn in Hn; lia|]. destruct n; [lia|]. inversion H as [|? ? H1 H2]; subst. cbn [firstn]. unfold total. cbn [fold_right].
  pose proof (firstn_total_nonneg h n) as Q. unfold total in Q. assert (0 <= fold_right (fun e a => snd e + a) 0 (firstn n h)); [|lia].
  apply Q. apply Forall_forall. intros x Hx. rewrite Forall_forall in H2. specialize (H2 x Hx). cbn in H2. lia.
Qed.
