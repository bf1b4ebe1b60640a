(* Properties C88-C90: playlists as players read them. *)
From Coq Require Import String.
From Verif Require Import Base GoStrings S_hls M_hls S_m3u8 L_base L_hls L_m3u8.
From Coq Require Import ZifyBool ZifyNat.

(* ---- C88 ---- *)
(* Full statement: the text is a media playlist as RFC 8216 has it, and lists the last segments.  Read by a player that does
   not insist on what is missing, it lists them: number, duration, byte range and URI ... *)
Theorem C88_read_partial : forall k uri h fmt, (0 < k)%nat -> file_ok h -> (1 <= length h < 2 * k)%nat -> duration_ok fmt -> uri_line uri ->
  exists pl t p, add_all (new_playlist uri k) h = Ok pl /\ render fmt pl = Ok t /\ read_playlist t = Some p /\
    u_segs p = map (fun i => as_heard fmt uri h i (length h - k + i)) (seq 0 (Nat.min (length h) k)).
Proof.
  intros k uri h fmt Hk HF Hn HD HU. destruct (loaded_ok k uri h fmt Hk HF Hn HD HU) as (pl & t & E & R & P & _).
  exists pl, t, (loaded fmt uri k h). splits; trivial.
Qed.
Print Assumptions C88_read_partial.

(* ... but no text has a target duration, and none with a segment has the comma that ends a duration. *)
Theorem C88_conforming_refuted : forall k uri h fmt, (0 < k)%nat -> file_ok h -> (1 <= length h < 2 * k)%nat -> duration_ok fmt -> uri_line uri ->
  exists pl t, add_all (new_playlist uri k) h = Ok pl /\ render fmt pl = Ok t /\ ~ has_target t /\ ~ has_commas t.
Proof.
  intros k uri h fmt Hk HF Hn HD HU. destruct (loaded_ok k uri h fmt Hk HF Hn HD HU) as (pl & t & E & R & _ & ->).
  exists pl. eexists. splits; [exact E|exact R|apply no_target; assumption|]. unfold shown.
  destruct (Nat.min (length h) k) as [|m] eqn:Q; [lia|]. cbn [seq map]. apply no_commas; assumption.
Qed.
Print Assumptions C88_conforming_refuted.

Example C88_case :
  let t := match add_all (new_playlist (bs "http://a/v.ts") 2) [(3, 100); (4, 50); (5, 7)] with Ok pl => render itoa pl | _ => Panic end in
  match t with
  | Ok t => read_playlist t = Some (mkM3u8 0 [mkHeard 0 (bs "4") (Some (50, 100)) (bs "http://a/v.ts"); mkHeard 1 (bs "5") (Some (7, 150)) (bs "http://a/v.ts")] true None None)
  | _ => False
  end.
Proof. vm_compute. reflexivity. Qed.
(* a text with both passes *)
Example C88_conforming_case : let t := bs "#EXTM3U" ++ [10] ++ bs "#EXT-X-TARGETDURATION:5" ++ [10] ++ bs "#EXTINF:4," ++ [10] ++ bs "v.ts" ++ [10] in
  has_target t /\ has_commas t.
Proof.
  split.
  - exists (bs "#EXT-X-TARGETDURATION:5"), (bs "5"). split; [vm_compute; tauto|reflexivity].
  - intros l v H E. vm_compute in H. destruct H as [<-|[<-|[<-|[<-|[]]]]]; vm_compute in E; try discriminate. injection E as <-. right. left. reflexivity.
Qed.

(* ---- C89 ---- *)
(* Full statement: a player that loads the playlist after every addition plays every segment once, in order.  A player that does not
   care about the end mark plays just the first k segments (all, as long as no more have been added) ... *)
Theorem C89_follow_partial : forall k uri h fmt ps, (0 < k)%nat -> file_ok h -> (length h < 2 * k)%nat -> duration_ok fmt -> uri_line uri ->
  Forall2 (fun n p => player_loads fmt uri k (firstn n h) p) (seq 1 (length h)) ps ->
  follow false (-1) ps = map (fun i => as_heard fmt uri h i i) (seq 0 (Nat.min (length h) k)).
Proof.
  intros k uri h fmt ps Hk HF Hn HD HU H.
  rewrite (loads_each fmt uri k h Hk HF HD HU (seq 1 (length h)) ps ltac:(apply Forall_forall; intros n Q; apply in_seq in Q; lia) H).
  pose proof (follow_loaded fmt uri k h Hk (length h) 0 ltac:(lia)) as F. cbn [plus Nat.min] in F. rewrite Nat.sub_0_r in F. exact F.
Qed.
Print Assumptions C89_follow_partial.

(* ... and one that does plays the first segment and no other, since every text says that it is complete. *)
Theorem C89_end_refuted : forall k uri h fmt ps, (0 < k)%nat -> file_ok h -> (1 <= length h < 2 * k)%nat -> duration_ok fmt -> uri_line uri ->
  Forall2 (fun n p => player_loads fmt uri k (firstn n h) p) (seq 1 (length h)) ps ->
  follow true (-1) ps = [as_heard fmt uri h 0 0].
Proof.
  intros k uri h fmt ps Hk HF Hn HD HU H.
  rewrite (loads_each fmt uri k h Hk HF HD HU (seq 1 (length h)) ps ltac:(apply Forall_forall; intros n Q; apply in_seq in Q; lia) H).
  destruct (length h) as [|m] eqn:L; [lia|]. cbn [seq map follow]. cbn [loaded u_segs u_end andb].
  rewrite firstn_length_le by lia. replace (Nat.min 1 k) with 1%nat by lia. cbn [seq map].
  replace (1 - k + 0)%nat with 0%nat by lia. rewrite as_heard_prefix by lia.
  change (filter (fun g => -1 <? g_no g) [as_heard fmt uri h 0 0] ++ [] = [as_heard fmt uri h 0 0]).
  cbn [filter]. rewrite as_heard_no. reflexivity.
Qed.
Print Assumptions C89_end_refuted.

(* such loads exist *)
Theorem C89_loads : forall k uri h fmt, (0 < k)%nat -> file_ok h -> (length h < 2 * k)%nat -> duration_ok fmt -> uri_line uri ->
  exists ps, Forall2 (fun n p => player_loads fmt uri k (firstn n h) p) (seq 1 (length h)) ps.
Proof.
  intros k uri h fmt Hk HF Hn HD HU. assert (G : Forall (fun n => 1 <= n <= length h)%nat (seq 1 (length h))) by (apply Forall_forall; intros n Q; apply in_seq in Q; lia).
  induction G as [|n ns G1 G2 IH]; [exists []; constructor|]. destruct IH as (ps & IH).
  destruct (loaded_ok k uri (firstn n h) fmt Hk (file_ok_prefix h n HF) ltac:(rewrite firstn_length_le; lia) HD HU) as (pl & t & E & R & P & _).
  exists (loaded fmt uri k (firstn n h) :: ps). constructor; [exists pl, t; auto|exact IH].
Qed.
Print Assumptions C89_loads.

(* three segments in a playlist of two: the third is never played *)
Example C89_case :
  let h := [(3, 100); (4, 50); (5, 7)] in
  let load n := match add_all (new_playlist (bs "v") 2) (firstn n h) with
                | Ok pl => match render itoa pl with Ok t => match read_playlist t with Some p => [p] | None => [] end | _ => [] end
                | _ => []
                end in
  let ps := (load 1 ++ load 2 ++ load 3)%nat in
  length ps = 3%nat /\ map g_range (follow false (-1) ps) = [Some (100, 0); Some (50, 100)] /\ map g_range (follow true (-1) ps) = [Some (100, 0)].
Proof. vm_compute. repeat split. Qed.

(* ---- C90 ---- *)
(* Full statement: a segment keeps its media sequence number.  It does until the (k+1)-th addition ... *)
Theorem C90_numbers_partial : forall k uri h more fmt p q i g, (0 < k)%nat -> file_ok (h ++ more) -> (1 <= length h)%nat -> (length (h ++ more) <= k)%nat ->
  duration_ok fmt -> uri_line uri -> player_loads fmt uri k h p -> player_loads fmt uri k (h ++ more) q ->
  nth_error (u_segs p) i = Some g -> nth_error (u_segs q) i = Some g /\ g_no g = Z.of_nat i.
Proof.
  intros k uri h more fmt p q i g Hk HF Hn Hl HD HU P Q G. rewrite app_length in Hl.
  assert (F1 : firstn (length h) (h ++ more) = h) by (rewrite firstn_app, Nat.sub_diag, firstn_all, firstn_O, app_nil_r; reflexivity).
  pose proof (file_ok_prefix _ (length h) HF) as HF'. rewrite F1 in HF'.
  rewrite (loads_loaded k uri h fmt p Hk HF' ltac:(lia) HD HU P) in G.
  rewrite (loads_loaded k uri (h ++ more) fmt q Hk HF ltac:(rewrite app_length; lia) HD HU Q).
  cbn [loaded u_segs] in *. rewrite app_length.
  assert (I : (i < length h)%nat).
  { assert (S : nth_error (map (fun i => as_heard fmt uri h i (length h - k + i)) (seq 0 (Nat.min (length h) k))) i <> None) by congruence.
    apply nth_error_Some in S. rewrite map_length, seq_length in S. lia. }
  assert (N : forall m, (i < m)%nat -> nth_error (seq 0 m) i = Some i).
  { intros m Hm. rewrite (nth_error_nth' _ 0%nat) by (rewrite seq_length; exact Hm). rewrite seq_nth by exact Hm. reflexivity. }
  rewrite (map_nth_error _ _ _ (N (Nat.min (length h) k) ltac:(lia))) in G. injection G as <-. rewrite (map_nth_error _ _ _ (N (Nat.min (length h + length more) k) ltac:(lia))).
  split; [|apply as_heard_no]. pose proof (as_heard_prefix fmt uri (h ++ more) (length h) i (length h - k + i) ltac:(lia)) as W. rewrite F1 in W. rewrite W. do 2 f_equal. lia.
Qed.
Print Assumptions C90_numbers_partial.

(* ... and after it every segment has another: number 0 is then another part of the file. *)
Theorem C90_numbers_refuted : forall k uri h fmt p q, (0 < k)%nat -> file_ok h -> Forall (fun e => 0 < snd e) h -> (k < length h < 2 * k)%nat ->
  duration_ok fmt -> uri_line uri -> player_loads fmt uri k (firstn k h) p -> player_loads fmt uri k h q ->
  exists a b, In a (u_segs p) /\ In b (u_segs q) /\ g_no a = g_no b /\ g_range a <> g_range b.
Proof.
  intros k uri h fmt p q Hk HF HP Hn HD HU P Q.
  rewrite (loads_loaded k uri (firstn k h) fmt p Hk (file_ok_prefix h k HF) ltac:(rewrite firstn_length_le; lia) HD HU P).
  rewrite (loads_loaded k uri h fmt q Hk HF ltac:(lia) HD HU Q). cbn [loaded u_segs].
  exists (as_heard fmt uri h 0 0), (as_heard fmt uri h 0 (length h - k)). rewrite !as_heard_no. splits; [| |reflexivity|].
  - apply in_map_iff. exists 0%nat. rewrite firstn_length_le by lia. split; [|apply in_seq; lia].
    replace (k - k + 0)%nat with 0%nat by lia. apply as_heard_prefix. exact Hk.
  - apply in_map_iff. exists 0%nat. split; [f_equal; lia|apply in_seq; lia].
  - pose proof (total_pos h (length h - k) HP ltac:(lia)) as T. unfold total in T. unfold as_heard.
    destruct (nth 0 h (0, 0)), (nth (length h - k) h (0, 0)). cbn [g_range firstn fold_right]. intros E. injection E as _ E. lia.
Qed.
Print Assumptions C90_numbers_refuted.

Example C90_case :
  let read h := match add_all (new_playlist (bs "v") 2) h with Ok pl => match render itoa pl with Ok t => read_playlist t | _ => None end | _ => None end in
  match read [(3, 100); (4, 50)], read [(3, 100); (4, 50); (5, 7)] with
  | Some p, Some q => map g_no (u_segs p) = [0; 1] /\ map g_no (u_segs q) = [0; 1] /\ map g_range (u_segs p) = [Some (100, 0); Some (50, 100)] /\
                      map g_range (u_segs q) = [Some (50, 100); Some (7, 150)]
  | _, _ => False
  end.
Proof. vm_compute. repeat split. Qed.
