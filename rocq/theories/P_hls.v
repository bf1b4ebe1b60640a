(* Properties C38-C40: HLS playlists. *)
From Coq Require Import String.
From Verif Require Import Base GoStrings S_hls M_hls L_base L_hls.

(* ---- C38 ---- *)
Theorem C38_contiguous : forall k uri h, (0 < k)%nat -> file_ok h ->
  exists pl, add_all (new_playlist uri k) h = Ok pl /\
    forall j, (length h - k <= j < length h)%nat ->
      exists s, nth_error (pl_segs pl) (j mod k) = Some s /\
        (seg_dur s, seg_len s, seg_pos s) = (fst (nth j h (0, 0)), snd (nth j h (0, 0)), total (firstn j h)).
Proof.
  intros k uri h Hk HF. destruct (history k uri h Hk) as (pl & E & I). exists pl. split; [exact E|].
  intros j Hj. eexists. split; [apply (inv_segs _ _ _ _ I); exact Hj|].
  pose proof (file_wrap h j HF) as W. unfold entry in *. destruct (nth j h (0, 0)) as [d l].
  cbn in *. congruence.
Qed.
Print Assumptions C38_contiguous.

(* two neighbouring held segments: the later starts where the earlier ends (in int64, with no bound on the file) *)
Theorem C38_neighbours : forall k uri h pl j s t, (0 < k)%nat -> add_all (new_playlist uri k) h = Ok pl ->
  (length h - k <= j)%nat -> (S j < length h)%nat ->
  nth_error (pl_segs pl) (j mod k) = Some s -> nth_error (pl_segs pl) (S j mod k) = Some t ->
  seg_pos t = i64 (seg_pos s + seg_len s).
Proof.
  intros k uri h pl j s t Hk E H1 H2 Es Et. destruct (history k uri h Hk) as (pl' & E' & I).
  rewrite E' in E. injection E as ->. rewrite (inv_segs _ _ _ _ I) in Es, Et by lia.
  injection Es as <-. injection Et as <-. apply entry_step. lia.
Qed.
Print Assumptions C38_neighbours.

Example C38_case : exists pl, add_all (new_playlist [117] 2) [(1, 100); (2, 50); (3, 7)] = Ok pl /\
  pl_segs pl = [mkSeg 3 150 7; mkSeg 2 100 50] /\ pl_first pl = 1 /\ pl_last pl = 0.
Proof. eexists. splits; reflexivity. Qed.

(* ---- C39 ---- *)
(* Full statement: after n >= 1 additions the text lists the last min(n, k) segments.  It does for n < 2k ... *)
Theorem C39_listing_partial : forall k uri h fmt, (0 < k)%nat -> file_ok h -> (1 <= length h < 2 * k)%nat ->
  exists pl, add_all (new_playlist uri k) h = Ok pl /\
    render fmt pl = Ok (playlist_text fmt uri (map (entry h) (shown (length h) k))).
Proof.
  intros k uri h fmt Hk HF Hn. destruct (history k uri h Hk) as (pl & E & I). exists pl. split; [exact E|].
  rewrite (render_spec k uri h pl fmt Hk I) by (intros ->; cbn in Hn; lia).
  destruct (Nat.ltb_spec (length h) (2 * k)); [|lia]. do 2 f_equal. apply map_ext. intros j. apply file_wrap; exact HF.
Qed.
Print Assumptions C39_listing_partial.

(* ... and never afterwards. *)
Theorem C39_listing_refuted : forall k uri h fmt, (0 < k)%nat -> (2 * k <= length h)%nat ->
  exists pl, add_all (new_playlist uri k) h = Ok pl /\ render fmt pl = Panic.
Proof.
  intros k uri h fmt Hk Hn. destruct (history k uri h Hk) as (pl & E & I). exists pl. split; [exact E|].
  rewrite (render_spec k uri h pl fmt Hk I) by (intros ->; cbn in Hn; lia).
  destruct (Nat.ltb_spec (length h) (2 * k)); [lia|reflexivity].
Qed.
Print Assumptions C39_listing_refuted.

(* with no segment yet: an empty playlist *)
Theorem C39_empty : forall k uri fmt, render fmt (new_playlist uri k) = Ok (playlist_text fmt uri []).
Proof. reflexivity. Qed.
Print Assumptions C39_empty.

(* the repository's own test, with the durations' decimal text as the formatter *)
Example C39_case :
  let fmt d := itoa (d / 10000) ++ [46] ++ itoa (d mod 10000) in
  let u := bs "https://example.com/media/video.ts" in
  match add_all (new_playlist u 5) [(25800, 82560); (30140, 96448); (32400, 103680); (29777, 95286); (34333, 109866); (34100, 109120)] with
  | Ok pl => render fmt pl
  | _ => Fuel
  end = Ok (playlist_text fmt u [(30140, 96448, 82560); (32400, 103680, 179008); (29777, 95286, 282688); (34333, 109866, 377974); (34100, 109120, 487840)]).
Proof. vm_compute. reflexivity. Qed.

(* ---- C40 ---- *)
(* Full statement: String returns after every history.  Exactly: it panics from the 2k-th addition on, for
   ever; and AddSegment itself never fails with k >= 1 and always panics with k = 0. *)
Theorem C40_total_partial : forall k uri h fmt, (0 < k)%nat ->
  exists pl, add_all (new_playlist uri k) h = Ok pl /\
    (returns (render fmt pl) <-> (length h < 2 * k)%nat) /\ (render fmt pl = Panic <-> (2 * k <= length h)%nat).
Proof.
  intros k uri h fmt Hk. destruct (history k uri h Hk) as (pl & E & I). exists pl. split; [exact E|].
  destruct h as [|e h].
  - cbn in E. injection E as <-. cbn [length]. split; split; intros H; try exact Logic.I; try lia; discriminate.
  - rewrite (render_spec k uri (e :: h) pl fmt Hk I) by discriminate.
    destruct (Nat.ltb_spec (length (e :: h)) (2 * k)); split; split; intros Q; try exact Logic.I; try lia; try discriminate; try contradiction; reflexivity.
Qed.
Print Assumptions C40_total_partial.

Theorem C40_no_segments : forall uri d l, add_segment (new_playlist uri 0) d l = Panic.
Proof. reflexivity. Qed.
Print Assumptions C40_no_segments.

Theorem C40_total_refuted : exists uri fmt pl, add_all (new_playlist uri 1) [(1, 10); (1, 10)] = Ok pl /\ render fmt pl = Panic.
Proof. exists [], itoa. eexists. split; reflexivity. Qed.
Print Assumptions C40_total_refuted.

Example C40_case : exists pl, add_all (new_playlist (bs "u") 1) [(7, 10)] = Ok pl /\
  render itoa pl = Ok (playlist_text itoa (bs "u") [(7, 10, 0)]).
Proof. eexists. split; vm_compute; reflexivity. Qed.
