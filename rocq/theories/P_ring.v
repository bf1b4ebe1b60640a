(* C119: a playlist rendered by one goroutine while another one adds segments. *)
From Coq Require Import String.
From Verif Require Import Base GoStrings S_hls S_ring M_hls M_ring L_base L_hls L_ring.
From Coq Require Import ZifyBool ZifyNat.

(* Between two calls the text is that of the calls made so far, whatever the number of segments. *)
Theorem C119_between : forall k uri h j fmt, (0 < k)%nat ->
  exists pl, add_all (new_playlist uri k) (firstn j h) = Ok pl /\
    read_text fmt (moment k uri h) (fun _ => 6 * j)%nat = render fmt pl.
Proof.
  intros k uri h j fmt Hk. destruct (moment_between k uri h j Hk) as (pl & p & E & I & M & _). exists pl. split; [exact E|].
  rewrite read_quiet, M. reflexivity.
Qed.
Print Assumptions C119_between.

(* As long as the ring has not come round every entry but the newest is right, and the figures of the newest are right or still zero;
   the newest is right, too, when its call was over before the loop began.  Missing: the newest entry, and the ring that has come round. *)
Theorem C119_partial : forall k uri h fmt clock, (0 < k)%nat -> (length h <= k)%nat -> file_ok h -> forwards clock ->
  read_text fmt (moment k uri h) clock = Ok (playlist_text fmt uri []) \/
  exists m d l p, (m < length h)%nat /\
    read_text fmt (moment k uri h) clock = Ok (playlist_text fmt uri (map (entry h) (seq 0 m) ++ [(d, l, p)])) /\
    partly d (fst (nth m h (0, 0))) /\ partly l (snd (nth m h (0, 0))) /\ partly p (total (firstn m h)) /\
    (6 * (m + 1) <= clock 2 -> (d, l, p) = entry h m)%nat.
Proof.
  intros k uri h fmt clock Hk Hl HF Fw.
  pose proof (early_moment k uri h (clock 0%nat) Hk Hl) as E0. pose proof (early_moment k uri h (clock 1%nat) Hk Hl) as E1.
  unfold read_text. rewrite (ea_first _ _ _ _ E0), (ea_last _ _ _ _ E1). change (pl_version (moment k uri h 0)) with 4.
  change (pl_segs (moment k uri h 0)) with (repeat (mkSeg 0 0 0) k). rewrite repeat_length.
  destruct (Nat.ltb_spec (Nat.min (clock 0%nat) (6 * length h)) 6) as [L|L]; [left; reflexivity|right].
  pose proof (Fw 0%nat) as F0. pose proof (Fw 1%nat) as F1. set (t := Nat.min (clock 1%nat) (6 * length h)) in *.
  assert (Hm : exists m, Nat.min ((t + 4) / 6) (length h) = S m /\ (6 * m + 2 <= t)%nat).
  { destruct (Nat.min ((t + 4) / 6) (length h)) as [|m] eqn:Em.
    - assert (1 <= (t + 4) / 6)%nat by (apply Nat.div_le_lower_bound; lia). lia.
    - exists m. split; [reflexivity|]. assert (S m <= (t + 4) / 6)%nat by lia. pose proof (Nat.mul_div_le (t + 4) 6 ltac:(lia)). lia. }
  destruct Hm as (m & -> & Hm). replace (Z.of_nat (S m) - 1) with (Z.of_nat m) by lia. cbn [Z.geb Z.compare].
  destruct (read_early k uri h fmt clock Hk Hl HF Fw m m 0 2 (S k) ltac:(lia) ltac:(lia) ltac:(lia) ltac:(lia)) as (d & l & p & Hd & Hll & Hp & Hc & R).
  exists m, d, l, p. splits; try assumption; try lia.
  - change (Z.of_nat 0) with 0 in R. rewrite R. cbn [bind]. unfold playlist_text. reflexivity.
  - intros H. apply Hc. left. lia.
Qed.
Print Assumptions C119_partial.

(* Before the ring has come round twice String returns, however the two calls interleave; after that it panics without any overlap (C40). *)
Theorem C119_returns : forall k uri h fmt clock, (0 < k)%nat -> (length h < 2 * k)%nat -> forwards clock ->
  exists text, read_text fmt (moment k uri h) clock = Ok text.
Proof.
  intros k uri h fmt clock Hk Hl Fw. unfold read_text.
  destruct (mid_fields k uri h (clock 0%nat) Hk Hl) as (_ & F0 & _ & G0 & _).
  destruct (mid_fields k uri h (clock 1%nat) Hk Hl) as (_ & _ & L1 & _ & G1).
  change (pl_segs (moment k uri h 0)) with (repeat (mkSeg 0 0 0) k). rewrite repeat_length.
  destruct (pl_first (moment k uri h (clock 0%nat)) >=? 0) eqn:E; [|cbn [bind]; eauto].
  set (first := pl_first (moment k uri h (clock 0%nat))) in *. destruct (G0 ltac:(lia)) as [H6 _]. specialize (Fw 0%nat).
  assert (NE : h <> []). { intros ->. subst first. unfold moment in E. cbn [flat_map] in E. rewrite firstn_nil in E. cbn in E. discriminate. }
  specialize (G1 ltac:(lia) NE). set (last := pl_last (moment k uri h (clock 1%nat))) in *.
  set (c := Z.to_nat ((last - first) mod Z.of_nat k)).
  pose proof (Z.mod_pos_bound (last - first) (Z.of_nat k) ltac:(lia)) as B.
  destruct (read_returns k uri h fmt clock last Hk Hl ltac:(lia) c 2 first (S k)) as [b ->]; [lia| |subst c; lia|cbn [bind]; eauto].
  subst c. rewrite Z2Nat.id by lia. rewrite Zplus_mod_idemp_r. replace (first + (last - first)) with last by lia. apply Z.mod_small. lia.
Qed.
Print Assumptions C119_returns.

(* A segment that nobody added: rendered right after Last has been stored, the text ends in an entry of no bytes at position 0. *)
Theorem C119_phantom_refuted : exists clock, forwards clock /\
  read_text itoa (moment 3 (bs "u") [(7, 10); (5, 20)]) clock = Ok (playlist_text itoa (bs "u") [(7, 10, 0); (0, 0, 0)]).
Proof. exists (fun _ => 8%nat). split; [intros n; lia|vm_compute; reflexivity]. Qed.
Print Assumptions C119_phantom_refuted.

(* The ring has come round: the text has the new position with the old length, a range of the file that is no segment; and it has none of
   the other segments. *)
Theorem C119_torn_refuted : exists clock, forwards clock /\
  read_text itoa (moment 3 (bs "u") [(7, 10); (5, 20); (6, 40); (9, 80)]) clock = Ok (playlist_text itoa (bs "u") [(9, 10, 70)]).
Proof. exists (fun _ => 22%nat). split; [intros n; lia|vm_compute; reflexivity]. Qed.
Print Assumptions C119_torn_refuted.

(* The playlist goes backwards: the fourth call overwrites the slot of the first segment behind the back of a String that has copied First
   and Last before: the newest segment is listed before the older ones. *)
Theorem C119_order_refuted : exists clock, forwards clock /\
  read_text itoa (moment 3 (bs "u") [(7, 10); (5, 20); (6, 40); (9, 80)]) clock = Ok (playlist_text itoa (bs "u") [(9, 80, 70); (5, 20, 10); (6, 40, 30)]).
Proof.
  exists (fun n => if (n <? 2)%nat then 18%nat else 24%nat). split; [|vm_compute; reflexivity].
  intros n. destruct (Nat.ltb_spec n 2), (Nat.ltb_spec (S n) 2); lia.
Qed.
Print Assumptions C119_order_refuted.

(* Two segments while a third one is added: the text is one of the four it may be. *)
Example C119_case :
  map (fun t => read_text itoa (moment 4 (bs "u") [(7, 10); (5, 20); (6, 40)]) (fun _ => t)) [12; 14; 15; 18]%nat =
  map (fun es => Ok (playlist_text itoa (bs "u") es)) [[(7, 10, 0); (5, 20, 10)]; [(7, 10, 0); (5, 20, 10); (0, 0, 0)];
    [(7, 10, 0); (5, 20, 10); (6, 0, 0)]; [(7, 10, 0); (5, 20, 10); (6, 40, 30)]].
Proof. vm_compute. reflexivity. Qed.
