(* Property C163: no digit too many in the durations of a playlist. *)
From Coq Require Import String.
From Verif Require Import Base GoStrings S_hls M_hls S_m3u8 M_float S_float S_short L_base L_hls L_m3u8 L_float L_short P_hls P_m3u8.
From Coq Require Import ZifyBool ZifyNat.

(* ---- C163 ---- *)
(* In every text the playlist gives out, the duration of each segment listed (a finite number, not negative) is a number that stands for the
   one that was given and has no digit too many ... *)
Theorem C163_digits : forall k uri h pl t, (0 < k)%nat -> file_ok h -> uri_line uri -> Forall (fun e => 0 <= fst e < 2 ^ 64) h ->
  add_all (new_playlist uri k) h = Ok pl -> render format_float pl = Ok t ->
  exists p, read_playlist t = Some p /\
    Forall2 (fun g e => finite (fst e) -> exists n x, quantity (g_dur g) = Some (n, x) /\ rounds_to n x (fst e) /\ no_longer n x (fst e) /\ (0 < x -> n mod 10 <> 0)) (u_segs p) (newest k h).
Proof.
  intros k uri h pl t Hk HF U F A R. destruct h as [|e h].
  - injection A as <-. rewrite C39_empty in R. injection R as <-. eexists. split; [apply (read_text format_float uri []); [exact format_ok|exact U|constructor]|]. constructor.
  - destruct (C40_total_partial k uri (e :: h) format_float Hk) as (pl1 & A1 & (RE & _) & _). rewrite A in A1. injection A1 as <-. rewrite R in RE. specialize (RE Logic.I).
    destruct (C88_read_partial k uri (e :: h) format_float Hk HF ltac:(cbn [length] in *; lia) format_ok U) as (pl2 & t2 & p & A2 & R2 & P & S).
    rewrite A in A2. injection A2 as <-. rewrite R in R2. injection R2 as <-. exists p. split; [exact P|]. rewrite S.
    apply (heard_durations (fun x d => finite d -> exists n j, quantity x = Some (n, j) /\ rounds_to n j d /\ no_longer n j d /\ (0 < j -> n mod 10 <> 0))).
    intros x X N. exact (format_short _ N).
Qed.
Print Assumptions C163_digits.

(* ... so that no number with fewer decimals stands for it ... *)
Theorem C163_decimals : forall b n k, no_longer n k b -> 0 <= k -> (0 < k -> n mod 10 <> 0) -> forall n' k', 0 <= k' -> rounds_to n' k' b -> k <= k'.
Proof.
  intros b n k H K T n' k' K' R. destruct (Z.le_gt_cases k k') as [C|C]; [exact C|]. exfalso. apply T; [lia|].
  destruct (H n' k' 0 K' ltac:(lia)) as (q & Q & _); [rewrite Z.pow_0_r, Z.mul_1_r; exact R|].
  pose proof (Z.pow_pos_nonneg 10 k' ltac:(lia) K') as P. replace (0 + k) with (Z.succ (k - k' - 1) + k') in Q by lia.
  rewrite Z.pow_add_r, Z.pow_succ_r, Z.mul_assoc in Q by lia. apply Z.mul_cancel_r in Q; [|lia]. rewrite Q.
  replace (q * (10 * 10 ^ (k - k' - 1))) with (q * 10 ^ (k - k' - 1) * 10) by ring. apply Z.mod_mul. lia.
Qed.
Print Assumptions C163_decimals.

(* ... and of the numbers with as many, none that stands for it is nearer. *)
Theorem C163_nearest : forall b n k, no_longer n k b -> 0 <= k -> (0 < k -> n mod 10 <> 0) -> 0 < k -> forall n', rounds_to n' k b ->
  Z.abs (n * 2 ^ 1074 - grid b * 10 ^ k) <= Z.abs (n' * 2 ^ 1074 - grid b * 10 ^ k).
Proof.
  intros b n k H K T K0 n' R. destruct (H n' k 0 K ltac:(lia)) as (q & Q & NR); [rewrite Z.pow_0_r, Z.mul_1_r; exact R|]. rewrite Z.pow_0_r, Z.mul_1_r in NR.
  pose proof (Z.pow_pos_nonneg 10 k ltac:(lia) K) as P. change (0 + k) with k in Q. apply Z.mul_cancel_r in Q; [|lia]. subst q.
  apply (Z.mul_le_mono_pos_r _ _ (10 ^ k)); [exact P|]. apply NR. exact (T K0).
Qed.
Print Assumptions C163_nearest.

(* 0.1, 0.1 + 0.2, a third, 10^23 (which is 99999999999999991611392) and the least number of all, with a 5 behind 323 zeros *)
Example C163_case :
  map format_float [4591870180066957722; 4599075939470750516; 4599676419421066581; 4950912855330343670] =
    [bs "0.1"; bs "0.30000000000000004"; bs "0.3333333333333333"; bs "100000000000000000000000"] /\
  format_float 1 = bs "0." ++ repeat 48 323 ++ bs "5".
Proof. split; vm_compute; reflexivity. Qed.
