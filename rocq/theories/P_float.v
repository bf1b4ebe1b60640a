(* Property C149: the durations in a playlist. *)
From Coq Require Import String.
From Verif Require Import Base GoStrings S_hls M_hls S_m3u8 M_float S_float L_base L_hls L_m3u8 L_float P_hls P_m3u8.
From Coq Require Import ZifyBool ZifyNat.

(* ---- C149 ---- *)
(* In every text the playlist gives out, each segment listed has a duration that a player reads as the very float64 that was given; one
   that is not a finite number, or has the sign of a negative one, is never taken for another: its text is no number ... *)
Theorem C149_duration : forall k uri h pl t, (0 < k)%nat -> file_ok h -> uri_line uri -> Forall (fun e => 0 <= fst e < 2 ^ 64) h ->
  add_all (new_playlist uri k) h = Ok pl -> render format_float pl = Ok t ->
  exists p, read_playlist t = Some p /\
    Forall2 (fun g e => (finite (fst e) -> tells (g_dur g) (fst e)) /\ (~ finite (fst e) -> quantity (g_dur g) = None)) (u_segs p) (newest k h).
Proof.
  intros k uri h pl t Hk HF U F A R. destruct h as [|e h].
  - injection A as <-. rewrite C39_empty in R. injection R as <-. eexists. split; [apply (read_text format_float uri []); [exact format_ok|exact U|constructor]|]. constructor.
  - destruct (C40_total_partial k uri (e :: h) format_float Hk) as (pl1 & A1 & (RE & _) & _). rewrite A in A1. injection A1 as <-. rewrite R in RE. specialize (RE Logic.I).
    destruct (C88_read_partial k uri (e :: h) format_float Hk HF ltac:(cbn [length] in *; lia) format_ok U) as (pl2 & t2 & p & A2 & R2 & P & S).
    rewrite A in A2. injection A2 as <-. rewrite R in R2. injection R2 as <-. exists p. split; [exact P|]. rewrite S.
    apply (heard_durations (fun x d => (finite d -> tells x d) /\ (~ finite d -> quantity x = None))).
    intros x X. pose proof (proj1 (Forall_forall _ _) F x X) as B. cbn beta in B. split; intros N; [exact (format_tells _ N)|]. apply format_else. unfold finite in N. lia.
Qed.
Print Assumptions C149_duration.

(* ... which is one only: no text stands for two numbers. *)
Theorem C149_one : forall t d e, 0 <= d <= infinity -> 0 <= e <= infinity -> tells t d -> tells t e -> d = e.
Proof. exact tells_one. Qed.
Print Assumptions C149_one.

(* 0.1 and 0.1 + 0.2 in a playlist of two *)
Example C149_case :
  let t := match add_all (new_playlist (bs "v") 2) [(4591870180066957722, 100); (4599075939470750516, 50)] with Ok pl => render format_float pl | _ => Panic end in
  match t with
  | Ok t => match read_playlist t with
            | Some p => map g_dur (u_segs p) = [bs "0.1"; bs "0.30000000000000004"] /\ map (fun g => quantity (g_dur g)) (u_segs p) = [Some (1, 1); Some (30000000000000004, 17)]
            | None => False
            end
  | _ => False
  end.
Proof. vm_compute. split; reflexivity. Qed.
(* 10, 2.5, 29.97, the largest number, -0, infinity and NaN *)
Example C149_text_case :
  map format_float [4621819117588971520; 4612811918334230528; 4629129022734147256] = [bs "10"; bs "2.5"; bs "29.97"] /\
  length (format_float (infinity - 1)) = 309%nat /\ map format_float [2 ^ 63; infinity; infinity + 1] = [bs "-0"; bs "+Inf"; bs "NaN"].
Proof. vm_compute. repeat split. Qed.
