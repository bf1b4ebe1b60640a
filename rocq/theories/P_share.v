(* C94 to C96: the sink's units and the memory they lie in *)
From Verif Require Import Base S_annexb S_nal M_annexb M_nal M_share S_share L_base L_nal L_share.

(* C94: whatever the caller writes into its own buffers, before and after it pushes parts of them, the sink holds what the
   packets said when they were pushed. *)
Theorem C94_sink : forall (slack : nat -> nat) (ops : list hop),
  sink_now (fst (hrun slack boot ops)) = fst (push_all new_sink (pushes slack boot ops)).
Proof. intros slack ops. exact (proj2 (proj2 (run_ok slack ops boot boot_fine))). Qed.
Print Assumptions C94_sink.

(* ... and the outcome of a call is that of the bytes it is given. *)
Theorem C94_outcome : forall (slack : nat -> nat) (ops : list hop) (buf : bslice) (ts : Z),
  let st := fst (hrun slack boot ops) in
  snd (h_push slack st buf ts) = snd (push (sink_now st) (sl_read (fst st) buf) ts).
Proof.
  intros slack ops buf ts st. destruct (run_ok slack ops boot boot_fine) as ((W & M) & _). destruct (push_ok slack _ _ buf ts W M) as (_ & _ & E).
  unfold st. rewrite <- E. reflexivity.
Qed.
Print Assumptions C94_outcome.

(* ... and a unit taken from Units stays as it was through everything that follows. *)
Theorem C94_unit : forall (slack : nat -> nat) (before later : list hop) (u : hunit),
  let c := hrun slack boot before in
  In u (elems (m_units (fst (fst c))) (k_units (snd (fst c)))) ->
  unit_now (fst (fst (hrun slack boot (before ++ later)))) u = unit_now (fst (fst c)) u.
Proof.
  intros slack before later u c I. destruct (run_ok slack before boot boot_fine) as (F & _). rewrite run_app. destruct (run_ok slack later _ F) as (_ & K & _).
  rewrite !unit_read. f_equal. apply K. exact (live_safe _ u F I).
Qed.
Print Assumptions C94_unit.

(* a packet is pushed and its buffer used again for the next *)
Example C94_case : forall slack,
  let ops := [Make [101; 1; 2]; Pushed 0 0 3 7; Store 0 1 9; Store 0 0 65] in
  sink_now (fst (hrun slack boot ops)) = mkSink [mkUnit 101 0 7 [1; 2]] [] 1 /\
  s_units (sink_now (fst (hrun slack boot (ops ++ [Pushed 0 0 3 8])))) = [mkUnit 65 1 8 [9; 2]] /\
  pushes slack boot (ops ++ [Pushed 0 0 3 8]) = [([101; 1; 2], 7); ([65; 9; 2], 8)].
Proof. intros slack. vm_compute. splits; reflexivity. Qed.

(* C95 is false: a list of units that was kept shows the units of the next packet in the place of its own. *)
Theorem C95_kept_refuted : forall (slack : nat -> nat) (ops : list hop) (a off len : nat) (ts h : Z) (d : bytes),
  let c := hrun slack boot ops in
  let c' := hstep slack c (Pushed a off len ts) in
  let kept := k_units (snd (fst c)) in
  let packet := firstn len (skipn off (nth a (m_bytes (fst (fst c))) [])) in
  In a (snd c) -> (off + len <= length (nth a (m_bytes (fst (fst c))) []))%nat ->
  packet = h :: d -> plain packet -> byte_ok h -> nal_type h < 24 \/ 29 < nal_type h ->
  list_now (fst (fst c)) kept <> [] ->
  list_now (fst (fst c')) kept = mkUnit h (k_don (snd (fst c))) ts d :: tl (list_now (fst (fst c)) kept).
Proof.
  intros slack ops a off len ts h d c c' kept packet I L E P B T N. subst packet kept c' c. rewrite kept_push by (try apply P; assumption).
  destruct (step_ok slack _ (Pushed a off len ts) (proj1 (run_ok slack ops boot boot_fine))) as (_ & _ & S). rewrite S. cbn [pushes app].
  replace (existsb (Nat.eqb a) _) with true by (symmetry; apply existsb_exists; exists a; split; [exact I|apply Nat.eqb_refl]).
  apply Nat.leb_le in L. rewrite L. cbn [andb app push_all]. rewrite push_plain by exact P. rewrite E, parse_single by assumption. cbn [fst s_units length app].
  unfold sink_now at 2. cbn [s_units]. destruct (list_now _ _) as [|x l] eqn:El; [congruence|]. cbn [length firstn skipn tl s_units sink_now]. rewrite El. cbn [length firstn skipn]. f_equal. apply firstn_all.
Qed.
Print Assumptions C95_kept_refuted.

(* C95, exactly, for a packet without start codes: the places of the new units are written over, the others are not. *)
Theorem C95_kept_exact : forall (slack : nat -> nat) (ops : list hop) (a off len : nat) (ts : Z),
  let c := hrun slack boot ops in
  let c' := hstep slack c (Pushed a off len ts) in
  let kept := k_units (snd (fst c)) in
  let packet := firstn len (skipn off (nth a (m_bytes (fst (fst c))) [])) in
  In a (snd c) -> (off + len <= length (nth a (m_bytes (fst (fst c))) []))%nat -> ~ contains [0; 0; 1] packet ->
  let old := list_now (fst (fst c)) kept in
  let new := s_units (sink_now (fst c')) in
  list_now (fst (fst c')) kept = firstn (length old) (new ++ skipn (length new) old).
Proof. intros slack ops a off len ts c c' kept packet I L N old new. exact (kept_push slack ops a off len ts I L N). Qed.
Print Assumptions C95_kept_exact.

(* C95 holds as long as no unit is finished: a kept list is not touched by a packet that yields none. *)
Theorem C95_kept_partial : forall (slack : nat -> nat) (ops : list hop) (a off len : nat) (ts : Z),
  let c := hrun slack boot ops in
  let c' := hstep slack c (Pushed a off len ts) in
  let kept := k_units (snd (fst c)) in
  let packet := firstn len (skipn off (nth a (m_bytes (fst (fst c))) [])) in
  In a (snd c) -> (off + len <= length (nth a (m_bytes (fst (fst c))) []))%nat -> ~ contains [0; 0; 1] packet ->
  s_units (sink_now (fst c')) = [] ->
  list_now (fst (fst c')) kept = list_now (fst (fst c)) kept.
Proof.
  intros slack ops a off len ts c c' kept packet I L N E. subst packet kept c' c. rewrite kept_push by assumption. rewrite E. cbn [length app skipn]. apply firstn_all.
Qed.
Print Assumptions C95_kept_partial.

Example C95_case : forall slack,
  let ops := [Make [24; 0; 2; 103; 66; 0; 2; 104; 206]; Pushed 0 0 9 5; Make [101; 7]] in
  let c := hrun slack boot ops in
  let kept := k_units (snd (fst c)) in
  list_now (fst (fst c)) kept = [mkUnit 103 0 5 [66]; mkUnit 104 1 5 [206]] /\
  In 2%nat (snd c) /\
  list_now (fst (fst (hstep slack c (Pushed 2 0 2 6)))) kept = [mkUnit 101 2 6 [7]; mkUnit 104 1 5 [206]].
Proof. intros slack. vm_compute. splits; auto. Qed.

(* C96: what is appended to the data of a unit follows it, and is seen nowhere else, if it is three bytes at most or the unit is alone:
   neither in the sink, nor in a unit kept from before, nor in the caller's buffers. *)
Theorem C96_append_partial : forall (slack : nat -> nat) (before later : list hop) (u w : hunit) (xs : bytes),
  let c0 := hrun slack boot before in
  let c := hrun slack boot (before ++ later) in
  let units := elems (m_units (fst (fst c))) (k_units (snd (fst c))) in
  In u units -> (length xs <= 3)%nat \/ length units = 1%nat ->
  In w (elems (m_units (fst (fst c0))) (k_units (snd (fst c0)))) ->
  let m' := fst (sl_append slack (fst (fst c)) (hu_data u) xs) in
  sl_read m' (snd (sl_append slack (fst (fst c)) (hu_data u) xs)) = sl_read (fst (fst c)) (hu_data u) ++ xs /\
  sink_now (m', snd (fst c)) = sink_now (fst c) /\
  unit_now m' w = unit_now (fst (fst c)) w /\
  (forall a, In a (snd c) -> nth a (m_bytes m') [] = nth a (m_bytes (fst (fst c))) []).
Proof.
  intros slack before later u w xs c0 c units U X W m'. subst m' units c c0. splits.
  - now apply append_own.
  - now apply append_sink.
  - rewrite run_app in *. now apply append_harmless.
  - now apply append_mine.
Qed.
Print Assumptions C96_append_partial.

(* C96 is false of the units of an aggregate: the fourth byte appended to one is written over the first of the next. *)
Theorem C96_append_refuted : forall (slack : nat -> nat) (x : Z), exists (ops : list hop) (u : hunit),
  let c := hrun slack boot ops in
  In u (elems (m_units (fst (fst c))) (k_units (snd (fst c)))) /\
  s_units (sink_now (fst c)) = [mkUnit 103 0 5 [66]; mkUnit 104 1 5 [206]] /\
  s_units (sink_now (fst (sl_append slack (fst (fst c)) (hu_data u) [1; 2; 3; x]), snd (fst c))) = [mkUnit 103 0 5 [66]; mkUnit 104 1 5 [x]].
Proof.
  intros slack x. exists [Make [24; 0; 2; 103; 66; 0; 2; 104; 206]; Pushed 0 0 9 5]. eexists. cbv zeta. split; [left; vm_compute; reflexivity|]. vm_compute. split; reflexivity.
Qed.
Print Assumptions C96_append_refuted.

Example C96_case : forall slack,
  let c := hrun slack boot [Make [24; 0; 2; 103; 66; 0; 2; 104; 206]; Pushed 0 0 9 5] in
  match elems (m_units (fst (fst c))) (k_units (snd (fst c))) with
  | u :: _ =>
      let '(m', s) := sl_append slack (fst (fst c)) (hu_data u) [1; 2; 3] in
      sl_read m' s = [66; 1; 2; 3] /\ sink_now (m', snd (fst c)) = sink_now (fst c) /\ nth 1 (m_bytes m') [] <> nth 1 (m_bytes (fst (fst c))) []
  | [] => False
  end.
Proof. intros slack. vm_compute. splits; try reflexivity. discriminate. Qed.
