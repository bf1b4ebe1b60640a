(* Property C118: an application takes from the channels what it cares for. *)
From Coq Require Import String.
From Verif Require Import Base GoStrings M_conn S_message M_message S_transport M_transport M_sdp M_session S_session S_handshake M_main S_main M_app
  L_base L_session L_frames L_main L_app.
From Coq Require Import ZifyBool.

(* What an application has taken, and what waits for it, is what the session has signalled: nothing is lost, doubled or out of order,
   whatever it does when. *)
Theorem C118_in_order : forall (w : world) (es : list uevent) (u : hub), w_log w = [] -> urun (fresh_hub w) es = Some u ->
  u_stages u ++ match u_stage u with Some n => [n] | None => [] end = stages (w_log (u_w u)) /\
  u_packets u ++ u_data u = packets (w_log (u_w u)) /\ zlen (u_data u) <= 21.
Proof.
  intros w es u L E. destruct (urun_accounted es _ _ E (fresh_accounted w L)) as (A & B & C & _). splits; assumption.
Qed.
Print Assumptions C118_in_order.

(* Full statement: the session goes on reading, whichever of the two channels the application listens to.  It does if the application
   takes what is there: at any time one take at most is wanting. *)
Theorem C118_one_take_partial : forall (w : world) (es : list uevent) (u : hub), w_log w = [] -> urun (fresh_hub w) es = Some u -> u_loop u = Live ->
  (forall t1 t2, ustep u (UTurn t1 t2) <> None) \/
  (exists n u', u_stage u = Some n /\ ustep u UStage = Some u' /\ forall t1 t2, ustep u' (UTurn t1 t2) <> None) \/
  (zlen (u_data u) = 21 /\ exists u', ustep u UPacket = Some u' /\ forall t1 t2, ustep u' (UTurn t1 t2) <> None).
Proof.
  intros w es u L E A. destruct (urun_accounted es _ _ E (fresh_accounted w L)) as (_ & _ & C & D).
  assert (T : forall v, u_loop v = Live -> u_stage v = None -> zlen (u_data v) <= 20 -> forall t1 t2, ustep v (UTurn t1 t2) <> None).
  { intros v H1 H2 H3 t1 t2. cbn [ustep]. rewrite H1, H2. replace (zlen (u_data v) <=? 20) with true by lia. destruct (turn (u_w v) t1 t2). discriminate. }
  destruct (u_stage u) as [n|] eqn:S.
  - right; left. exists n. eexists. cbn [ustep]. rewrite S. splits; try reflexivity. apply T; [exact A|reflexivity|]. cbn [u_data]. apply D. discriminate.
  - destruct (Z_le_gt_dec (zlen (u_data u)) 20) as [H|H]; [left; apply T; assumption|]. right; right. split; [lia|].
    cbn [ustep]. destruct (u_data u) as [|p r] eqn:ED; [unfold zlen in H; cbn in H; lia|]. eexists. split; [reflexivity|].
    apply T; [exact A|exact S|]. unfold zlen in *. cbn [u_data length] in *. lia.
Qed.
Print Assumptions C118_one_take_partial.

(* False otherwise.  An application that waits for a stage and takes no packets in the meantime: whatever else it does, what comes behind
   21 packets is never read, and no stage is announced. *)
Theorem C118_stages_only_refuted : forall (fs : list (Z * bytes)) (X : stream) (w : world) (es : list uevent) (u : hub),
  length fs = 21%nat -> Forall (fun f => zlen (snd f) <= 2048) fs -> w_in w = flat_map (fun f => item_stream (Frame (fst f) (snd f))) fs ++ X ->
  urun (fresh_hub w) es = Some u -> ~ In UPacket es ->
  (exists pre, w_in (u_w u) = pre ++ X) /\ u_stages u = [] /\ u_stage u = None /\ stages (w_log (u_w u)) = stages (w_log w).
Proof.
  intros fs X w es u L F I E N. destruct (behind_frames X es fs (fresh_hub w) u F I) as (A & B & C & D); try assumption; try reflexivity.
  { change (21 - 0 <= Z.of_nat (@length (Z * bytes) fs)). rewrite L. lia. }
  splits; assumption.
Qed.
Print Assumptions C118_stages_only_refuted.

(* An application that takes packets only: from the first stage on nothing is read any more. *)
Theorem C118_packets_only_refuted : forall (u : hub) (n : Z) (es : list uevent) (u' : hub), u_stage u = Some n -> urun u es = Some u' -> ~ In UStage es ->
  w_in (u_w u') = w_in (u_w u) /\ u_stage u' = Some n /\
  exists new, w_log (u_w u') = w_log (u_w u) ++ new /\ incoming new = [] /\ stages new = [].
Proof.
  intros u n es u' S E N. destruct (stuck_stage es u u' n E S N) as ((I & new & L & T & F) & H & _).
  splits; [exact I|congruence|]. exists new. splits; assumption.
Qed.
Print Assumptions C118_packets_only_refuted.

(* The program of the repository is an application in this sense. *)
Definition hub_of (y : system) (st : list Z) (ps : list (Z * bytes)) : hub := mkHub (y_w y) (y_loop y) (y_stage y) (y_data y) st ps.
Theorem C118_program : forall (y : system) (e : yevent) (y' : system) (st : list Z) (ps : list (Z * bytes)),
  y_loop y <> Dead -> ystep y e = Some y' -> y_fate y' <> Crashes ->
  exists es st' ps', urun (hub_of y st ps) es = Some (hub_of y' st' ps') /\ (length es <= 2)%nat.
Proof.
  intros y e y' st ps NL E NC. unfold ystep in E. destruct (y_fate y); try discriminate. destruct e as [t1 t2| | | |].
  - exists [UTurn t1 t2], st, ps. split; [|cbn; lia]. cbn [urun ustep hub_of u_loop u_stage u_data u_w u_stages u_packets].
    destruct (y_loop y); try discriminate. destruct (y_stage y); [discriminate|]. destruct (zlen (y_data y) <=? 20); [|discriminate].
    destruct (turn (y_w y) t1 t2) as [w en]. injection E as <-. reflexivity.
  - destruct (y_stage y) as [n|] eqn:S; [|discriminate]. unfold on_stage in E. cbv zeta in E. destruct (n =? StageReady).
    + exists [UStage; UDo CPlay], (st ++ [n]), ps. split; [|cbn; lia]. unfold must in E.
      cbn [urun ustep hub_of u_loop u_stage u_data u_w u_stages u_packets]. rewrite S. cbn [u_loop u_stage u_data u_w u_stages u_packets do_cmd].
      destruct (play (y_w y)) as [w [u|e| |]]; injection E as <-; cbn [y_fate] in NC; try congruence; destruct (y_loop y); try congruence; reflexivity.
    + exists [UStage], (st ++ [n]), ps. split; [|cbn; lia]. cbn [urun ustep hub_of u_loop u_stage u_data u_w u_stages u_packets]. rewrite S.
      destruct ((n =? StagePlay) || (n =? StagePause) || (n =? StageDone)); injection E as <-; reflexivity.
  - destruct (y_data y) as [|[ch p] r] eqn:D; [discriminate|]. exists [UPacket], st, (ps ++ [(ch, p)]). split; [|cbn; lia].
    cbn [urun ustep hub_of u_loop u_stage u_data u_w u_stages u_packets]. rewrite D. destruct (on_packet (y_c y) ch p) as [c f]. injection E as <-. reflexivity.
  - destruct (c_ticked (y_c y)); [|discriminate]. unfold on_tick in E. cbn [c_state] in E. cbv zeta in E. destruct (c_state (y_c y) =? StagePlay).
    + exists [UDo CPause], st, ps. split; [|cbn; lia]. unfold must in E. cbn [urun ustep hub_of u_loop u_stage u_data u_w u_stages u_packets do_cmd].
      destruct (pause (y_w y)) as [w [u|e| |]]; injection E as <-; cbn [y_fate] in NC; try congruence; destruct (y_loop y); try congruence; reflexivity.
    + destruct (c_state (y_c y) =? StagePause).
      * exists [UDo CTeardown], st, ps. split; [|cbn; lia]. unfold must in E. cbn [urun ustep hub_of u_loop u_stage u_data u_w u_stages u_packets do_cmd].
        destruct (teardown (y_w y)) as [w [u|e| |]]; injection E as <-; cbn [y_fate] in NC; try congruence; destruct (y_loop y); try congruence; reflexivity.
      * exists [], st, ps. split; [|cbn; lia]. cbn [urun]. destruct (c_state (y_c y) =? StageDone); injection E as <-; reflexivity.
  - exists [], st, ps. split; [|cbn; lia]. cbn [urun]. cbv zeta in E. destruct (c_running (y_c y)); [|discriminate]. injection E as <-. reflexivity.
Qed.
Print Assumptions C118_program.

(* A session that plays; 21 packets, and the answer to PAUSE behind them.  Without a packet taken the loop stands still; with one taken
   the stage comes. *)
Example C118_case :
  let s := set_cseq (set_session (set_stage (dialled ProtoTCP None (bs "rtsp://h/s")) StagePlay) (bs "1F")) 5 in
  let w := mkW s (flat_map (fun f => item_stream (Frame (fst f) (snd f))) (repeat (0, [128; 96]) 21) ++
                  item_stream (Resp 200 (bs "OK") [mkField (bs "CSeq") (bs " ") (bs "6")] [])) [] [] [] [] in
  let turns := map (fun t => UTurn t t) [1; 2; 3; 4; 5; 6; 7; 8; 9; 10; 11; 12; 13; 14; 15; 16; 17; 18; 19; 20; 21] in
  option_map (fun u => (zlen (u_data u), match ustep u (UTurn 22 22) with Some _ => true | None => false end)) (urun (fresh_hub w) (UDo CPause :: turns)) = Some (21, false) /\
  option_map u_stages (urun (fresh_hub w) (UDo CPause :: turns ++ [UPacket; UTurn 22 22; UStage])) = Some [StagePause].
Proof. cbv zeta. split; vm_compute; reflexivity. Qed.
